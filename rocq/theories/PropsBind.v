(** Properties C36 and C37: bound parameters. *)
From Coq Require Import Permutation.
From Verif Require Import GoBase ModelNum ModelUtil ModelQuery ModelEbnf ModelLex ModelVisitor ModelBind SpecRound SpecSpace SpecBind ProofBind ProofBind2 ProofTime ProofText.

Local Notation seq := List.seq.

(** ** C36: the i-th parameter is put in the i-th gap *)

(** A text with a ? in each gap, where neither the pieces nor the rendered parameters have a ? and the
    first piece is not empty; *)
Theorem C36_question_partial : forall x holes params vals, x <> ""%string -> map fst holes = seq 0 (length holes) ->
  clear_of ["?"%char] x holes vals -> rendered params vals -> length params = length holes ->
  bound_text (spread question x holes) params = Ok (spread (value vals) x holes).
Proof. exact question_text. Qed.
Print Assumptions C36_question_partial.
(** a text with $1 to $n, each once, in order (or, if there are at most nine, in any order): the gap $i gets parameter i; *)
Theorem C36_dollar_partial : forall x holes params vals, x <> ""%string -> clear_of ["?"%char; "$"%char] x holes vals ->
  (map fst holes = seq 0 (length holes) \/ Permutation (map fst holes) (seq 0 (length holes)) /\ length holes <= 9) ->
  rendered params vals -> length params = length holes ->
  bound_text (spread dollar x holes) params = Ok (spread (value vals) x holes).
Proof. exact dollar_text. Qed.
Print Assumptions C36_dollar_partial.
(** more parameters than gaps are an error. *)
Theorem C36_question_many_partial : forall entries x holes params vals, x <> ""%string -> map fst holes = seq 0 (length holes) ->
  clear_of ["?"%char; "$"%char] x holes vals -> rendered params vals -> length holes < length params ->
  bound_statements entries (spread question x holes) params = Err ErrNotFound.
Proof. intros entries x holes params vals X K C R L. unfold bound_statements. rewrite (question_many x holes params vals X K C R L). reflexivity. Qed.
Print Assumptions C36_question_many_partial.
Theorem C36_dollar_many_partial : forall entries x holes params vals, x <> ""%string -> clear_of ["?"%char; "$"%char] x holes vals ->
  (map fst holes = seq 0 (length holes) \/ Permutation (map fst holes) (seq 0 (length holes)) /\ length holes <= 9) ->
  rendered params vals -> length holes < length params ->
  bound_statements entries (spread dollar x holes) params = Err ErrNotFound.
Proof. intros entries x holes params vals X C K R L. unfold bound_statements. rewrite (dollar_many x holes params vals X C K R L). reflexivity. Qed.
Print Assumptions C36_dollar_many_partial.
(** So, if the text with the parameters is that of a supported statement, that statement is what one gets; *)
Theorem C36_question_statement_partial : forall entries s x holes params vals, Permutation entries data_type_strings -> supported s ->
  stmt_string s = Ok (spread (value vals) x holes) -> x <> ""%string -> map fst holes = seq 0 (length holes) ->
  clear_of ["?"%char] x holes vals -> rendered params vals -> length params = length holes ->
  bound_statements entries (spread question x holes) params = Ok [s].
Proof. exact question_supported. Qed.
Print Assumptions C36_question_statement_partial.
Theorem C36_dollar_statement_partial : forall entries s x holes params vals, Permutation entries data_type_strings -> supported s ->
  stmt_string s = Ok (spread (value vals) x holes) -> x <> ""%string ->
  (map fst holes = seq 0 (length holes) \/ Permutation (map fst holes) (seq 0 (length holes)) /\ length holes <= 9) ->
  clear_of ["?"%char; "$"%char] x holes vals -> rendered params vals -> length params = length holes ->
  bound_statements entries (spread dollar x holes) params = Ok [s].
Proof. exact dollar_supported. Qed.
Print Assumptions C36_dollar_statement_partial.
(** and an INSERT with a ? or $n for each value gives each column the value of its parameter. *)
Theorem C36_insert_question_partial : forall entries t cols params lits, name t -> some name cols -> Forall2 stands params lits -> params <> [] ->
  (forall s, In (BText s) params -> free ["?"%char] s) ->
  bound_statements entries ("INSERT INTO " ++ t ++ " (" ++ join ", " cols ++ ") VALUES (" ++ join ", " (map (fun _ => "?") params) ++ ")") params
  = Ok [SInsert (new_table t) [map (fun p => new_value_column (fst p) (snd p)) (combine cols lits)]].
Proof. exact insert_question. Qed.
Print Assumptions C36_insert_question_partial.
Theorem C36_insert_dollar_partial : forall entries t cols params lits, name t -> some name cols -> Forall2 stands params lits -> params <> [] ->
  (forall s, In (BText s) params -> free ["?"%char; "$"%char] s) ->
  bound_statements entries ("INSERT INTO " ++ t ++ " (" ++ join ", " cols ++ ") VALUES (" ++ join ", " (map dollar (seq 0 (length params))) ++ ")") params
  = Ok [SInsert (new_table t) [map (fun p => new_value_column (fst p) (snd p)) (combine cols lits)]].
Proof. exact insert_dollar. Qed.
Print Assumptions C36_insert_dollar_partial.
(** The text of a time has its year, month, day, hour, minute and second, and its microseconds if it is not on a
    full second; *)
Theorem C36_time : forall y mo d h mi s ns, moment y mo d h mi s ns ->
  exists ty tmo td th tmi ts tf,
    param_string (BTime y mo d h mi s ns) = Ok ("'" ++ ty ++ "-" ++ tmo ++ "-" ++ td ++ " " ++ th ++ ":" ++ tmi ++ ":" ++ ts ++ tf ++ "'")%string
    /\ field 4 y ty /\ field 2 mo tmo /\ field 2 d td /\ field 2 h th /\ field 2 mi tmi /\ field 2 s ts
    /\ (ns = 0%N /\ tf = ""%string \/ ns <> 0%N /\ exists us, tf = ("." ++ us)%string /\ field 6 (ns / 1000) us).
Proof.
  intros y mo d h mi s ns (Y & Mo & D & H & Mi & S & Ns).
  exists (pad 4 y), (pad 2 mo), (pad 2 d), (pad 2 h), (pad 2 mi), (pad 2 s), (if (ns =? 0)%N then "" else "." ++ pad 6 (ns / 1000))%string.
  split; [|repeat (split; [apply pad_field; [lia|assumption]|])].
  - cbn [param_string]. unfold time_text. f_equal. repeat (rewrite ?ProofFn.sapp_assoc; cbn [append]). reflexivity.
  - destruct (ns =? 0)%N eqn:E.
    + left. apply N.eqb_eq in E. split; [exact E|reflexivity].
    + right. apply N.eqb_neq in E. split; [exact E|]. exists (pad 6 (ns / 1000)). split; [reflexivity|].
      apply pad_field; [lia|]. change (10 ^ N.of_nat 6)%N with 1000000%N. apply N.div_lt_upper_bound; [discriminate|exact Ns].
Qed.
Print Assumptions C36_time.
(** so that times which differ by a microsecond or more have different texts. *)
Theorem C36_time_distinct : forall y mo d h mi s ns y' mo' d' h' mi' s' ns',
  moment y mo d h mi s ns -> moment y' mo' d' h' mi' s' ns' ->
  param_string (BTime y mo d h mi s ns) = param_string (BTime y' mo' d' h' mi' s' ns') ->
  y = y' /\ mo = mo' /\ d = d' /\ h = h' /\ mi = mi' /\ s = s' /\ (ns / 1000 = ns' / 1000)%N.
Proof.
  intros y mo d h mi s ns y' mo' d' h' mi' s' ns' M M' E.
  destruct (C36_time y mo d h mi s ns M) as (ty & tmo & td & th & tmi & ts & tf & P & F1 & F2 & F3 & F4 & F5 & F6 & F7).
  destruct (C36_time y' mo' d' h' mi' s' ns' M') as (ty' & tmo' & td' & th' & tmi' & ts' & tf' & P' & G1 & G2 & G3 & G4 & G5 & G6 & G7).
  rewrite P, P' in E. apply (f_equal (fun r => match r with Ok x => x | _ => ""%string end)) in E. clear P P'.
  assert (L : forall w n m a b, field w n a -> field w m b -> String.length a = String.length b) by (intros w n m a b [A _] [B _]; congruence).
  apply (cut_app "'" "'") in E; [|reflexivity]. destruct E as [_ E].
  apply cut_app in E; [|exact (L _ _ _ _ _ F1 G1)]. destruct E as [-> E]. apply (cut_app "-" "-") in E; [|reflexivity]. destruct E as [_ E].
  apply cut_app in E; [|exact (L _ _ _ _ _ F2 G2)]. destruct E as [-> E]. apply (cut_app "-" "-") in E; [|reflexivity]. destruct E as [_ E].
  apply cut_app in E; [|exact (L _ _ _ _ _ F3 G3)]. destruct E as [-> E]. apply (cut_app " " " ") in E; [|reflexivity]. destruct E as [_ E].
  apply cut_app in E; [|exact (L _ _ _ _ _ F4 G4)]. destruct E as [-> E]. apply (cut_app ":" ":") in E; [|reflexivity]. destruct E as [_ E].
  apply cut_app in E; [|exact (L _ _ _ _ _ F5 G5)]. destruct E as [-> E]. apply (cut_app ":" ":") in E; [|reflexivity]. destruct E as [_ E].
  apply cut_app in E; [|exact (L _ _ _ _ _ F6 G6)]. destruct E as [-> E].
  split; [exact (field_inj _ _ _ _ F1 G1)|]. split; [exact (field_inj _ _ _ _ F2 G2)|]. split; [exact (field_inj _ _ _ _ F3 G3)|].
  split; [exact (field_inj _ _ _ _ F4 G4)|]. split; [exact (field_inj _ _ _ _ F5 G5)|]. split; [exact (field_inj _ _ _ _ F6 G6)|].
  destruct F7 as [[-> ->]|(Z & us & -> & U)], G7 as [[-> ->]|(Z' & us' & -> & U')]; [reflexivity|discriminate E|discriminate E|].
  apply (cut_app "." ".") in E; [|reflexivity]. destruct E as [_ E].
  apply cut_app in E; [|exact (L _ _ _ _ _ U U')]. destruct E as [-> _]. exact (field_inj _ _ _ _ U U').
Qed.
Print Assumptions C36_time_distinct.
(** The property does not hold of all texts and parameters: a ? in a parameter takes the next one, *)
Theorem C36_capture_refuted :
  bound_text "INSERT INTO t (a, b) VALUES (?, ?)" [BText "a?"; BText "b"] = Ok "INSERT INTO t (a, b) VALUES ('a'b'', ?)"%string
  /\ bound_text "INSERT INTO t (a, b) VALUES ($1, $2)" [BText "$2"; BText "b"] = Ok "INSERT INTO t (a, b) VALUES (''b'', $2)"%string.
Proof. split; vm_compute; reflexivity. Qed.
Print Assumptions C36_capture_refuted.
(** so does a ? in a string of the query, and the gap stays, which is read as the value ?; *)
Theorem C36_quoted_refuted : forall entries,
  bound_statements entries "INSERT INTO t (a, b) VALUES ('?', ?)" [BInt 1]
  = Ok [SInsert (new_table "t") [[new_value_column "a" (mkLit (VStr "1") StringLiteral); new_value_column "b" (mkLit (VStr "?") UnknownLiteral)]]].
Proof. intro entries. vm_compute. reflexivity. Qed.
Print Assumptions C36_quoted_refuted.
(** $1 is found in $10, a second $1 gets nothing, and a placeholder at the very start is not found. *)
Theorem C36_numbers_refuted :
  bound_text "VALUES ($10, $1)" [BInt 7] = Ok "VALUES (70, $1)"%string
  /\ bound_text "VALUES ($1, $1)" [BInt 7] = Ok "VALUES (7, $1)"%string
  /\ bound_text "$1" [BInt 7] = Err ErrNotFound /\ bound_text "?" [BInt 7] = Err ErrNotFound.
Proof. repeat split; vm_compute; reflexivity. Qed.
Print Assumptions C36_numbers_refuted.
(** Fewer parameters than gaps are no error. *)
Theorem C36_few_refuted : forall entries,
  bound_statements entries "INSERT INTO t (a, b) VALUES (?, ?)" [BInt 1]
  = Ok [SInsert (new_table "t") [[new_value_column "a" (mkLit (VStr "1") UnknownLiteral); new_value_column "b" (mkLit (VStr "?") UnknownLiteral)]]].
Proof. intro entries. vm_compute. reflexivity. Qed.
Print Assumptions C36_few_refuted.

(** ** C37: a bound string is one string *)

(** The text of a bound string is one string token exactly if its quotes come in pairs; *)
Theorem C37_token_partial : forall v text, param_string (BText v) = Ok text -> (lex text = [mkTok "STRING_LITERAL" text] <-> paired v).
Proof. intros v text E. injection E as <-. exact (text_token v). Qed.
Print Assumptions C37_token_partial.
(** then it is one token of a query, too, with a blank, bracket or comma on both sides; *)
Theorem C37_within_partial : forall a d v b text, param_string (BText v) = Ok text -> paired v ->
  part a -> sep d = true -> (forall c r, b = String c r -> sep c = true) ->
  lex (a ++ String d (text ++ b)) = lex a ++ lex (String d "") ++ [mkTok "STRING_LITERAL" text] ++ lex b.
Proof.
  intros a d v b text E P F D B. assert (E' : text = ("'" ++ v ++ "'")%string) by (cbn [param_string] in E; congruence). subst text.
  replace (("'" ++ v ++ "'") ++ b)%string with ("'" ++ v ++ "'" ++ b)%string by (rewrite !ProofFn.sapp_assoc; reflexivity).
  exact (bound_token a d v b F D P B).
Qed.
Print Assumptions C37_within_partial.
(** then the value is the bound string without the quotes at its ends, *)
Theorem C37_trimmed_partial : forall entries t c v, name t -> name c -> paired v -> free ["?"%char] v ->
  exists w, unquoted v w /\
  bound_statements entries ("INSERT INTO " ++ t ++ " (" ++ c ++ ") VALUES (?)") [BText v]
  = Ok [SInsert (new_table t) [[new_value_column c (mkLit (VStr w) StringLiteral)]]].
Proof. intros entries t c v N C P F. exists (unescape_string v). split; [apply unquoted_trim|exact (one_bound entries t c v N C P F)]. Qed.
Print Assumptions C37_trimmed_partial.
(** which is the bound string if it neither begins nor ends with a quote. *)
Theorem C37_value_partial : forall entries t c v, name t -> name c -> plain_text v -> free ["?"%char] v ->
  bound_statements entries ("INSERT INTO " ++ t ++ " (" ++ c ++ ") VALUES (?)") [BText v]
  = Ok [SInsert (new_table t) [[new_value_column c (mkLit (VStr v) StringLiteral)]]].
Proof.
  intros entries t c v N C P F. assert (S : Forall2 stands [BText v] [mkLit (VStr v) StringLiteral]) by (constructor; [apply st_text, P|constructor]).
  apply (insert_question entries t [c] [BText v] [mkLit (VStr v) StringLiteral] N); [|exact S|discriminate|].
  - split; [discriminate|]. constructor; [exact C|constructor].
  - intros s [E|[]]. injection E as <-. exact F.
Qed.
Print Assumptions C37_value_partial.
(** The property does not hold of all strings: one with a quote can end the literal and add statements, *)
Theorem C37_injection_refuted : forall entries,
  bound_statements entries "INSERT INTO t (a) VALUES (?)" [BText "x'); DROP TABLE t; INSERT INTO t (a) VALUES ('y"]
  = Ok [SInsert (new_table "t") [[new_value_column "a" (mkLit (VStr "x") StringLiteral)]];
        SDropTable [new_table "t"] false;
        SInsert (new_table "t") [[new_value_column "a" (mkLit (VStr "y") StringLiteral)]]].
Proof. intro entries. vm_compute. reflexivity. Qed.
Print Assumptions C37_injection_refuted.
(** or turn the rest of the statement into a comment, *)
Theorem C37_comment_refuted : forall entries,
  bound_statements entries "DELETE FROM t WHERE a = ? AND b = ?" [BText "x'--"; BText "y"]
  = bound_statements entries "DELETE FROM t WHERE a = ?" [BText "x"].
Proof. intro entries. vm_compute. reflexivity. Qed.
Print Assumptions C37_comment_refuted.
(** or is an error, and double quotes around it are lost. *)
Theorem C37_quotes_refuted : forall entries,
  bound_statements entries "INSERT INTO t (a) VALUES (?)" [BText "it's"] = Err ErrParse
  /\ bound_statements entries "INSERT INTO t (a) VALUES (?)" [BText """x"""]
     = Ok [SInsert (new_table "t") [[new_value_column "a" (mkLit (VStr "x") StringLiteral)]]].
Proof. intro entries. split; vm_compute; reflexivity. Qed.
Print Assumptions C37_quotes_refuted.

(** Cases that meet the hypotheses. *)
Example C36_example : forall entries,
  bound_text "UPDATE t SET a = ? WHERE b = ?" [BInt (-3); BTime 2024 1 2 3 4 5 6000]
    = Ok "UPDATE t SET a = -3 WHERE b = '2024-01-02 03:04:05.000006'"%string
  /\ bound_text "f($2, $1)" [BText "x"; BOther (Ok "NULL"%string)] = Ok "f(NULL, 'x')"%string
  /\ bound_statements entries "INSERT INTO t (a, b) VALUES ($1, $2)" [BText "x y"; BInt 12]
     = Ok [SInsert (new_table "t") [[new_value_column "a" (mkLit (VStr "x y") StringLiteral); new_value_column "b" (mkLit (VStr "12") UnknownLiteral)]]].
Proof. intro entries. repeat split; vm_compute; reflexivity. Qed.
Example C36_gaps : exists x holes vals,
  spread question x holes = "UPDATE t SET a = ? WHERE b = ?"%string /\ spread (value vals) x holes = "UPDATE t SET a = 1 WHERE b = 'c'"%string
  /\ x <> ""%string /\ map fst holes = seq 0 (length holes) /\ clear_of ["?"%char; "$"%char] x holes vals
  /\ rendered [BInt 1; BText "c"] vals.
Proof.
  exists "UPDATE t SET a = "%string, [(0, " WHERE b = "%string); (1, ""%string)], ["1"; "'c'"]%string.
  repeat split; try discriminate; repeat constructor; try (apply const_free; reflexivity).
Qed.
Example C36_time_example : moment 2024 1 2 23 4 5 6000 /\ param_string (BTime 2024 1 2 23 4 5 6000) = Ok "'2024-01-02 23:04:05.000006'"%string.
Proof. split; [unfold moment; lia|vm_compute; reflexivity]. Qed.
Example C37_example : paired "it''s" /\ ~ paired "it's".
Proof. split; [repeat (apply pa_char; [discriminate|]); apply pa_two, pa_char; [discriminate|constructor]|].
  intro P. apply text_token in P. vm_compute in P. discriminate P. Qed.
Example C37_plain : plain_text "it''s" /\ ~ plain_text """x""" /\ unquoted """x""" "x".
Proof.
  split; [|split].
  - split; [apply C37_example|]. split.
    + intros c r E. injection E as <- _. intros [Q|Q]; discriminate Q.
    + intros c r E Q. assert (G := f_equal srev E). rewrite ProofFn.srev_append in G.
      change (srev "it''s") with "s''ti"%string in G. cbn in G. injection G as <- _. destruct Q as [Q|Q]; discriminate Q.
  - intros (_ & S & _). apply (S dquote_char "x"""%string eq_refl). right. reflexivity.
  - exists """"%string, """"%string. split; [reflexivity|].
    assert (Q : chars quote_char """") by (intros c [<-|[]]; right; reflexivity). repeat split; try exact Q.
    + intros c r E. injection E as <- _. intros [X|X]; discriminate X.
    + intros c r E. destruct r as [|d [|]]; try discriminate E. injection E as <-. intros [X|X]; discriminate X.
Qed.
