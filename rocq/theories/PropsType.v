(** Property C91: what the type of a statement says. *)
From Coq Require Import Lia.
From Verif Require Import GoBase ModelUtil ModelFn ModelQuery ModelEbnf ModelGrammar ModelLex ModelVisitor SpecRound SpecSelect SpecSpell SpecNone SpecStart SpecType
  ProofWhere ProofStart ProofType ProofNone3 ProofTogether.
Local Open Scope string_scope.
Local Open Scope list_scope.

(** Every type has a name of its own, and no statement has the type ALTER INDEX. *)
Theorem C91_names_partial :
  (forall t t', stype_string t = stype_string t' -> t = t') /\ (forall t, stype_string t <> "") /\
  (forall t, t = TAlterIndex \/ exists s, stmt_type s = t) /\ (forall s, stmt_type s <> TAlterIndex).
Proof.
  split; [|split; [|split]].
  - intros [] []; intro E; try reflexivity; discriminate E.
  - intros []; discriminate.
  - intros []; first [left; reflexivity|right].
    + exists (SCreateDatabase "" false). reflexivity.
    + exists (SCreateTable (new_schema "" [] []) false). reflexivity.
    + exists (SCreateIndex (new_schema "" [] []) false). reflexivity.
    + exists (SInsert (new_table "") []). reflexivity.
    + exists (SSelect (new_select [] [] None)). reflexivity.
    + exists (SUpdate (new_table "") [] None). reflexivity.
    + exists (SDelete (new_table "") None). reflexivity.
    + exists (SDropDatabase "" false). reflexivity.
    + exists (SDropTable [] false). reflexivity.
    + exists (SDropIndex "" "" false). reflexivity.
    + exists (SAlterDatabase "" ""). reflexivity.
    + exists (SAlterTable (mkAlter (new_table "") None None None None None None)). reflexivity.
    + exists (SCopy (new_table "") [] "" CopyText). reflexivity.
    + exists SCommit. reflexivity.
    + exists (SVacuum None). reflexivity.
    + exists (STruncate []). reflexivity.
    + exists SBegin. reflexivity.
    + exists SRollback. reflexivity.
    + exists (SUse ""). reflexivity.
  - intros []; discriminate.
Qed.
Print Assumptions C91_names_partial.

(** The text of a statement begins with the name of its type, so the text tells the type; printing fails
    for an ALTER TABLE that adds a column without a definition, and for no other statement. *)
Theorem C91_text_partial : forall s,
  (forall q, stmt_string s = Ok q ->
     (q = stype_string (stmt_type s) \/ exists rest, q = (stype_string (stmt_type s) ++ " " ++ rest)%string) /\
     (forall s', stmt_string s' = Ok q -> stmt_type s' = stmt_type s)) /\
  (forall e, stmt_string s <> Err e) /\
  (stmt_string s = Panic <-> exists a c, s = SAlterTable a /\ al_add_column a = Some c /\ c_def c = None).
Proof.
  intro s. split; [|split; [apply never_err|apply print_panics]]. intros q H. pose proof (printed_led s q H) as L. split; [exact L|].
  intros s' H'. exact (led_type _ _ q (printed_led s' q H') L).
Qed.
Print Assumptions C91_text_partial.

(** The first statement of a text has the type its first words say, whatever follows them and whatever the
    case they are written in. *)
Theorem C91_first_partial : forall entries w T rest ss, word w -> In (to_upper w, T) one_word ->
  parse entries (w ++ " " ++ rest) = Ok ss -> exists s l, ss = s :: l /\ stype_string (stmt_type s) = T.
Proof. exact typed_one. Qed.
Print Assumptions C91_first_partial.
Theorem C91_second_partial : forall entries w x T rest ss, word w -> word x -> In (to_upper w, to_upper x, T) two_words ->
  parse entries (w ++ " " ++ x ++ " " ++ rest) = Ok ss -> exists s l, ss = s :: l /\ stype_string (stmt_type s) = T.
Proof. exact typed_two. Qed.
Print Assumptions C91_second_partial.

(** Every statement that ParseString returns has a text. *)
Theorem C91_printed_partial : forall entries q ss s, parse entries q = Ok ss -> In s ss -> exists x, stmt_string s = Ok x.
Proof. exact read_prints. Qed.
Print Assumptions C91_printed_partial.

(** The full statement fails for DELETE and UPDATE: with a LIMIT they are accepted, and there is no first
    statement. *)
Theorem C91_limited_refuted : forall entries ws, limited ws -> parse entries (line ws) = Ok [].
Proof. exact limited_none. Qed.
Print Assumptions C91_limited_refuted.

Lemma a_word w : In w ["replace"; "Drop"; "table"; "END"; "use"; "Commit"; "oops"] -> word w.
Proof.
  intros H. cbn [In] in H. unfold word, letter, digit, chars.
  repeat (destruct H as [<-|H]; [do 2 eexists; split; [reflexivity|]; split; [vm_compute; lia|]; intros c H; cbn in H; repeat (destruct H as [<-|H]; [vm_compute; lia|]); contradiction|]). contradiction.
Qed.
Lemma a_name x : In x ["s"; "t"; "a"; "b"] -> any_name x.
Proof. intros H. left; left. apply name_checked. cbn [In] in H. repeat (destruct H as [<-|H]; [vm_compute; reflexivity|]). contradiction. Qed.
Example C91_example :
  (word "replace" /\ In (to_upper "replace", "INSERT") one_word /\ is_ok (parse data_type_strings ("replace" ++ " " ++ "INTO t (a) VALUES (1)")%string) = true) /\
  (word "Drop" /\ word "table" /\ In (to_upper "Drop", to_upper "table", "DROP TABLE") two_words /\ is_ok (parse data_type_strings ("Drop" ++ " " ++ "table" ++ " " ++ "t, u")%string) = true) /\
  stmt_string (SUse "d") = Ok "USE d" /\ limited ["UPDATE"; "s.t"; "SET"; "a"; "="; "1"; "WHERE"; "b"; "="; "2"; "LIMIT"; "3"].
Proof.
  split; [|split; [|split]].
  - split; [apply a_word; cbn; tauto|]. split; [vm_compute; tauto|vm_compute; reflexivity].
  - split; [apply a_word; cbn; tauto|]. split; [apply a_word; cbn; tauto|]. split; [vm_compute; tauto|vm_compute; reflexivity].
  - reflexivity.
  - assert (D : forall d, In d ["1"; "2"; "3"] -> number d).
    { intros d H. left. unfold digits, digit, chars. cbn [In] in H. repeat (destruct H as [<-|H]; [split; [discriminate|]; intros c H; cbn in H; repeat (destruct H as [<-|H]; [vm_compute; lia|]); contradiction|]). contradiction. }
    exact (li_update_where "s.t" "a" "1" "b" "2" "3" (ob_dotted "s" "t" (a_name "s" ltac:(cbn; tauto)) (a_name "t" ltac:(cbn; tauto))) (a_name "a" ltac:(cbn; tauto)) (D "1" ltac:(cbn; tauto))
      (a_name "b" ltac:(cbn; tauto)) (D "2" ltac:(cbn; tauto)) (D "3" ltac:(cbn; tauto))).
Qed.

(** C92: two statements without a semicolon between them.  The full statement says that such a text is
    refused; it is read as the two statements. *)
Theorem C92_together_refuted : forall entries u n w rest, word u -> to_upper u = "USE" -> any_name n -> word w ->
  parse entries (u ++ " " ++ n ++ " " ++ w ++ " " ++ rest) = rbind (parse entries (w ++ " " ++ rest)) (fun ss => Ok (SUse n :: ss)).
Proof. exact use_first. Qed.
Print Assumptions C92_together_refuted.
(** so it is for other statements *)
Theorem C92_others_refuted : forall entries,
  (forall a b, In a ["BEGIN"; "COMMIT"; "DELETE FROM t"; "UPDATE t SET a = 1"; "INSERT INTO t (a) VALUES (1)"; "DROP TABLE t"] ->
     In b ["BEGIN"; "COMMIT"; "DELETE FROM t"; "UPDATE t SET a = 1"; "INSERT INTO t (a) VALUES (1)"; "DROP TABLE t"] ->
     exists s s', parse entries a = Ok [s] /\ parse entries b = Ok [s'] /\ parse entries (a ++ " " ++ b) = Ok [s; s']).
Proof.
  intros entries a b A B. cbn [In] in A, B.
  repeat (destruct A as [<-|A]; [repeat (destruct B as [<-|B]; [do 2 eexists; split; [vm_compute; reflexivity|split; vm_compute; reflexivity]|]); contradiction|]). contradiction.
Qed.
Print Assumptions C92_others_refuted.
(** What is refused is a word that begins no statement. *)
Theorem C92_refused_partial : forall entries u n w rest, word u -> to_upper u = "USE" -> any_name n -> word w -> ~ In (to_upper w) first_words ->
  parse entries (u ++ " " ++ n ++ " " ++ w ++ " " ++ rest) = Err ErrParse.
Proof. intros entries u n w rest U E N W F. rewrite (use_first entries u n w rest U E N W), (first_refused entries w rest W F). reflexivity. Qed.
Print Assumptions C92_refused_partial.
Example C92_example : (word "use" /\ to_upper "use" = "USE" /\ any_name "t" /\ word "Commit" /\ parse [] "use t Commit " = Ok [SUse "t"; SCommit])
  /\ word "oops" /\ ~ In (to_upper "oops") first_words.
Proof.
  assert (U : word "use") by (apply a_word; cbn; tauto). assert (C : word "Commit") by (apply a_word; cbn; tauto). assert (T : any_name "t") by (apply a_name; cbn; tauto).
  split; [|split; [apply a_word; cbn; tauto|vm_compute; intro H; repeat (destruct H as [H|H]; [discriminate H|]); contradiction]].
  split; [exact U|]. split; [reflexivity|]. split; [exact T|]. split; [exact C|].
  pose proof (C92_together_refuted [] "use" "t" "Commit" "" U eq_refl T C) as H.
  assert (P : parse [] ("Commit" ++ " " ++ "") = Ok [SCommit]) by (vm_compute; reflexivity). rewrite P in H. exact H.
Qed.
