(** Property C75: what passes the checks of sqltest. *)
From Coq Require Import Lia Permutation.
From Verif Require Import GoBase FactsBase ModelUtil ModelNum ModelQuery ModelEbnf ModelGrammar ModelLex ModelVisitor ModelSqltest
  SpecRound SpecSqltest ProofFn ProofWhere ProofSqltest.

(** A query that passes the strict check is read as one statement, which prints with the same bytes, white space, semicolons and
    upper case aside. *)
Theorem C75_strict : forall entries skip q, test_query_string entries (mkConfig skip StrictValidation) q = Passed ->
  exists s p, parse entries q = Ok [s] /\ stmt_string s = Ok p /\ essence q = essence p.
Proof. exact strict_sound. Qed.
Print Assumptions C75_strict.
(** One that passes the default check prints like that, or with the bytes of a text that is read as a statement printing with
    these bytes again. *)
Theorem C75_default : forall entries skip q, test_query_string entries (mkConfig skip DefaultValidation) q = Passed ->
  exists s p, parse entries q = Ok [s] /\ stmt_string s = Ok p /\
    (essence q = essence p \/ exists t s' p', essence t = essence p /\ parse entries t = Ok [s'] /\ stmt_string s' = Ok p' /\ essence p' = essence p).
Proof. exact default_sound. Qed.
Print Assumptions C75_default.
Theorem C75_parse_only : forall entries skip q, test_query_string entries (mkConfig skip ParseOnlyValidation) q = Passed ->
  exists s l, parse entries q = Ok (s :: l).
Proof. exact parse_only_sound. Qed.
Print Assumptions C75_parse_only.
(** What a statement of the supported forms prints passes every check. *)
Theorem C75_supported : forall entries cfg s, Permutation entries data_type_strings -> supported s ->
  exists q, stmt_string s = Ok q /\ test_query_string entries cfg q = Passed.
Proof.
  intros entries cfg s P S. destruct (supported_parse entries s P S) as (q & Q & R). exists q. split; [exact Q|]. exact (printed_passes entries cfg s q R Q).
Qed.
Print Assumptions C75_supported.
(** Nor does it matter how a query is laid out and in which case its words are, if it prints with the same words. *)
Theorem C75_layout : forall entries cfg q s p ws vs, parse entries q = Ok [s] -> stmt_string s = Ok p ->
  laid_out ws q -> laid_out vs p -> map to_lower ws = map to_lower vs -> test_query_string entries cfg q = Passed.
Proof. exact laid_passes. Qed.
Print Assumptions C75_layout.
Definition an_indented_query : string := "delete" ++ newlines 1 ++ "from  t" ++ newlines 2 ++ "where a = 1".
Example C75_layout_example : parse data_type_strings an_indented_query = Ok [SDelete (new_table "t") (Some (ECmp OpEQ (new_column "a") (Some (mkLit (VStr "1") UnknownLiteral))))]
  /\ laid_out ["delete"; "from"; "t"; "where"; "a"; "="; "1"]%string an_indented_query.
Proof.
  assert (W : forall w, w <> ""%string -> forallb (fun c => negb (is_space c || Ascii.eqb c ";")) (list_ascii_of_string w) = true -> one_word w).
  { intros w N H. split; [exact N|]. intros c I. apply (proj1 (forallb_forall _ _) H) in I. apply negb_true_iff, orb_false_iff in I. destruct I as [A B].
    split; [intro X; apply white_space in X; congruence|intros ->; discriminate B]. }
  assert (G : forall g, forallb is_space (list_ascii_of_string g) = true -> (String.length g >= 2 \/ In g [" "; newlines 1; String (ascii_of_nat 9) ""]%string) -> spacing g).
  { intros g H L. split; [|exact L]. intros c I. apply white_space. exact (proj1 (forallb_forall _ _) H c I). }
  split; [vm_compute; reflexivity|].
  apply (lo_more "delete" (newlines 1)); [apply W; [discriminate|reflexivity]|apply G; [reflexivity|right; right; left; reflexivity]|].
  apply (lo_more "from" "  "); [apply W; [discriminate|reflexivity]|apply G; [reflexivity|left; cbn; lia]|].
  apply (lo_more "t" (newlines 2)); [apply W; [discriminate|reflexivity]|apply G; [reflexivity|left; cbn; lia]|].
  apply (lo_more "where" " "); [apply W; [discriminate|reflexivity]|apply G; [reflexivity|right; left; reflexivity]|].
  apply (lo_more "a" " "); [apply W; [discriminate|reflexivity]|apply G; [reflexivity|right; left; reflexivity]|].
  apply (lo_more "=" " "); [apply W; [discriminate|reflexivity]|apply G; [reflexivity|right; left; reflexivity]|].
  apply lo_one, W; [discriminate|reflexivity].
Qed.
(** The queries of a file are all checked, in order, and the file passes if and only if all of them do. *)
Theorem C75_file_partial : forall entries cfg qs text, file_of qs text ->
  file_queries text = qs /\
  (successful (test_query_file entries cfg text) = true <->
   forall q, In q qs -> test_query_string entries cfg q = Passed \/ test_query_string entries cfg q = Skipped).
Proof.
  intros entries cfg qs text F. pose proof (file_queries_of qs text F) as E. split; [exact E|]. unfold test_query_file. rewrite E, verdicts_fine, Forall_forall. reflexivity.
Qed.
Print Assumptions C75_file_partial.
(** The configuration: the last configuration and the options after it. *)
Theorem C75_config : forall opts c m b,
  test_config (opts ++ [GivenConfig c]) = c /\ test_config (opts ++ [GivenOther]) = test_config opts /\
  cf_mode (test_config (opts ++ [GivenOption (WithMode m)])) = m /\
  cf_skip_errors (test_config (opts ++ [GivenOption (WithMode m)])) = cf_skip_errors (test_config opts) /\
  cf_skip_errors (test_config (opts ++ [GivenOption (WithSkipErrors b)])) = b /\
  cf_mode (test_config (opts ++ [GivenOption (WithSkipErrors b)])) = cf_mode (test_config opts).
Proof. intros. unfold test_config. rewrite !fold_left_app. cbn. tauto. Qed.
Print Assumptions C75_config.

Definition a_file : string := "USE db;" ++ newlines 1 ++ "# none;" ++ newlines 2 ++ "DELETE FROM t;" ++ newlines 1.
Example C75_example : file_of ["USE db"; "DELETE FROM t"]%string a_file /\ test_query_file data_type_strings (default_config []) a_file = [Passed; Passed].
Proof.
  split; [|vm_compute; reflexivity]. unfold a_file.
  assert (Q : forall q, forallb (fun c => negb (Ascii.eqb c ";")) (list_ascii_of_string q) = true ->
    match q with String c _ => negb (existsb (Nat.eqb (nat_of_ascii c)) [10; 32; 35]) | _ => false end = true ->
    match srev q with String c _ => negb (existsb (Nat.eqb (nat_of_ascii c)) [10; 32]) | _ => false end = true -> query_ok q).
  { intros q N F L. split; [destruct q; [discriminate F|discriminate]|]. split; [|split].
    - intro I. rewrite forallb_forall in N. specialize (N _ I). discriminate N.
    - intros c r ->. split; [intros [G| ->]; [rewrite G in F; discriminate F|discriminate F]|intros ->; discriminate F].
    - intros c r ->. rewrite srev_append in L. change (srev (String c "")) with (String c "") in L. cbn [append] in L.
      intros [G| ->]; [rewrite G in L; discriminate L|discriminate L]. }
  apply (fo_query 0 "USE db"); [apply Q; reflexivity|]. apply (fo_comment 1 " none"); [cbn; intuition discriminate|].
  apply (fo_query 2 "DELETE FROM t"); [apply Q; reflexivity|]. apply (fo_end 1).
Qed.

(** A condition that is not read is not missed by the default check. *)
Theorem C75_lost_refuted : exists s p, parse data_type_strings "DELETE FROM t WHERE NOT a = 1" = Ok [s] /\ stmt_string s = Ok p /\
  p = "DELETE FROM t"%string /\ test_query_string data_type_strings (default_config []) "DELETE FROM t WHERE NOT a = 1" = Passed.
Proof. exists (SDelete (new_table "t") None). eexists. vm_compute. tauto. Qed.
Print Assumptions C75_lost_refuted.
(** A semicolon in a string ends the query, and whatever follows a line that begins with # up to the next semicolon is not checked. *)
Theorem C75_string_refuted : file_queries "INSERT INTO t (a) VALUES ('x;y');" = ["INSERT INTO t (a) VALUES ('x"; "y')"]%string.
Proof. vm_compute. reflexivity. Qed.
Print Assumptions C75_string_refuted.
Theorem C75_comment_refuted : forall c q, ~ In ";"%char (list_ascii_of_string c) -> ~ In ";"%char (list_ascii_of_string q) ->
  file_queries ("#" ++ c ++ newlines 1 ++ q ++ ";") = [].
Proof.
  intros c q C Q. apply file_queries_of.
  replace ("#" ++ c ++ newlines 1 ++ q ++ ";")%string with (newlines 0 ++ "#" ++ (c ++ newlines 1 ++ q) ++ ";" ++ newlines 0)%string by (cbn; rewrite !sapp_assoc; reflexivity).
  apply fo_comment; [|apply (fo_end 0)]. intro I. apply no_char_app in I. destruct I as [I|I]; [exact (C I)|]. apply no_char_app in I. destruct I as [[I|[]]|I]; [discriminate I|exact (Q I)].
Qed.
Print Assumptions C75_comment_refuted.
(** A query that is just a comment ends the tests with a panic if it is only to be parsed. *)
Theorem C75_empty_refuted : test_query_string data_type_strings (default_config [WithMode ParseOnlyValidation]) "-- nothing" = Panicked.
Proof. vm_compute. reflexivity. Qed.
Print Assumptions C75_empty_refuted.
