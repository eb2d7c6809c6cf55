(** C86: conditions no statement can hold are refused; C87: so are texts that begin with no statement. *)
From Coq Require Import Lia.
From Verif Require Import GoBase ModelFn ModelQuery ModelVisitor SpecRound SpecSelect SpecValue SpecTest SpecRefuse SpecStart ProofRound3 ProofWhere
  ProofRefuse4 ProofStart.
Local Open Scope string_scope.

(** After WHERE, and after ON, such a beginning makes the statement a syntax error, whatever is written after it. *)
Theorem C86_refused : forall entries t u c l x rest, any_name t -> any_name u -> any_name c -> literal_ok l -> no_condition x ->
  parse entries ("DELETE FROM " ++ t ++ " WHERE " ++ x ++ " " ++ rest) = Err ErrParse
  /\ parse entries ("SELECT * FROM " ++ t ++ " WHERE " ++ x ++ " " ++ rest) = Err ErrParse
  /\ parse entries ("UPDATE " ++ t ++ " SET " ++ c ++ " = " ++ literal_text l ++ " WHERE " ++ x ++ " " ++ rest) = Err ErrParse
  /\ parse entries ("SELECT * FROM " ++ t ++ " JOIN " ++ u ++ " ON " ++ x ++ " " ++ rest) = Err ErrParse.
Proof. exact refused. Qed.
Print Assumptions C86_refused.

(** The join on the equality of two columns of two tables is one of them. *)
Theorem C86_join_refuted : forall entries t u c d rest, any_name t -> any_name u -> any_name c -> any_name d ->
  parse entries ("SELECT * FROM " ++ t ++ " JOIN " ++ u ++ " ON " ++ t ++ "." ++ c ++ " = " ++ u ++ "." ++ d ++ " " ++ rest) = Err ErrParse.
Proof.
  intros entries t u c d rest T U C D.
  assert (L : literal_ok (mkLit (VStr "1") UnknownLiteral)) by (apply lo_number; left; split; [discriminate|]; intros x [<-|[]]; unfold digit; cbn; lia).
  pose proof (nc_qualified t c "=" T C (or_introl eq_refl)) as N.
  destruct (refused entries t u c _ _ (u ++ "." ++ d ++ " " ++ rest) T U C L N) as (_ & _ & _ & P). rewrite !ProofFn.sapp_assoc in P. exact P.
Qed.
Print Assumptions C86_join_refuted.

(** The arithmetic of two columns is the exception: the text is read, without the condition. *)
Theorem C86_sum_refuted : forall entries,
  parse entries "DELETE FROM t WHERE a + b = 1" = Ok [SDelete (new_table "t") None]
  /\ parse entries "UPDATE t SET c = 2 WHERE a * b < 9" = parse entries "UPDATE t SET c = 2"
  /\ parse entries "DELETE FROM t WHERE a + 1 = 1" = Err ErrParse.
Proof. intro entries. vm_compute. repeat split. Qed.
Print Assumptions C86_sum_refuted.

(** two of the beginnings as they are written *)
Lemma some_names x : In x ["age"; "users"; "id"; "o"; "name"] -> any_name x.
Proof. intro H. apply any_checked. cbn [In] in H. repeat (destruct H as [<-|H]; [vm_compute; reflexivity|]). contradiction. Qed.
Example C86_example : no_condition "users.id =" /\ no_condition "age = id" /\ no_condition "age = 1 AND name NOT NULL" /\ no_condition "name NOT NULL OR"
  /\ no_condition "age * 1 <=" /\ no_condition "age = 1 +".
Proof.
  assert (D : digits "1") by (split; [discriminate|]; intros x [<-|[]]; unfold digit; cbn; lia).
  assert (L : literal_ok (mkLit (VStr "1") UnknownLiteral)) by (apply lo_number; left; exact D).
  assert (C : comparison_ok (ECmp OpEQ (new_column "age") (Some (mkLit (VStr "1") UnknownLiteral)))) by (apply co_cmp; [cbn; tauto|apply some_names; cbn; tauto|exact L]).
  assert (T : test_ok (Nullness "name" NotNull)) by (apply some_names; cbn; tauto).
  split; [apply (nc_qualified "users" "id" "="); try (apply some_names); cbn; tauto|].
  split; [apply (nc_columns "age" "=" "id"); try (apply some_names); cbn; tauto|].
  split; [exact (nc_second _ true _ C T I)|]. split; [exact (nc_joined _ false T I)|].
  split; [apply (nc_computed "age" "*" "1" "<="); [apply some_names; cbn; tauto|cbn; tauto|left; exact D|cbn; tauto]|].
  apply (nc_more _ "+" C). cbn; tauto.
Qed.
Example C86_example_text : parse [] "SELECT * FROM users JOIN o ON users.id = o.id WHERE age > 1" = Err ErrParse.
Proof. exact (C86_join_refuted [] "users" "o" "id" "id" "WHERE age > 1" ltac:(apply some_names; cbn; tauto) ltac:(apply some_names; cbn; tauto) ltac:(apply some_names; cbn; tauto) ltac:(apply some_names; cbn; tauto)). Qed.

(** A text whose first word begins no statement is a syntax error, whatever comes after it. *)
Theorem C87_first : forall entries w rest, word w -> ~ In (to_upper w) first_words -> parse entries (w ++ " " ++ rest) = Err ErrParse.
Proof. exact first_refused. Qed.
Print Assumptions C87_first.
(** So is one whose second word does not belong to the first. *)
Theorem C87_second : forall entries w x rest ws, word w -> word x -> In (to_upper w, ws) second_words -> ~ In (to_upper x) ws ->
  parse entries (w ++ " " ++ x ++ " " ++ rest) = Err ErrParse.
Proof. exact second_refused. Qed.
Print Assumptions C87_second.

(** Every first word begins a text that is read. *)
Definition beginning_texts : list (string * string) :=
  [("ALTER", " TABLE t RENAME TO u"); ("ANALYZE", ""); ("ATTACH", " a AS b"); ("BEGIN", ""); ("COMMIT", ""); ("COPY", " t FROM 's'"); ("CREATE", " DATABASE d");
   ("DELETE", " FROM t"); ("DETACH", " d"); ("DROP", " TABLE t"); ("END", ""); ("EXPLAIN", " DELETE FROM t"); ("INSERT", " INTO t (a) VALUES (1)"); ("PRAGMA", " x");
   ("REINDEX", ""); ("RELEASE", " s"); ("REPLACE", " INTO t (a) VALUES (1)"); ("ROLLBACK", ""); ("SAVEPOINT", " s"); ("SELECT", " * FROM t"); ("TRUNCATE", " t");
   ("UPDATE", " t SET a = 1"); ("USE", " d"); ("VACUUM", ""); ("VALUES", " (1)"); ("WITH", " w AS (SELECT a FROM t) DELETE FROM t")].
Example C87_each_word : map fst beginning_texts = first_words
  /\ forallb (fun p => match parse [] (fst p ++ snd p) with Err ErrParse => false | _ => true end) beginning_texts = true.
Proof. split; [reflexivity|vm_compute; reflexivity]. Qed.
Example C87_example : parse [] "grant all on t to u" = Err ErrParse /\ parse [] "SHOW TABLES" = Err ErrParse /\ parse [] "Create User u" = Err ErrParse.
Proof.
  assert (W : forall w, In w ["grant"; "SHOW"; "Create"; "User"] -> word w).
  { intros w H. cbn [In] in H. unfold word, letter, digit, chars.
    repeat (destruct H as [<-|H]; [do 2 eexists; split; [reflexivity|]; split; [vm_compute; lia|]; intros c H; cbn in H; repeat (destruct H as [<-|H]; [vm_compute; lia|]); contradiction|]). contradiction. }
  split; [|split].
  - apply (C87_first [] "grant" "all on t to u"); [apply W; cbn; tauto|]. vm_compute. intuition discriminate.
  - apply (C87_first [] "SHOW" "TABLES"); [apply W; cbn; tauto|]. vm_compute. intuition discriminate.
  - eapply (C87_second [] "Create" "User" "u"); [apply W; cbn; tauto|apply W; cbn; tauto|right; left; reflexivity|]. vm_compute. intuition discriminate.
Qed.
