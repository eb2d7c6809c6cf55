(** C85: the WHERE clause of a statement is kept or the statement is refused. *)
From Coq Require Import Lia.
From Verif Require Import GoBase ModelFn ModelQuery ModelVisitor SpecRound SpecSelect SpecValue SpecTest ProofRound3 ProofWhere ProofTest3 ProofTest4 ProofTest5.
Local Open Scope string_scope.

(** DELETE, UPDATE and SELECT with a test in the WHERE clause are read, with the condition just when it consists of
    comparisons. *)
Theorem C85_is_read : forall entries t sets cols x, any_name t -> some assignment_ok sets -> some selector_ok cols -> test_ok x ->
  exists w, (forall e, w = Some e <-> x = Condition e)
    /\ parse entries (delete_where t (Some x)) = Ok [SDelete (new_table t) w]
    /\ (exists s, parse entries (update_where t sets (Some x)) = Ok [SUpdate (new_table t) s w] /\ map c_name s = map fst sets)
    /\ (exists s, parse entries (select_where cols t (Some x)) = Ok [SSelect s] /\ sel_where s = w /\ sel_tables s = [new_table t] /\ sel_selectors s = cols).
Proof.
  intros entries t sets cols x T S C X. exists (kept_test x). split; [|split; [|split]].
  - intro e. destruct x; cbn [kept_test]; split; intro H; try discriminate H; congruence.
  - exact (delete_test entries t (Some x) T X).
  - eexists. split; [exact (update_test entries t sets (Some x) T S X)|]. rewrite map_map. apply map_ext. intros [n []]; reflexivity.
  - eexists. split; [exact (select_test entries cols t (Some x) C T X)|]. repeat split.
Qed.
Print Assumptions C85_is_read.

(** One comparison, or two joined by AND or OR, are kept as they are written.  Missing for the full property: every other
    test, which the theorems below show to be lost, or refused. *)
Theorem C85_partial : forall entries t sets cols e, any_name t -> some assignment_ok sets -> some selector_ok cols -> condition_ok (Some e) ->
  parse entries (delete_where t (Some (Condition e))) = Ok [SDelete (new_table t) (Some e)]
  /\ (exists s, parse entries (update_where t sets (Some (Condition e))) = Ok [SUpdate (new_table t) s (Some e)])
  /\ (exists s, parse entries (select_where cols t (Some (Condition e))) = Ok [SSelect s] /\ sel_where s = Some e).
Proof.
  intros entries t sets cols e T S C X. split; [|split].
  - exact (delete_test entries t (Some (Condition e)) T X).
  - eexists. exact (update_test entries t sets (Some (Condition e)) T S X).
  - eexists. split; [exact (select_test entries cols t (Some (Condition e)) C T X)|reflexivity].
Qed.
Print Assumptions C85_partial.

(** Every other test is dropped without an error: the statement is the one without a WHERE clause, which changes, deletes or
    shows all rows of the table. *)
Theorem C85_dropped_refuted : forall entries t sets cols x, any_name t -> some assignment_ok sets -> some selector_ok cols ->
  test_ok x -> ~ of_comparisons x ->
  parse entries (delete_where t (Some x)) = parse entries (delete_where t None)
  /\ parse entries (update_where t sets (Some x)) = parse entries (update_where t sets None)
  /\ parse entries (select_where cols t (Some x)) = parse entries (select_where cols t None)
  /\ parse entries (delete_where t None) = Ok [SDelete (new_table t) None].
Proof.
  intros entries t sets cols x T S C X N. rewrite !delete_test, !update_test, !select_test by (assumption || exact I).
  destruct x; [destruct N; eexists; reflexivity|repeat split..].
Qed.
Print Assumptions C85_dropped_refuted.

(** After two comparisons another AND or OR is refused, whatever is written after it. *)
Theorem C85_third_refuted : forall entries t a j b j' rest, any_name t -> comparison_ok a -> comparison_ok b ->
  parse entries ("DELETE FROM " ++ t ++ " WHERE " ++ chain_text a j b j' rest) = Err ErrParse
  /\ parse entries ("SELECT * FROM " ++ t ++ " WHERE " ++ chain_text a j b j' rest) = Err ErrParse.
Proof. exact chain_refused. Qed.
Print Assumptions C85_third_refuted.

(** A range, a list and a pattern; the clause is lost. *)
Definition one : literal := mkLit (VStr "1") UnknownLiteral.
Definition no : literal := mkLit (VStr "no") StringLiteral.
Lemma one_ok : literal_ok one.
Proof. apply lo_number. left. split; [discriminate|]. intros x [<-|[]]. unfold digit. cbn. lia. Qed.
Lemma no_ok : literal_ok no.
Proof. apply lo_text, quoteless_plain. intros c [<-|[<-|[]]]; split; discriminate. Qed.
Lemma example_names x : In x ["age"; "name"; "users"; "a"; "b"] -> any_name x.
Proof. intro H. apply any_checked. cbn [In] in H. repeat (destruct H as [<-|H]; [vm_compute; reflexivity|]). contradiction. Qed.
Example C85_example_text : test_text (Enclosed (Within true "age" one one)) = "(age NOT BETWEEN 1 AND 1)"
  /\ test_text (Among false "name" no [one]) = "name IN ('no', 1)" /\ test_text (Related "name" NotLike no) = "name NOT LIKE 'no'"
  /\ delete_where "users" (Some (Related "name" NotLike no)) = "DELETE FROM users WHERE name NOT LIKE 'no'"
  /\ update_where "users" [("age", Literal one)] (Some (Nullness "name" NotNull)) = "UPDATE users SET age = 1 WHERE name NOT NULL"
  /\ select_where [SelCol (new_column "name")] "users" (Some (Negated (ECmp OpEQ (new_column "a") (Some one)))) = "SELECT name FROM users WHERE NOT a = 1"
  /\ chain_text (ECmp OpEQ (new_column "a") (Some one)) true (ECmp OpLT (new_column "b") (Some one)) false "c = 3;" = "a = 1 AND b < 1 OR c = 3;".
Proof. repeat split; vm_compute; reflexivity. Qed.
Example C85_example_ok : any_name "users" /\ test_ok (Enclosed (Within true "age" one one)) /\ test_ok (Among false "name" no [one]) /\ test_ok (Related "name" NotLike no)
  /\ some assignment_ok [("age", Literal one)] /\ some selector_ok [SelCol (new_column "name")]
  /\ ~ of_comparisons (Related "name" NotLike no) /\ of_comparisons (Condition (ECmp OpEQ (new_column "a") (Some one)))
  /\ condition_ok (Some (EAnd (ECmp OpEQ (new_column "a") (Some one)) (ECmp OpLT (new_column "b") (Some no)))).
Proof.
  assert (C : forall op x l, In op [OpEQ; OpNEQ; OpLT; OpGT; OpLE; OpGE] -> In x ["age"; "name"; "users"; "a"; "b"] -> literal_ok l -> comparison_ok (ECmp op (new_column x) (Some l))).
  { intros. constructor; [assumption|apply example_names; assumption|assumption]. }
  split; [apply example_names; cbn; tauto|]. split; [split; [|exact I]; split; [apply example_names; cbn; tauto|split; exact one_ok]|].
  split; [split; [apply example_names; cbn; tauto|constructor; [exact no_ok|constructor; [exact one_ok|constructor]]]|].
  split; [split; [apply example_names; cbn; tauto|exact no_ok]|].
  split; [split; [discriminate|]; constructor; [|constructor]; split; [apply example_names; cbn; tauto|exact one_ok]|].
  split; [split; [discriminate|]; constructor; [|constructor]; constructor; apply example_names; cbn; tauto|].
  split; [intros [e E]; discriminate E|]. split; [eexists; reflexivity|].
  apply cn_and; apply C; try (cbn; tauto); [exact one_ok|exact no_ok].
Qed.
