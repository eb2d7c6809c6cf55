(** Property C43: which conditions and tables of a statement are read back, for all of them. *)
From Coq Require Import Lia Permutation.
From Verif Require Import GoBase ModelUtil ModelNum ModelFn ModelQuery ModelEbnf ModelGrammar ModelLex ModelVisitor SpecFn SpecQuery SpecRound SpecSelect SpecTest SpecSpell
  FactsBase ProofRound4 ProofFn ProofQuery ProofRound3 ProofSelect2 ProofSpell ProofSpell3 ProofTest5 ProofWhere PropsSpell PropsRound.
Local Open Scope string_scope.
Local Open Scope list_scope.

(** the comparisons of a condition, from left to right *)
Fixpoint comparisons (e : expr) : list expr :=
  match e with ECmp _ _ _ => [e] | EAnd a b | EOr a b => comparisons a ++ comparisons b end.

Inductive chained : list expr -> string -> Prop :=
| ch_one a : chained [a] (expr_string a)
| ch_more a j l s : chained l s -> chained (a :: l) (expr_string a ++ " " ++ joint j ++ " " ++ s)%string.
Lemma chained_app j l s l' s' : chained l s -> chained l' s' -> chained (l ++ l') (s ++ " " ++ joint j ++ " " ++ s')%string.
Proof.
  intros A B. induction A as [a|a i l s A IH]; [apply ch_more, B|].
  rewrite !sapp_assoc. cbn [app]. apply ch_more. exact IH.
Qed.
Lemma all_chained e : chained (comparisons e) (expr_string e).
Proof.
  induction e as [o c l|a A b B|a A b B]; cbn [comparisons].
  - apply ch_one.
  - exact (chained_app true _ _ _ _ A B).
  - exact (chained_app false _ _ _ _ A B).
Qed.
Lemma long_chain e : Forall comparison_ok (comparisons e) -> 2 < length (comparisons e) ->
  exists a j b j' rest, comparison_ok a /\ comparison_ok b /\ expr_string e = chain_text a j b j' rest.
Proof.
  intros F L. pose proof (all_chained e) as A. revert F L A. generalize (comparisons e), (expr_string e). intros l s F L A.
  destruct A as [a|a j l s A]; [cbn in L; lia|]. destruct A as [b|b j' l s A]; [cbn in L; lia|].
  inversion F as [|? ? Fa F']; subst. inversion F' as [|? ? Fb F'']; subst.
  exists a, j, b, j', s. split; [exact Fa|]. split; [exact Fb|]. unfold chain_text. rewrite (comparison_as a Fa), (comparison_as b Fb). reflexivity.
Qed.

(** C43: a DELETE whose condition has up to two comparisons is read back as it was, and with three or more its text is refused,
    however they are joined. *)
Theorem C43_delete_conditions : forall entries t e, Permutation entries data_type_strings -> any_name t -> Forall comparison_ok (comparisons e) ->
  exists q, stmt_string (SDelete (new_table t) (Some e)) = Ok q
    /\ parse entries q = if Nat.leb (length (comparisons e)) 2 then Ok [SDelete (new_table t) (Some e)] else Err ErrParse.
Proof.
  intros entries t e P Ht F. destruct (Nat.leb (length (comparisons e)) 2) eqn:L.
  - apply Nat.leb_le in L. apply supported_parse; [exact P|]. constructor; [constructor; exact Ht|].
    assert (N : forall x, 1 <= length (comparisons x)).
    { induction x as [o c l|a A b B|a A b B]; cbn [comparisons]; rewrite ?app_length; cbn; lia. }
    destruct e as [o c l|a b|a b]; cbn [comparisons] in F, L.
    + constructor. inversion F; assumption.
    + rewrite app_length in L. destruct a as [o c l|a a'|a a']; cbn [comparisons] in *; rewrite ?app_length in L;
        try (pose proof (N a); pose proof (N a'); pose proof (N b); lia).
      destruct b as [o' c' l'|b b'|b b']; cbn [comparisons length] in *; rewrite ?app_length in L; try (pose proof (N b); pose proof (N b'); cbn in L; lia).
      inversion F as [|? ? A F']; subst. inversion F' as [|? ? B F'']; subst. apply cn_and; assumption.
    + rewrite app_length in L. destruct a as [o c l|a a'|a a']; cbn [comparisons] in *; rewrite ?app_length in L;
        try (pose proof (N a); pose proof (N a'); pose proof (N b); lia).
      destruct b as [o' c' l'|b b'|b b']; cbn [comparisons length] in *; rewrite ?app_length in L; try (pose proof (N b); pose proof (N b'); cbn in L; lia).
      inversion F as [|? ? A F']; subst. inversion F' as [|? ? B F'']; subst. apply cn_or; assumption.
  - apply Nat.leb_gt in L. destruct (long_chain e F L) as (a & j & b & j' & rest & A & B & E).
    exists ("DELETE FROM " ++ t ++ " WHERE " ++ expr_string e)%string. split.
    { unfold stmt_string, where_strings. rewrite full_name_of_name. reflexivity. }
    rewrite E. exact (proj1 (chain_refused entries t a j b j' rest Ht A B)).
Qed.
Print Assumptions C43_delete_conditions.
Example C43_delete_conditions_example : Forall comparison_ok (comparisons (EOr (EAnd (eq_lit "a" "1") (eq_lit "b" "2")) (eq_lit "c" "3"))).
Proof.
  assert (N : forall c v d, any_name c -> In d (list_ascii_of_string v) -> (forall x, In x (list_ascii_of_string v) -> digit x) -> comparison_ok (eq_lit c v)).
  { intros c v d C D G. apply co_cmp; [left; reflexivity|exact C|]. apply lo_number. left. split; [intros ->; destruct D|exact G]. }
  cbn [comparisons app eq_lit]. constructor; [|constructor; [|constructor; [|constructor]]].
  - apply (N "a" "1" "1"%char); [apply any_checked; vm_compute; reflexivity|left; reflexivity|intros x [<-|[]]; unfold digit; cbn; lia].
  - apply (N "b" "2" "2"%char); [apply any_checked; vm_compute; reflexivity|left; reflexivity|intros x [<-|[]]; unfold digit; cbn; lia].
  - apply (N "c" "3" "3"%char); [apply any_checked; vm_compute; reflexivity|left; reflexivity|intros x [<-|[]]; unfold digit; cbn; lia].
Qed.

(** The schema of the table of an INSERT is lost, whatever it is: the table that is read back has none. *)
Theorem C43_every_schema_refuted : forall entries s t ps, any_name s -> any_name t -> chars (fun c => c <> "."%char) t ->
  some (fun p => any_name (fst p) /\ literal_ok (snd p)) ps ->
  let row := map (fun p => new_value_column (fst p) (snd p)) ps in
  exists q u r, stmt_string (SInsert (mkTbl s t) [row]) = Ok q /\ parse entries q = Ok [SInsert u [r]] /\ t_schema u = "" /\ SInsert u [r] <> SInsert (mkTbl s t) [row].
Proof.
  intros entries s t ps Hs Ht D [N F] row.
  assert (C : some any_name (map fst ps)).
  { split; [destruct ps; [contradiction|discriminate]|]. apply Forall_map. revert F. apply Forall_impl. intros p [A _]. exact A. }
  assert (R : some literal_ok (map snd ps)).
  { split; [destruct ps; [contradiction|discriminate]|]. apply Forall_map. revert F. apply Forall_impl. intros p [_ A]. exact A. }
  exists (line (insert_line ["INSERT"] (Some s) t (map fst ps) [map snd ps])). do 2 eexists. split; [|split; [|split]].
  - unfold stmt_string. rewrite (full_schema s t (any_is s Hs) (any_is t Ht) D). unfold line, insert_line. cbn [app map join insert_columns].
    assert (V : value_string row = join ", " (map literal_text (map snd ps))).
    { unfold value_string, row. rewrite !map_map. unfold join_with_comma. f_equal. apply map_ext_in. intros p I. cbn.
      symmetry. apply literal_as. exact (proj2 (proj1 (Forall_forall _ _) F p I)). }
    assert (M : name_string row = join ", " (map fst ps)).
    { unfold name_string, column_names, row. rewrite map_map. reflexivity. }
    rewrite V, M. reflexivity.
  - assert (X : forall x, Some s = Some x -> plain x) by (intros x E; injection E as <-; apply any_is, Hs).
    assert (R' : some (some literal_ok) [map snd ps]) by (split; [discriminate|constructor; [exact R|constructor]]).
    exact (insert_line_parse entries ["INSERT"] (Some s) t (map fst ps) [map snd ps] (or_introl eq_refl) X (any_is t Ht) C R').
  - reflexivity.
  - intros E. injection E as E _. pose proof (plain_nonempty s (any_is s Hs)) as L. rewrite <- E in L. discriminate.
Qed.
Print Assumptions C43_every_schema_refuted.
Example C43_every_schema_example : any_name "db" /\ chars (fun c => c <> "."%char) "t" /\ parse data_type_strings "INSERT INTO db.t (a) VALUES (1)" = parse data_type_strings "INSERT INTO t (a) VALUES (1)".
Proof. split; [apply any_checked; vm_compute; reflexivity|]. split; [|vm_compute; reflexivity]. intros c I. cbn in I. destruct I as [<-|[]]. discriminate. Qed.
