(** Proofs about aggregators: row order, and a sort that meets the contracts. *)
From Coq Require Import Floats.SpecFloat.
From Verif Require Import GoBase ModelResultSet ModelAggr SpecAggr FactsBase ProofAggr ProofAggr2 ProofFloat.

(** *** An insertion sort *)
Fixpoint insert_by (lt : string -> string -> bool) (x : string) (l : list string) : list string :=
  match l with [] => [x] | y :: l' => if lt y x then y :: insert_by lt x l' else x :: l end.
Fixpoint insertion_sort (lt : string -> string -> bool) (l : list string) : list string :=
  match l with [] => [] | x :: l' => insert_by lt x (insertion_sort lt l') end.

Lemma insert_perm lt x l : Permutation (insert_by lt x l) (x :: l).
Proof.
  induction l as [|y l IH]; cbn; auto. destruct (lt y x); auto. rewrite IH. apply perm_swap.
Qed.
Lemma insertion_perm lt l : Permutation (insertion_sort lt l) l.
Proof. induction l as [|x l IH]; cbn; auto. rewrite insert_perm. auto. Qed.
Lemma insert_ext lt lt' x l : (forall y, In y l -> lt y x = lt' y x) -> insert_by lt x l = insert_by lt' x l.
Proof.
  induction l as [|y l IH]; intros H; cbn; auto. rewrite (H y) by (left; auto).
  destruct (lt' y x); auto. f_equal. apply IH. intros; apply H; right; auto.
Qed.
Lemma insertion_ext lt lt' l : (forall a b, In a l -> In b l -> lt a b = lt' a b) ->
  insertion_sort lt l = insertion_sort lt' l.
Proof.
  induction l as [|x l IH]; intros H; cbn; auto. rewrite IH by (intros; apply H; right; auto).
  apply insert_ext. intros y I. apply H; [right|left; auto].
  eapply Permutation_in; [apply insertion_perm|exact I].
Qed.
Lemma insert_in_order lt x l :
  (forall y, In y l -> lt y x = true -> lt x y = false) ->
  (forall y z, In y l -> In z l -> lt z y = false -> lt y x = false -> lt z x = false) ->
  in_order lt l -> in_order lt (insert_by lt x l).
Proof.
  induction l as [|y l IH]; intros A T O; cbn. { split; auto. intros ? []. }
  destruct O as (O1 & O2). destruct (lt y x) eqn:E; cbn.
  - split.
    + intros z I. apply (Permutation_in _ (insert_perm lt x l)) in I. destruct I as [<-|I]; auto.
      apply A; auto. left; auto.
    + apply IH; auto. { intros; apply A; auto; right; auto. }
      intros y0 z I1 I2. apply T; right; auto.
  - split; [|split; auto]. intros z [<-|I]; auto. apply (T y z); auto. left; auto. right; auto.
Qed.
Lemma insertion_contract : sort_contract insertion_sort.
Proof.
  split; [apply insertion_perm|split; [exact insertion_ext|]].
  intros lt l. induction l as [|x l IH]; intros (I & T & N); cbn; auto.
  assert (P : forall y, In y (insertion_sort lt l) -> In y l).
  { intros y. apply Permutation_in, insertion_perm. }
  assert (X : In x (x :: l)) by (left; auto).
  assert (Y : forall y, In y (insertion_sort lt l) -> In y (x :: l)) by (intros; right; auto).
  apply insert_in_order.
  - intros y Iy E. destruct (lt x y) eqn:F; auto. 
    rewrite <- (I x X). symmetry. apply (T x y x); auto.
  - intros y z Iy Iz E1 E2. destruct (lt z x) eqn:F; auto.
    destruct (lt y z) eqn:E3.
    { rewrite <- E2. symmetry. apply (T y z x); auto. }
    destruct (lt x y) eqn:E4.
    { rewrite <- E1. symmetry. apply (T z x y); auto. }
    destruct (N z y x) as (Q & _); auto. congruence.
  - apply IH. split; [|split].
    + intros a Ia. apply I. right; auto.
    + intros a b c Ia Ib Ic. apply T; right; auto.
    + intros a b c Ia Ib Ic. apply N; right; auto.
Qed.

Lemma insertion_distinct : sorts_distinct insertion_sort.
Proof.
  intros lt l. induction l as [|x l IH]; intros ND A T; cbn; auto.
  assert (P : forall y, In y (insertion_sort lt l) -> In y l).
  { intros y. apply Permutation_in, insertion_perm. }
  assert (X : In x (x :: l)) by (left; auto).
  assert (Y : forall y, In y (insertion_sort lt l) -> In y (x :: l)) by (intros; right; auto).
  inversion ND as [|? ? NI ND']; subst.
  assert (NX : forall y, In y (insertion_sort lt l) -> x <> y) by (intros y I ->; auto).
  apply insert_in_order.
  - intros y Iy E. rewrite (A x y); auto. now rewrite E.
  - intros y z Iy Iz E1 E2. destruct (string_dec y z) as [->|D]; auto.
    rewrite (A z x); auto. apply negb_false_iff. apply (T x y z); auto.
    + rewrite (A x y); auto. now rewrite E2.
    + rewrite (A y z); auto. now rewrite E1.
    + apply not_eq_sym. now apply NX.
  - apply IH; auto.
    + intros; apply A; auto; right; auto.
    + intros a b c Ia Ib Ic; apply T; right; auto.
Qed.

Section Order.
  Context {V : Type} (to_float : V -> option float) (to_str : option V -> option string)
          (compare : option V -> option V -> option comparison).
  Notation aggregate_rows := (aggregate_rows to_float to_str).

  Lemma row_order st opts st0 rows rows' mem ob sort iter :
    reset st opts = (st0, Ok tt) -> a_groups st0 = [] ->
    a_kind st0 = COUNT \/ a_kind st0 = MIN \/ a_kind st0 = MAX ->
    accepted (snd (aggregate_rows st0 rows)) -> Permutation rows rows' ->
    (forall r c, In r rows -> In c (fr_cells r) -> number to_float c <> S754_nan) ->
    accepted (snd (aggregate_rows st0 rows')) /\
    exists out out',
      finalize compare mem ob sort iter (fst (aggregate_rows st0 rows)) = Ok (new_fn_rset (a_columns st0) [out]) /\
      finalize compare mem ob sort iter (fst (aggregate_rows st0 rows')) = Ok (new_fn_rset (a_columns st0) [out']) /\
      (a_kind st0 = COUNT -> out = out') /\ (a_kind st0 <> COUNT -> Forall2 same_cell out out').
  Proof.
    intros R G K Acc P NN.
    assert (Acc' : accepted (snd (aggregate_rows st0 rows'))) by (eapply plain_accepts_perm; eauto).
    split; auto. rewrite !(plain_finalize to_float to_str compare st opts st0) by auto.
    do 2 eexists. split; [reflexivity|]. split; [reflexivity|].
    assert (PC : forall i, Permutation (column to_float (map fr_cells rows) i) (column to_float (map fr_cells rows') i)).
    { intros i. unfold column. now apply Permutation_map, Permutation_map. }
    assert (NC : forall i, Forall (fun x => is_nan x = false) (column to_float (map fr_cells rows) i)).
    { intros i. apply Forall_forall. intros x I. unfold column in I. rewrite map_map in I.
      apply in_map_iff in I. destruct I as (r & <- & I).
      destruct (nth_in_or_default i (fr_cells r) None) as [J| ->]; [|reflexivity].
      specialize (NN r _ I J). destruct (number _ _); auto; congruence. }
    assert (C : a_kind st0 = COUNT ->
      aggregates to_float (a_kind st0) 0 (length (a_args st0)) (map fr_cells rows) =
      aggregates to_float (a_kind st0) 0 (length (a_args st0)) (map fr_cells rows')).
    { intros ->. unfold aggregates. apply map_ext. intros i. unfold aggregate_of.
      now rewrite (Permutation_length (PC i)). }
    split; auto. intros NK. unfold aggregates. induction (seq 0 (length (a_args st0))) as [|i l IH]; cbn; constructor; auto.
    specialize (PC i). specialize (NC i). destruct K as [E|[E|E]]; [congruence|rewrite E..].
    - pose proof (min_perm _ _ PC NC) as M.
      destruct (aggregate_of MIN _), (aggregate_of MIN _); cbn; auto; contradiction.
    - pose proof (max_perm _ _ PC NC) as M.
      destruct (aggregate_of MAX _), (aggregate_of MAX _); cbn; auto; contradiction.
  Qed.
End Order.
