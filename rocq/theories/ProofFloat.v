(** The order of binary64 numbers and the extremes of lists of them. *)
From Coq Require Import Floats.SpecFloat.
From Verif Require Import GoBase ModelAggr SpecAggr.

Definition is_nan (x : float) : bool := match x with S754_nan => true | _ => false end.

(** A rank for the comparison: sign/kind class, exponent, mantissa. *)
Definition rank (x : float) : Z * Z * Z :=
  match x with
  | S754_nan => (0, 0, 0)
  | S754_infinity true => (-2, 0, 0)
  | S754_infinity false => (2, 0, 0)
  | S754_zero _ => (0, 0, 0)
  | S754_finite true m e => (-1, - e, Z.neg m)
  | S754_finite false m e => (1, e, Z.pos m)
  end%Z.
Definition lt3 (a b : Z * Z * Z) : Prop :=
  let '(a1, a2, a3) := a in let '(b1, b2, b3) := b in
  (a1 < b1 \/ (a1 = b1 /\ (a2 < b2 \/ (a2 = b2 /\ a3 < b3))))%Z.

Lemma fltb_rank x y : is_nan x = false -> is_nan y = false -> fltb x y = true <-> lt3 (rank x) (rank y).
Proof.
  intros Hx Hy. unfold fltb, SFltb.
  destruct x as [sx|sx| |sx mx ex], y as [sy|sy| |sy my ey]; try discriminate;
    try (destruct sx); try (destruct sy); cbn;
    try (split; [try discriminate; intros; lia | intros; try lia; auto]).
  - destruct (Z.compare_spec ex ey); cbn; subst.
    + change (Pos.compare_cont Eq mx my) with (Pos.compare mx my).
      destruct (Pos.compare_spec mx my); cbn; split; try discriminate; try lia; auto.
    + split; [discriminate|lia].
    + split; [lia|auto].
  - destruct (Z.compare_spec ex ey); cbn; subst.
    + change (Pos.compare_cont Eq mx my) with (Pos.compare mx my).
      destruct (Pos.compare_spec mx my); split; try discriminate; try lia; auto.
    + split; [lia|auto].
    + split; [discriminate|lia].
Qed.

Lemma lt3_irrefl a : ~ lt3 a a.
Proof. destruct a as [[? ?] ?]. cbn. lia. Qed.
Lemma lt3_trans a b c : lt3 a b -> lt3 b c -> lt3 a c.
Proof. destruct a as [[? ?] ?], b as [[? ?] ?], c as [[? ?] ?]. cbn. lia. Qed.
Lemma lt3_total a b : ~ lt3 a b -> ~ lt3 b a -> a = b.
Proof.
  destruct a as [[a1 a2] a3], b as [[b1 b2] b3]. cbn. intros.
  assert (a1 = b1) by lia. assert (a2 = b2) by lia. assert (a3 = b3) by lia. congruence.
Qed.
Lemma lt3_nlt_trans a b c : ~ lt3 a b -> ~ lt3 b c -> ~ lt3 a c.
Proof. destruct a as [[? ?] ?], b as [[? ?] ?], c as [[? ?] ?]. cbn. lia. Qed.

Lemma fltb_rank_f x y : is_nan x = false -> is_nan y = false -> fltb x y = false <-> ~ lt3 (rank x) (rank y).
Proof.
  intros. rewrite <- fltb_rank by auto. destruct (fltb x y); split; congruence.
Qed.

Lemma fltb_irrefl x : is_nan x = false -> fltb x x = false.
Proof. intros. apply fltb_rank_f; auto. apply lt3_irrefl. Qed.

(** Not-less is transitive (on non-NaN). *)
Lemma fle_trans x y z : is_nan x = false -> is_nan y = false -> is_nan z = false ->
  fltb x y = false -> fltb y z = false -> fltb x z = false.
Proof. intros X Y Z. rewrite !fltb_rank_f by auto. apply lt3_nlt_trans. Qed.
Lemma flt_asym x y : is_nan x = false -> is_nan y = false -> fltb x y = true -> fltb y x = false.
Proof.
  intros X Y. rewrite fltb_rank, fltb_rank_f by auto. intros A B. eapply lt3_irrefl, lt3_trans; eauto.
Qed.

(** Minimum: fold from an initial value that is an element or above one. *)
Lemma min_fold xs : forall a, is_nan a = false -> Forall (fun x => is_nan x = false) xs ->
  let m := fold_left (fun a x => if fltb x a then x else a) xs a in
  (m = a \/ In m xs) /\ is_nan m = false /\ fltb a m = false /\ (forall x, In x xs -> fltb x m = false).
Proof.
  induction xs as [|x xs IH]; intros a Ha Hx; cbn.
  { repeat split; auto. now apply fltb_irrefl. intros ? []. }
  inversion Hx; subst. destruct (fltb x a) eqn:E.
  - destruct (IH x) as (I & N & L & A); auto. split; [|split; [|split]]; auto.
    + destruct I as [->|I]; auto.
    + eapply fle_trans with (y := x); auto. now apply flt_asym.
    + intros y [<-|Hy]; auto.
  - destruct (IH a) as (I & N & L & A); auto. split; [|split; [|split]]; auto.
    + tauto.
    + intros y [<-|Hy]; auto. eapply fle_trans with (y := a); auto.
Qed.
Lemma max_fold xs : forall a, is_nan a = false -> Forall (fun x => is_nan x = false) xs ->
  let m := fold_left (fun a x => if fltb a x then x else a) xs a in
  (m = a \/ In m xs) /\ is_nan m = false /\ fltb m a = false /\ (forall x, In x xs -> fltb m x = false).
Proof.
  induction xs as [|x xs IH]; intros a Ha Hx; cbn.
  { repeat split; auto. now apply fltb_irrefl. intros ? []. }
  inversion Hx; subst. destruct (fltb a x) eqn:E.
  - destruct (IH x) as (I & N & L & A); auto. split; [|split; [|split]]; auto.
    + destruct I as [->|I]; auto.
    + eapply fle_trans with (y := x); auto. now apply flt_asym.
    + intros y [<-|Hy]; auto.
  - destruct (IH a) as (I & N & L & A); auto. split; [|split; [|split]]; auto.
    + tauto.
    + intros y [<-|Hy]; auto. eapply fle_trans with (y := a); auto.
Qed.

(** Numbers that the code can produce. *)
Lemma digits_bound p : (Z.pos p < 2 ^ Z.pos (digits2_pos p))%Z.
Proof.
  induction p; cbn [digits2_pos]; rewrite ?Pos2Z.inj_succ, ?Z.pow_succ_r by lia; try lia.
Qed.
Lemma max_float_bound x : valid_binary 53 1024 x = true -> is_nan x = false -> x <> S754_infinity false ->
  fltb max_float x = false /\ (fltb x max_float = false -> x = max_float).
Proof.
  intros V N I. 
  assert (B : match x with S754_finite false m e => (e <= 971 /\ Z.pos m <= 9007199254740991)%Z | _ => True end).
  { destruct x as [s|s| |s m e]; auto. destruct s; auto. cbn in V. unfold bounded, canonical_mantissa in V.
    apply andb_true_iff in V. destruct V as (C & E). apply Z.leb_le in E. split; [lia|].
    apply Zeq_bool_eq in C. unfold fexp, emin in C. pose proof (digits_bound m) as D.
    assert (Z.pos (digits2_pos m) <= 53)%Z by lia.
    assert (2 ^ Z.pos (digits2_pos m) <= 2 ^ 53)%Z by (apply Z.pow_le_mono_r; lia).
    change (2 ^ 53)%Z with 9007199254740992%Z in H0. lia. }
  split.
  - apply fltb_rank_f; auto. unfold max_float. destruct x as [s|s| |s m e]; try destruct s; cbn; try lia; congruence.
  - intros H. apply fltb_rank_f in H; auto. revert H. unfold max_float.
    destruct x as [s|s| |s m e]; try destruct s; cbn; try (intros; exfalso; lia); try congruence.
    intros H. assert (e = 971)%Z by lia. assert (Z.pos m = 9007199254740991)%Z by lia. congruence.
Qed.

Lemma min_extreme xs : xs <> [] -> Forall (fun x => is_nan x = false /\ valid_binary 53 1024 x = true) xs ->
  (exists x, In x xs /\ x <> S754_infinity false) ->
  exists m, aggregate_of MIN xs = Some m /\ In m xs /\ forall x, In x xs -> fltb x m = false.
Proof.
  intros NE F (x0 & I0 & Inf). assert (F' : Forall (fun x => is_nan x = false) xs).
  { eapply Forall_impl; [|exact F]. cbn; intros ? H; apply H. }
  destruct (min_fold xs max_float eq_refl F') as (I & N & L & A).
  set (m := fold_left _ xs max_float) in *.
  exists m. split; [|split; auto]. { unfold aggregate_of. destruct xs; [congruence|]. reflexivity. }
  destruct I as [I|I]; auto.
  rewrite Forall_forall in F. destruct (F _ I0) as (N0 & V0).
  destruct (max_float_bound x0 V0 N0 Inf) as (_ & B). specialize (A _ I0). rewrite I in A.
  rewrite I, <- (B A). auto.
Qed.
Lemma max_extreme xs : xs <> [] -> Forall (fun x => is_nan x = false) xs ->
  exists m, aggregate_of MAX xs = Some m /\ In m xs /\ forall x, In x xs -> fltb m x = false.
Proof.
  intros NE F. destruct (max_fold xs neg_inf eq_refl F) as (I & N & L & A).
  set (m := fold_left _ xs neg_inf) in *.
  exists m. split; [|split; auto]. { unfold aggregate_of. destruct xs; [congruence|]. reflexivity. }
  destruct I as [I|I]; auto.
  destruct xs as [|x xs]; [congruence|]. specialize (A x (or_introl eq_refl)). rewrite I in A.
  inversion F; subst. left. rewrite I. apply fltb_rank_f in A; auto. revert A. unfold neg_inf.
  destruct x as [s|s| |s mm e]; try destruct s; cbn; try congruence; intros; exfalso; lia.
Qed.

Lemma feqb_of_nlt a b : is_nan a = false -> is_nan b = false -> fltb a b = false -> fltb b a = false -> SFeqb a b = true.
Proof.
  intros A B H1 H2. apply fltb_rank_f in H1; auto. apply fltb_rank_f in H2; auto.
  pose proof (lt3_total _ _ H1 H2) as E.
  destruct a as [s|s| |s m e], b as [s'|s'| |s' m' e']; try discriminate; try destruct s; try destruct s';
    cbn in E |- *; try discriminate; auto; inversion E; subst.
  - assert (e = e') by lia. subst. unfold SFeqb, SFcompare. rewrite Z.compare_refl.
    change (Pcompare m' m' Eq) with (Pos.compare m' m'). rewrite Pos.compare_refl. auto.
  - unfold SFeqb, SFcompare. rewrite Z.compare_refl.
    change (Pcompare m' m' Eq) with (Pos.compare m' m'). rewrite Pos.compare_refl. auto.
Qed.

Lemma min_perm xs ys : Permutation xs ys ->
  Forall (fun x => is_nan x = false) xs ->
  match aggregate_of MIN xs, aggregate_of MIN ys with
  | Some a, Some b => SFeqb a b = true | None, None => True | _, _ => False end.
Proof.
  intros P F. assert (F' : Forall (fun x => is_nan x = false) ys) by (eapply Permutation_Forall; eauto).
  destruct xs as [|x xs]. { apply Permutation_nil in P. subst. exact I. }
  destruct ys as [|y ys]. { symmetry in P. apply Permutation_nil in P. discriminate. }
  destruct (min_fold (x :: xs) max_float eq_refl F) as (I & N & L & A).
  destruct (min_fold (y :: ys) max_float eq_refl F') as (I' & N' & L' & A').
  unfold aggregate_of. set (a := fold_left _ (x :: xs) _) in *. set (b := fold_left _ (y :: ys) _) in *.
  apply feqb_of_nlt; auto.
  - destruct I as [->|I]; auto. apply A'. eapply Permutation_in; eauto.
  - destruct I' as [->|I']; auto. apply A. eapply Permutation_in; [symmetry|]; eauto.
Qed.
Lemma max_perm xs ys : Permutation xs ys ->
  Forall (fun x => is_nan x = false) xs ->
  match aggregate_of MAX xs, aggregate_of MAX ys with
  | Some a, Some b => SFeqb a b = true | None, None => True | _, _ => False end.
Proof.
  intros P F. assert (F' : Forall (fun x => is_nan x = false) ys) by (eapply Permutation_Forall; eauto).
  destruct xs as [|x xs]. { apply Permutation_nil in P. subst. exact I. }
  destruct ys as [|y ys]. { symmetry in P. apply Permutation_nil in P. discriminate. }
  destruct (max_fold (x :: xs) neg_inf eq_refl F) as (I & N & L & A).
  destruct (max_fold (y :: ys) neg_inf eq_refl F') as (I' & N' & L' & A').
  unfold aggregate_of. set (a := fold_left _ (x :: xs) _) in *. set (b := fold_left _ (y :: ys) _) in *.
  apply feqb_of_nlt; auto.
  - destruct I' as [->|I']; auto. apply A. eapply Permutation_in; [symmetry|]; eauto.
  - destruct I as [->|I]; auto. apply A'. eapply Permutation_in; eauto.
Qed.

Lemma digits_shift d p : digits2_pos (shift_pos d p) = (digits2_pos p + d)%positive.
Proof.
  unfold shift_pos. induction d using Pos.peano_ind.
  - cbn. now rewrite Pos.add_1_r.
  - rewrite Pos.iter_succ. cbn [digits2_pos]. rewrite IHd. lia.
Qed.
Lemma shift_value d p : Z.pos (shift_pos d p) = (Z.pos p * 2 ^ Z.pos d)%Z.
Proof.
  unfold shift_pos. induction d using Pos.peano_ind.
  - cbn. lia.
  - rewrite Pos.iter_succ. rewrite Pos2Z.inj_xO, IHd. rewrite Pos2Z.inj_succ, Z.pow_succ_r by lia. lia.
Qed.
Lemma round_exact p e : Z.pos (digits2_pos p) = 53%Z -> (-1074 <= e <= 971)%Z ->
  binary_round_aux 53 1024 false (Z.pos p) e loc_Exact = S754_finite false p e.
Proof.
  intros D E. unfold binary_round_aux, shr_fexp. cbn [Zdigits2 shr_record_of_loc].
  replace (fexp 53 1024 (Z.pos (digits2_pos p) + e) - e)%Z with 0%Z.
  2:{ rewrite D. unfold fexp, emin. lia. }
  cbn [shr shr_m loc_of_shr_record round_nearest_even Zdigits2 shr_record_of_loc].
  replace (fexp 53 1024 (Z.pos (digits2_pos p) + e) - e)%Z with 0%Z.
  2:{ rewrite D. unfold fexp, emin. lia. }
  cbn [shr shr_m]. replace (e <=? 1024 - 53)%Z with true; auto. symmetry. apply Z.leb_le. lia.
Qed.
Lemma digits_le p k : (Z.pos p < 2 ^ Z.of_nat k)%Z -> (Z.pos (digits2_pos p) <= Z.of_nat k)%Z.
Proof.
  revert k. induction p; intros k H; (destruct k as [|k]; [change (2 ^ Z.of_nat 0)%Z with 1%Z in H; lia|]);
    rewrite Nat2Z.inj_succ, Z.pow_succ_r in H by lia; cbn [digits2_pos];
    rewrite ?Pos2Z.inj_succ; try (specialize (IHp k ltac:(lia)); lia). lia.
Qed.
Lemma float_of_int_exact n : (0 <= n < 2 ^ 53)%Z -> is_integer (float_of_int n) n.
Proof.
  intros H. destruct n as [|p|p]; [reflexivity| |lia].
  unfold float_of_int, binary_normalize, binary_round.
  pose proof (digits_le p 53 ltac:(apply H)) as D. rewrite Z.add_0_r.
  replace (fexp 53 1024 (Z.pos (digits2_pos p))) with (Z.pos (digits2_pos p) - 53)%Z
    by (unfold fexp, emin; lia).
  unfold shl_align. rewrite Z.sub_0_r.
  destruct (Z.pos (digits2_pos p) - 53)%Z as [|q|d] eqn:Ed; [|lia|].
  - rewrite round_exact by lia. cbn. lia.
  - rewrite round_exact.
    + unfold is_integer. rewrite shift_value. change (- Z.neg d)%Z with (Z.pos d).
      rewrite (Z.max_l (Z.pos d)), (Z.max_r (Z.neg d)) by lia. lia.
    + rewrite digits_shift. lia.
    + lia.
Qed.
