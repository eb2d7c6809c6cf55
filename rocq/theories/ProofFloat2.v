(** Exactness of binary64 addition, subtraction and multiplication on integers below 2^53. *)
From Coq Require Import Floats.SpecFloat.
From Verif Require Import GoBase ModelAggr ModelFn SpecAggr SpecFn ProofFloat.
Local Open Scope Z_scope.

Lemma iter_pos_iter {A} (f : A -> A) n x : SpecFloat.iter_pos f n x = Pos.iter f x n.
Proof.
  revert x. induction n as [n IH|n IH|]; intros x; cbn; [|now rewrite !IH|reflexivity].
  rewrite !IH. now rewrite !Pos.iter_swap.
Qed.

Lemma shr_exact k q : SpecFloat.iter_pos shr_1 k (Build_shr_record (Z.pos q * 2 ^ Z.pos k) false false) =
  Build_shr_record (Z.pos q) false false.
Proof.
  rewrite iter_pos_iter. revert q. induction k as [|k IH] using Pos.peano_ind; intros q.
  - cbn [Pos.iter]. change (2 ^ 1) with 2. rewrite Z.mul_comm. reflexivity.
  - rewrite Pos.iter_succ.
    replace (Z.pos q * 2 ^ Z.pos (Pos.succ k)) with (Z.pos (xO q) * 2 ^ Z.pos k)
      by (rewrite Pos2Z.inj_succ, Z.pow_succ_r by lia; lia).
    rewrite IH. reflexivity.
Qed.

Lemma digits_mul_pow p k : 0 <= k -> exists q, Z.pos q = Z.pos p * 2 ^ k /\
  Z.pos (digits2_pos q) = Z.pos (digits2_pos p) + k.
Proof.
  intros K. destruct k as [|k|k]; [exists p; lia| |lia].
  exists (shift_pos k p). split; [apply shift_value|]. rewrite digits_shift. lia.
Qed.
(** the number of digits of a dyadic *)
Lemma digits_dyadic p e z : Z.pos p * 2 ^ Z.max e 0 = Z.pos z * 2 ^ Z.max (- e) 0 ->
  Z.pos (digits2_pos p) + e = Z.pos (digits2_pos z).
Proof.
  intros E. destruct (digits_mul_pow p (Z.max e 0)) as (a & A & DA); [lia|].
  destruct (digits_mul_pow z (Z.max (- e) 0)) as (b & B & DB); [lia|].
  assert (a = b) by congruence. subst. lia.
Qed.

Definition dyadic (p : positive) (e : Z) (z : positive) : Prop :=
  Z.pos p * 2 ^ Z.max e 0 = Z.pos z * 2 ^ Z.max (- e) 0.

Lemma fexp_int z : Z.pos (digits2_pos z) <= 53 ->
  fexp 53 1024 (Z.pos (digits2_pos z)) = Z.pos (digits2_pos z) - 53.
Proof. intros H. unfold fexp, emin. lia. Qed.

(** shifting right without loss *)
Lemma dyadic_shr p e z : dyadic p e z -> forall n, 0 < n -> n <= - e ->
  exists q, Z.pos p = Z.pos q * 2 ^ n /\ dyadic q (e + n) z.
Proof.
  unfold dyadic. intros D n N L.
  exists (Z.to_pos (Z.pos z * 2 ^ (- e - n))).
  assert (0 < 2 ^ (- e - n)) by (apply Z.pow_pos_nonneg; lia).
  rewrite Z2Pos.id by lia.
  replace (Z.max e 0) with 0 in D by lia. replace (Z.max (- e) 0) with (- e) in D by lia.
  rewrite Z.pow_0_r, Z.mul_1_r in D. split.
  - rewrite <- Z.mul_assoc, <- Z.pow_add_r by lia. rewrite D. f_equal. f_equal. lia.
  - replace (Z.max (e + n) 0) with 0 by lia. replace (Z.max (- (e + n)) 0) with (- e - n) by lia.
    rewrite Z.pow_0_r. lia.
Qed.

Lemma aux_value s p e z : dyadic p e z -> Z.pos z < 2 ^ 53 ->
  exists q f, binary_round_aux 53 1024 s (Z.pos p) e loc_Exact = S754_finite s q f /\ dyadic q f z.
Proof.
  intros D B. pose proof (digits_le z 53 B) as DZ.
  pose proof (digits_dyadic p e z D) as DP.
  unfold binary_round_aux, shr_fexp. cbn [Zdigits2 shr_record_of_loc].
  rewrite DP, fexp_int by exact DZ.
  assert (EB : e <= 53) by lia.
  assert (NL : 0 < Z.pos (digits2_pos z) - 53 - e -> Z.pos (digits2_pos z) - 53 - e <= - e) by lia.
  destruct (Z.pos (digits2_pos z) - 53 - e) as [|n|n] eqn:N.
  - cbn [shr shr_m loc_of_shr_record round_nearest_even Zdigits2 shr_record_of_loc].
    rewrite DP, fexp_int, N by exact DZ. cbn [shr shr_m].
    replace (e <=? 1024 - 53) with true by (symmetry; apply Z.leb_le; lia). eauto.
  - destruct (dyadic_shr p e z D (Z.pos n)) as (q & Q & DQ); [lia|apply NL; lia|].
    cbn [shr]. rewrite Q, shr_exact.
    cbn [shr_m loc_of_shr_record round_nearest_even Zdigits2 shr_record_of_loc].
    rewrite (digits_dyadic q _ z DQ), fexp_int by exact DZ.
    replace (Z.pos (digits2_pos z) - 53 - (e + Z.pos n)) with 0 by lia. cbn [shr shr_m].
    replace (e + Z.pos n <=? 1024 - 53) with true by (symmetry; apply Z.leb_le; lia). eauto.
  - cbn [shr shr_m loc_of_shr_record round_nearest_even Zdigits2 shr_record_of_loc].
    rewrite DP, fexp_int, N by exact DZ. cbn [shr shr_m].
    replace (e <=? 1024 - 53) with true by (symmetry; apply Z.leb_le; lia). eauto.
Qed.

Lemma dyadic_shl p e z e' : dyadic p e z -> dyadic (fst (shl_align p e e')) (snd (shl_align p e e')) z.
Proof.
  intros D. unfold shl_align. destruct (e' - e) as [|d|d] eqn:E; try exact D. cbn [fst snd].
  unfold dyadic in *. rewrite shift_value.
  assert (X : e = e' + Z.pos d) by lia. clear E. subst e.
  assert (P : forall a b c : Z, 0 <= a -> 0 <= b -> 2 ^ a * 2 ^ b = 2 ^ (a + b)) by (intros; now rewrite Z.pow_add_r).
  assert (0 < 2 ^ Z.max (- (e' + Z.pos d)) 0) by (apply Z.pow_pos_nonneg; lia).
  assert (0 < 2 ^ Z.max (e' + Z.pos d) 0) by (apply Z.pow_pos_nonneg; lia).
  destruct (Z.le_gt_cases 0 e').
  - replace (Z.max (- e') 0) with 0 by lia. replace (Z.max (- (e' + Z.pos d)) 0) with 0 in D by lia.
    rewrite <- D. replace (Z.max (e' + Z.pos d) 0) with (Z.pos d + Z.max e' 0) by lia.
    rewrite Z.pow_add_r by lia. lia.
  - replace (Z.max e' 0) with 0 by lia. rewrite Z.pow_0_r, Z.mul_1_r.
    destruct (Z.le_gt_cases 0 (e' + Z.pos d)).
    + replace (Z.max (- (e' + Z.pos d)) 0) with 0 in D by lia. rewrite Z.pow_0_r, Z.mul_1_r in D.
      rewrite <- D. rewrite <- Z.mul_assoc, <- Z.pow_add_r by lia. f_equal. f_equal. lia.
    + replace (Z.max (e' + Z.pos d) 0) with 0 in D by lia. rewrite Z.pow_0_r, Z.mul_1_r in D.
      rewrite D. rewrite <- Z.mul_assoc, <- Z.pow_add_r by lia. f_equal. f_equal. lia.
Qed.

Lemma round_value s p e z : dyadic p e z -> Z.pos z < 2 ^ 53 ->
  exists q f, binary_round 53 1024 s p e = S754_finite s q f /\ dyadic q f z.
Proof.
  intros D B. unfold binary_round. pose proof (dyadic_shl p e z (fexp 53 1024 (Z.pos (digits2_pos p) + e)) D) as D'.
  destruct (shl_align p e _) as (mz, ez). cbn [fst snd] in D'. now apply aux_value.
Qed.

Lemma float_is_finite s p e z : float_is (S754_finite s p e) z <->
  exists q, z = (if s then Z.neg q else Z.pos q) /\ dyadic p e q.
Proof.
  unfold float_is, float_num, float_den, dyadic. cbn [is_finite].
  assert (0 < 2 ^ Z.max e 0) by (apply Z.pow_pos_nonneg; lia).
  assert (0 < 2 ^ Z.max (- e) 0) by (apply Z.pow_pos_nonneg; lia).
  split.
  - intros (_ & E). destruct s.
    + exists (Z.to_pos (- z)). assert (0 < - z) by nia.
      assert (Z.neg (Z.to_pos (- z)) = z) by (rewrite <- (Pos2Z.opp_pos), Z2Pos.id by lia; lia).
      split; [auto|]. rewrite Z2Pos.id by lia. change (Z.neg p) with (- Z.pos p) in E. lia.
    + exists (Z.to_pos z). assert (0 < z) by nia. rewrite Z2Pos.id by lia. auto.
  - intros (q & -> & E). split; [reflexivity|]. destruct s; [|exact E].
    change (Z.neg p) with (- Z.pos p). change (Z.neg q) with (- Z.pos q). lia.
Qed.

Lemma normalize_value m e b z : - 2 ^ 53 < z < 2 ^ 53 ->
  m * 2 ^ Z.max e 0 = z * 2 ^ Z.max (- e) 0 -> float_is (binary_normalize 53 1024 m e b) z.
Proof.
  intros B E.
  assert (0 < 2 ^ Z.max e 0) by (apply Z.pow_pos_nonneg; lia).
  assert (0 < 2 ^ Z.max (- e) 0) by (apply Z.pow_pos_nonneg; lia).
  destruct m as [|p|p]; cbn [binary_normalize].
  - split; [reflexivity|]. cbn [float_num float_den]. nia.
  - assert (P : 0 < z) by nia. destruct z as [|z|z]; try lia.
    destruct (round_value false p e z) as (q & f & R & D); [exact E|lia|].
    rewrite R. apply float_is_finite. eauto.
  - assert (P : z < 0) by nia. destruct z as [|z|z]; try lia.
    destruct (round_value true p e z) as (q & f & R & D); [|lia|].
    { unfold dyadic. change (Z.neg p) with (- Z.pos p) in E. change (Z.neg z) with (- Z.pos z) in E. lia. }
    rewrite R. apply float_is_finite. eauto.
Qed.

Lemma float_of_int_value z : - 2 ^ 53 < z < 2 ^ 53 -> float_is (float_of_int z) z.
Proof. intros B. apply normalize_value; [auto|]. change (Z.max 0 0) with 0. change (Z.max (- 0) 0) with 0. reflexivity. Qed.

(** the aligned mantissas *)
Lemma shl_mantissa p e e' : e' <= e -> Z.pos (fst (shl_align p e e')) = Z.pos p * 2 ^ (e - e').
Proof.
  intros L. unfold shl_align. destruct (e' - e) as [|d|d] eqn:E; [|lia|].
  - replace (e - e') with 0 by lia. cbn [fst]. lia.
  - replace (e - e') with (Z.pos d) by lia. apply shift_value.
Qed.
Lemma pow_split a b : 0 <= a -> 0 <= b -> 2 ^ (a + b) = 2 ^ a * 2 ^ b.
Proof. apply Z.pow_add_r. Qed.

Lemma aligned s p e z ez : ez <= e -> float_is (S754_finite s p e) z ->
  cond_Zopp s (Z.pos (fst (shl_align p e ez))) * 2 ^ Z.max ez 0 = z * 2 ^ Z.max (- ez) 0.
Proof.
  intros L F. apply float_is_finite in F. destruct F as (q & -> & D). unfold dyadic in D.
  rewrite shl_mantissa by auto.
  assert (H : Z.pos p * 2 ^ (e - ez) * 2 ^ Z.max ez 0 = Z.pos q * 2 ^ Z.max (- ez) 0).
  { assert (X : (Z.pos p * 2 ^ Z.max e 0) * 2 ^ (Z.max (- ez) 0 - Z.max (- e) 0) =
                Z.pos p * 2 ^ (e - ez) * 2 ^ Z.max ez 0).
    { rewrite <- !Z.mul_assoc, <- !Z.pow_add_r by lia. f_equal. f_equal. lia. }
    rewrite <- X, D. rewrite <- !Z.mul_assoc, <- !Z.pow_add_r by lia. f_equal. f_equal. lia. }
  destruct s; cbn [cond_Zopp]; [|exact H]. change (Z.neg q) with (- Z.pos q). lia.
Qed.

Lemma is_zero_float s z : float_is (S754_zero s) z -> z = 0.
Proof. intros (_ & E). cbn [float_num float_den] in E. lia. Qed.
Lemma zero_is s : float_is (S754_zero s) 0.
Proof. split; reflexivity. Qed.

Lemma fadd_exact x y a b : float_is x a -> float_is y b -> - 2 ^ 53 < a + b < 2 ^ 53 -> float_is (fadd x y) (a + b).
Proof.
  intros X Y B. unfold fadd.
  destruct x as [sx|sx| |sx mx ex]; try (destruct X; discriminate);
  destruct y as [sy|sy| |sy my ey]; try (destruct Y; discriminate).
  - apply is_zero_float in X. apply is_zero_float in Y. subst. cbn. destruct (Bool.eqb sx sy); apply zero_is.
  - apply is_zero_float in X. subst. exact Y.
  - apply is_zero_float in Y. subst. rewrite Z.add_0_r. exact X.
  - cbn [SFadd]. apply normalize_value; [exact B|].
    rewrite !Z.mul_add_distr_r. f_equal; apply aligned; auto; lia.
Qed.
Lemma fsub_exact x y a b : float_is x a -> float_is y b -> - 2 ^ 53 < a - b < 2 ^ 53 -> float_is (fsub x y) (a - b).
Proof.
  intros X Y B. unfold fsub.
  destruct x as [sx|sx| |sx mx ex]; try (destruct X; discriminate);
  destruct y as [sy|sy| |sy my ey]; try (destruct Y; discriminate).
  - apply is_zero_float in X. apply is_zero_float in Y. subst. cbn. destruct (Bool.eqb sx (negb sy)); apply zero_is.
  - apply is_zero_float in X. subst. cbn [SFsub]. apply float_is_finite in Y. destruct Y as (q & -> & D).
    apply float_is_finite. exists q. split; [destruct sy; reflexivity|exact D].
  - apply is_zero_float in Y. subst. rewrite Z.sub_0_r. exact X.
  - cbn [SFsub]. apply normalize_value; [exact B|].
    rewrite !Z.mul_sub_distr_r. f_equal; apply aligned; auto; lia.
Qed.
Lemma fmul_exact x y a b : float_is x a -> float_is y b -> - 2 ^ 53 < a * b < 2 ^ 53 -> float_is (fmul x y) (a * b).
Proof.
  intros X Y B. unfold fmul.
  destruct x as [sx|sx| |sx mx ex]; try (destruct X; discriminate);
  destruct y as [sy|sy| |sy my ey]; try (destruct Y; discriminate).
  - apply is_zero_float in X. subst. apply zero_is.
  - apply is_zero_float in X. subst. apply zero_is.
  - apply is_zero_float in Y. subst. rewrite Z.mul_0_r. apply zero_is.
  - cbn [SFmul]. apply float_is_finite in X. destruct X as (p & -> & DX).
    apply float_is_finite in Y. destruct Y as (q & -> & DY).
    assert (D : dyadic (mx * my) (ex + ey) (p * q)).
    { unfold dyadic in *. rewrite !Pos2Z.inj_mul.
      assert (H : (Z.pos mx * 2 ^ Z.max ex 0) * (Z.pos my * 2 ^ Z.max ey 0) =
                  (Z.pos p * 2 ^ Z.max (- ex) 0) * (Z.pos q * 2 ^ Z.max (- ey) 0)) by congruence.
      assert (C : exists c, 0 <= c /\ Z.max ex 0 + Z.max ey 0 = Z.max (ex + ey) 0 + c /\
                            Z.max (- ex) 0 + Z.max (- ey) 0 = Z.max (- (ex + ey)) 0 + c).
      { exists (Z.max ex 0 + Z.max ey 0 - Z.max (ex + ey) 0). lia. }
      destruct C as (c & C0 & C1 & C2).
      assert (0 < 2 ^ c) by (apply Z.pow_pos_nonneg; lia).
      apply (Z.mul_reg_r _ _ (2 ^ c)); [lia|].
      rewrite <- !Z.mul_assoc, <- !Z.pow_add_r by lia. rewrite <- C1, <- C2.
      rewrite !Z.pow_add_r by lia. rewrite !Z.mul_assoc in *.
      rewrite <- (Z.mul_assoc _ (2 ^ Z.max ex 0) (Z.pos my)) in H. rewrite (Z.mul_comm (2 ^ Z.max ex 0)) in H.
      rewrite <- (Z.mul_assoc _ (2 ^ Z.max (- ex) 0) (Z.pos q)) in H. rewrite (Z.mul_comm (2 ^ Z.max (- ex) 0)) in H.
      rewrite !Z.mul_assoc in H. exact H. }
    destruct (aux_value (xorb sx sy) (mx * my) (ex + ey) (p * q) D) as (m & f & R & D').
    { destruct sx, sy; cbn in B; lia. }
    rewrite R. apply float_is_finite. exists (p * q)%positive. split; [destruct sx, sy; reflexivity|exact D'].
Qed.

(** A sum of integers is exact as long as the partial sums are. *)
Lemma sum_exact xs zs acc a : Forall2 float_is xs zs -> float_is acc a ->
  (forall n, - 2 ^ 53 < a + fold_right Z.add 0 (firstn n zs) < 2 ^ 53) ->
  float_is (fold_left fadd xs acc) (a + fold_right Z.add 0 zs).
Proof.
  intros F. revert acc a. induction F as [|x z xs zs X F IH]; intros acc a A B.
  - cbn. now rewrite Z.add_0_r.
  - cbn [fold_left fold_right]. rewrite Z.add_assoc. apply IH.
    + apply fadd_exact; auto. specialize (B 1%nat). cbn in B. now rewrite Z.add_0_r in B.
    + intros n. specialize (B (S n)). cbn in B. now rewrite Z.add_assoc in B.
Qed.

(** Division of a multiple. *)
Lemma div_dyadic mx ex my ey b c : dyadic mx ex (b * c) -> dyadic my ey b ->
  Z.pos (digits2_pos (b * c)) <= 53 ->
  exists q e, SFdiv_core_binary 53 1024 (Z.pos mx) ex (Z.pos my) ey = (Z.pos q, e, loc_Exact) /\ dyadic q e c.
Proof.
  intros DA DB L. unfold SFdiv_core_binary. cbn [Zdigits2].
  rewrite (digits_dyadic mx ex _ DA), (digits_dyadic my ey _ DB).
  set (e' := Z.min _ _).
  assert (E1 : e' <= ex - ey) by (subst e'; lia).
  assert (E2 : e' <= 0) by (subst e'; unfold fexp, emin; lia).
  clearbody e'.
  assert (M : forall m', m' = Z.pos mx * 2 ^ (ex - ey - e') -> m' = (Z.pos c * 2 ^ (- e')) * Z.pos my).
  { intros m' ->. unfold dyadic in *. rewrite Pos2Z.inj_mul in DA.
    assert (0 < 2 ^ Z.max ex 0) by (apply Z.pow_pos_nonneg; lia).
    assert (0 < 2 ^ Z.max ey 0) by (apply Z.pow_pos_nonneg; lia).
    apply (Z.mul_reg_r _ _ (2 ^ Z.max ex 0 * 2 ^ Z.max ey 0)); [nia|].
    transitivity ((Z.pos mx * 2 ^ Z.max ex 0) * (2 ^ (ex - ey - e') * 2 ^ Z.max ey 0)); [lia|].
    rewrite DA.
    transitivity ((Z.pos my * 2 ^ Z.max ey 0) * (Z.pos c * (2 ^ (- e') * 2 ^ Z.max ex 0))); [|lia].
    rewrite DB.
    transitivity (Z.pos b * Z.pos c * (2 ^ Z.max (- ex) 0 * (2 ^ (ex - ey - e') * 2 ^ Z.max ey 0))); [lia|].
    transitivity (Z.pos b * Z.pos c * (2 ^ Z.max (- ey) 0 * (2 ^ (- e') * 2 ^ Z.max ex 0))); [|lia].
    f_equal. rewrite <- !Z.pow_add_r by lia. f_equal. lia. }
  set (m' := match ex - ey - e' with Z0 => _ | Z.pos _ => _ | Z.neg _ => _ end).
  assert (M' : m' = Z.pos mx * 2 ^ (ex - ey - e')).
  { subst m'. destruct (ex - ey - e') as [|s|s] eqn:S; [lia| |lia]. apply Z.shiftl_mul_pow2. lia. }
  apply M in M'. clearbody m'. subst m'.
  assert (P : 0 < Z.pos c * 2 ^ (- e')) by (assert (0 < 2 ^ (- e')) by (apply Z.pow_pos_nonneg; lia); lia).
  destruct (Z.div_eucl (Z.pos c * 2 ^ (- e') * Z.pos my) (Z.pos my)) as (q, r) eqn:Q.
  pose proof (Z.div_mul (Z.pos c * 2 ^ (- e')) (Z.pos my) ltac:(lia)) as Q1.
  pose proof (Z.mod_mul (Z.pos c * 2 ^ (- e')) (Z.pos my) ltac:(lia)) as R1.
  unfold Z.div in Q1. unfold Z.modulo in R1. rewrite Q in Q1, R1. subst q r.
  exists (Z.to_pos (Z.pos c * 2 ^ (- e'))), e'. rewrite Z2Pos.id by lia. split.
  - f_equal. unfold new_location. destruct (Z.even (Z.pos my)); reflexivity.
  - unfold dyadic. rewrite Z2Pos.id by lia. replace (Z.max e' 0) with 0 by lia.
    replace (Z.max (- e') 0) with (- e') by lia. lia.
Qed.

Lemma fdiv_exact x y b c : float_is x (b * c) -> float_is y b -> b <> 0 -> - 2 ^ 53 < b * c < 2 ^ 53 ->
  float_is (fdiv x y) c.
Proof.
  intros X Y NZ B. unfold fdiv.
  destruct y as [sy|sy| |sy my ey]; try (destruct Y; discriminate); [apply is_zero_float in Y; contradiction|].
  destruct x as [sx|sx| |sx mx ex]; try (destruct X; discriminate).
  - apply is_zero_float in X. assert (c = 0) by nia. subst. apply zero_is.
  - apply float_is_finite in Y. destruct Y as (q & -> & DY).
    apply float_is_finite in X. destruct X as (p & E & DX).
    destruct c as [|c|c]; [destruct sx, sy; lia| |].
    + assert (p = (q * c)%positive) by (destruct sx, sy; lia). subst p.
      destruct (div_dyadic mx ex my ey q c DX DY) as (m & f & R & D).
      { apply (digits_le _ 53). destruct sx, sy; lia. }
      cbn [SFdiv]. rewrite R.
      destruct (aux_value (xorb sx sy) m f c D) as (m' & f' & R' & D').
      { destruct sx, sy; try lia; cbn in B; nia. }
      rewrite R'. apply float_is_finite. exists c. split; [destruct sx, sy; cbn; lia|exact D'].
    + assert (p = (q * c)%positive) by (destruct sx, sy; lia). subst p.
      destruct (div_dyadic mx ex my ey q c DX DY) as (m & f & R & D).
      { apply (digits_le _ 53). destruct sx, sy; lia. }
      cbn [SFdiv]. rewrite R.
      destruct (aux_value (xorb sx sy) m f c D) as (m' & f' & R' & D').
      { destruct sx, sy; try lia; cbn in B; nia. }
      rewrite R'. apply float_is_finite. exists c. split; [destruct sx, sy; cbn; lia|exact D'].
Qed.

(** Conversion to int. *)
Lemma trunc_value x z : float_is x z -> float_trunc x = Some z.
Proof.
  intros F. destruct x as [s|s| |s m e]; try (destruct F; discriminate).
  - apply is_zero_float in F. subst. reflexivity.
  - destruct F as (_ & E). cbn [float_trunc]. f_equal. unfold float_num, float_den in E.
    change (if s then Z.neg m else Z.pos m) with (smant s m) in E. generalize dependent (smant s m). intros v E.
    destruct (Z.leb_spec 0 e).
    + rewrite (Z.max_l e), (Z.max_r (- e)) in E by lia. rewrite Z.pow_0_r in E. lia.
    + rewrite (Z.max_r e), (Z.max_l (- e)) in E by lia. rewrite Z.pow_0_r, Z.mul_1_r in E. subst v.
      apply Z.quot_mul. assert (0 < 2 ^ (- e)) by (apply Z.pow_pos_nonneg; lia). lia.
Qed.
Lemma go_int_value odd x z : float_is x z -> - 2 ^ 53 < z < 2 ^ 53 -> go_int odd x = z.
Proof.
  intros F B. unfold go_int, to_int. rewrite (trunc_value x z F).
  assert (I : in_int64 z = true).
  { unfold in_int64. apply andb_true_iff. rewrite Z.leb_le, Z.ltb_lt. lia. }
  now rewrite I.
Qed.
Lemma rem_bound a b : - 2 ^ 53 < a < 2 ^ 53 -> b <> 0 -> - 2 ^ 53 < Z.rem a b < 2 ^ 53.
Proof.
  intros A B. pose proof (Z.rem_sign_mul a b B). 
  assert (Z.abs (Z.rem a b) <= Z.abs a).
  { rewrite <- Z.rem_abs by auto. apply Z.rem_le; lia. }
  lia.
Qed.
