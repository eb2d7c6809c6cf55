(** Lemmas about the scalar functions. *)
From Coq Require Import Floats.SpecFloat.
From Verif Require Import GoBase ModelAggr ModelFn SpecAggr SpecFn FactsBase.

Lemma has_prefix_iff p s : has_prefix p s = true <-> exists r, s = (p ++ r)%string.
Proof.
  revert s. induction p as [|a p IH]; intros s; cbn.
  - split; eauto.
  - destruct s as [|b s].
    + split; [discriminate|intros (r & E); discriminate].
    + rewrite andb_true_iff, Ascii.eqb_eq, IH. split.
      * intros (-> & r & ->). eauto.
      * intros (r & E). inversion E. eauto.
Qed.

Lemma has_prefix_refl p : has_prefix p p = true.
Proof. apply has_prefix_iff. exists "". now rewrite append_nil_r. Qed.

Lemma upper_ascii_idem c : upper_ascii (upper_ascii c) = upper_ascii c.
Proof. destruct c as [[] [] [] [] [] [] [] []]; reflexivity. Qed.
Lemma upper_lower_ascii c : upper_ascii (lower_ascii c) = upper_ascii c.
Proof. destruct c as [[] [] [] [] [] [] [] []]; reflexivity. Qed.
Lemma lower_upper_ascii c : lower_ascii (upper_ascii c) = lower_ascii c.
Proof. destruct c as [[] [] [] [] [] [] [] []]; reflexivity. Qed.
Lemma to_upper_idem s : to_upper (to_upper s) = to_upper s.
Proof. induction s as [|c s IH]; cbn; [auto|]. rewrite upper_ascii_idem. unfold to_upper in *. now rewrite IH. Qed.
Lemma upper_lower s : to_upper (to_lower s) = to_upper s.
Proof. induction s as [|c s IH]; cbn; [auto|]. rewrite upper_lower_ascii. unfold to_upper, to_lower in *. now rewrite IH. Qed.
Lemma lower_upper s : to_lower (to_upper s) = to_lower s.
Proof. induction s as [|c s IH]; cbn; [auto|]. rewrite lower_upper_ascii. unfold to_upper, to_lower in *. now rewrite IH. Qed.
Lemma equal_fold_iff a b : equal_fold a b = true <-> to_upper a = to_upper b.
Proof.
  unfold equal_fold. rewrite String.eqb_eq. split; intros E.
  - apply (f_equal to_upper) in E. now rewrite !upper_lower in E.
  - apply (f_equal to_lower) in E. now rewrite !lower_upper in E.
Qed.

Lemma upper_exe_name e : to_upper (exe_name e) = exe_name e.
Proof. destruct e; reflexivity. Qed.
Lemma upper_kind_name k : to_upper (kind_name k) = kind_name k.
Proof. destruct k; reflexivity. Qed.

Lemma own_executor name e : same_text name (exe_name e) -> e <> LOG10 -> new_executor name = Ok e.
Proof.
  unfold same_text, new_executor. intros E N. rewrite E, upper_exe_name.
  destruct e; try reflexivity. congruence.
Qed.
Lemma own_aggregator name k : same_text name (kind_name k) -> new_aggregator_kind name = Ok k.
Proof.
  unfold same_text, new_aggregator_kind. intros E. rewrite E, upper_kind_name. destruct k; reflexivity.
Qed.

Lemma find_in {A} (f : A -> bool) l x : find f l = Some x -> In x l /\ f x = true.
Proof. apply find_some. Qed.
Lemma prefix_cases_all e : exe_type e <> ArithOperator <-> In e prefix_cases.
Proof. destruct e; cbn; split; intuition congruence. Qed.
Lemma operator_cases_all e : exe_type e = ArithOperator <-> In e operator_cases.
Proof. destruct e; cbn; split; intuition congruence. Qed.

Lemma resolved_executor name :
  match new_executor name with
  | Ok e => exists rest, to_upper name = (exe_name e ++ rest)%string /\ (exe_type e = ArithOperator -> rest = "")
  | Err er => er = ErrNotSupported /\
      (forall e rest, exe_type e <> ArithOperator -> to_upper name <> (exe_name e ++ rest)%string) /\
      (forall e, to_upper name <> exe_name e)
  | Panic => False
  end.
Proof.
  unfold new_executor.
  destruct (find _ prefix_cases) as [e|] eqn:F.
  - apply find_some in F. destruct F as (I & P). apply has_prefix_iff in P. destruct P as (r & P).
    exists r. split; [auto|]. intros T. apply prefix_cases_all in I. congruence.
  - destruct (find _ operator_cases) as [e|] eqn:G.
    + apply find_some in G. destruct G as (I & P). apply equal_fold_iff in P.
      rewrite to_upper_idem, upper_exe_name in P. exists "". rewrite append_nil_r. auto.
    + assert (A : forall e rest, exe_type e <> ArithOperator -> to_upper name <> (exe_name e ++ rest)%string).
      { intros e rest T E. apply prefix_cases_all in T. apply (find_none _ _ F) in T.
        assert (has_prefix (exe_name e) (to_upper name) = true) by (apply has_prefix_iff; eauto). congruence. }
      split; [reflexivity|]. split; [exact A|].
      intros e E. destruct (ftype_eqb (exe_type e) ArithOperator) eqn:T.
      * assert (I : In e operator_cases) by (apply operator_cases_all; destruct (exe_type e); cbn in T; congruence).
        apply (find_none _ _ G) in I.
        assert (equal_fold (to_upper name) (exe_name e) = true).
        { apply equal_fold_iff. now rewrite to_upper_idem, upper_exe_name. } congruence.
      * apply (A e ""). { intros H. rewrite H in T. discriminate. } now rewrite append_nil_r.
Qed.

Lemma resolved_aggregator name :
  match new_aggregator_kind name with
  | Ok k => exists rest, to_upper name = (kind_name k ++ rest)%string
  | Err er => er = ErrNotSupported /\ (forall k rest, to_upper name <> (kind_name k ++ rest)%string)
  | Panic => False
  end.
Proof.
  unfold new_aggregator_kind. destruct (find _ _) as [k|] eqn:F.
  - apply find_some in F. destruct F as (_ & P). now apply has_prefix_iff in P.
  - split; [reflexivity|]. intros k rest E.
    assert (I : In k [SUM; AVG; MIN; MAX; COUNT]) by (destruct k; cbn; auto 10).
    apply (find_none _ _ F) in I.
    assert (has_prefix (kind_name k) (to_upper name) = true) by (apply has_prefix_iff; eauto). congruence.
Qed.

Lemma log10_unreachable name : new_executor name <> Ok LOG10.
Proof.
  unfold new_executor. intros H.
  destruct (find _ prefix_cases) as [e|] eqn:F.
  - injection H as ->.
    assert (P : has_prefix "LOG10" (to_upper name) = true) by (apply find_some in F; apply F).
    apply has_prefix_iff in P. destruct P as (r & P). rewrite P in F. discriminate F.
  - destruct (find _ operator_cases) as [e|] eqn:G; [|discriminate].
    injection H as ->. apply find_some in G. destruct G as (I & _). cbn in I. intuition discriminate.
Qed.

Lemma srev_app_acc s acc : srev_app s acc = (srev_app s "" ++ acc)%string.
Proof.
  revert acc. induction s as [|c s IH]; intros acc; cbn; [reflexivity|].
  rewrite (IH (String c acc)), (IH (String c "")). clear IH.
  generalize (srev_app s ""). intros t. induction t as [|d t IH]; cbn; [reflexivity|now rewrite IH].
Qed.
Lemma srev_cons c s : srev (String c s) = (srev s ++ String c "")%string.
Proof. unfold srev. cbn. apply srev_app_acc. Qed.
Lemma sapp_assoc (a b c : string) : ((a ++ b) ++ c)%string = (a ++ b ++ c)%string.
Proof. induction a as [|x a IH]; cbn; [reflexivity|now rewrite IH]. Qed.
Lemma srev_append a b : srev (a ++ b)%string = (srev b ++ srev a)%string.
Proof.
  induction a as [|c a IH]; cbn [append].
  - unfold srev at 3. cbn. now rewrite append_nil_r.
  - rewrite !srev_cons, IH. apply sapp_assoc.
Qed.
Lemma srev_involutive s : srev (srev s) = s.
Proof. induction s as [|c s IH]; [reflexivity|]. rewrite srev_cons, srev_append, IH. reflexivity. Qed.
Lemma has_suffix_iff p s : has_suffix p s = true <-> exists r, s = (r ++ p)%string.
Proof.
  unfold has_suffix. rewrite has_prefix_iff. split; intros (r & E).
  - exists (srev r). rewrite <- (srev_involutive s), E, srev_append, srev_involutive. reflexivity.
  - exists (srev r). now rewrite E, srev_append.
Qed.
Lemma to_upper_app a b : to_upper (a ++ b)%string = (to_upper a ++ to_upper b)%string.
Proof. unfold to_upper. induction a as [|c a IH]; cbn; [reflexivity|now rewrite IH]. Qed.
Lemma to_upper_length s : String.length (to_upper s) = String.length s.
Proof. unfold to_upper. induction s as [|c s IH]; cbn; [reflexivity|now rewrite IH]. Qed.
Lemma upper_ascii_paren c : upper_ascii c = ")"%char -> c = ")"%char.
Proof. destruct c as [[] [] [] [] [] [] [] []]; cbn; intros H; try discriminate H; reflexivity. Qed.
Lemma to_upper_paren s : has_suffix ")" (to_upper s) = true <-> exists r, s = (r ++ ")")%string.
Proof.
  rewrite has_suffix_iff. split.
  - intros (r & E). exists (srev (sdrop 1 (srev s))).
    assert (L : srev (to_upper s) = String ")" (srev r)) by (rewrite E, srev_append; reflexivity).
    assert (C : forall a, srev (to_upper a) = to_upper (srev a)).
    { intros a. induction a as [|x a IH]; [reflexivity|]. rewrite srev_cons, to_upper_app.
      change (to_upper (String x a)) with (String (upper_ascii x) (to_upper a)).
      rewrite srev_cons, IH. reflexivity. }
    rewrite C in L. destruct (srev s) as [|d t] eqn:S; [discriminate|].
    change (to_upper (String d t)) with (String (upper_ascii d) (to_upper t)) in L.
    injection L as D _. apply upper_ascii_paren in D. subst d.
    rewrite <- (srev_involutive s), S. cbn [sdrop]. now rewrite srev_cons.
  - intros (r & ->). exists (to_upper r). now rewrite to_upper_app.
Qed.

Lemma registered_exact name :
  (forall s, name <> (s ++ ")")%string) ->
  (is_registered name = true <->
   exists fn, In fn registered_names /\
     (to_upper name = fn \/ (String.length fn <> 1 /\ exists rest, to_upper name = (fn ++ "(" ++ rest)%string))).
Proof.
  intros NP.
  assert (HS : has_suffix ")" (to_upper name) = false).
  { destruct (has_suffix ")" (to_upper name)) eqn:H; [|reflexivity]. apply to_upper_paren in H.
    destruct H as (r & H). now apply NP in H. }
  unfold is_registered. destruct (String.length name =? 0) eqn:Z.
  - split; [discriminate|]. intros (fn & I & H). exfalso. apply Nat.eqb_eq in Z.
    assert (LU : String.length (to_upper name) = 0) by (now rewrite to_upper_length).
    assert (E : to_upper name = "") by (destruct (to_upper name); [auto|discriminate]).
    rewrite E in H. assert (fn <> "") by (intros ->; cbn in I; intuition discriminate).
    destruct H as [H|(_ & r & H)]; [congruence|]. destruct fn; [congruence|discriminate].
  - rewrite existsb_exists. split; intros (fn & I & H); exists fn; (split; [exact I|]).
    + destruct (String.length fn =? 1) eqn:L.
      * apply String.eqb_eq in H. auto.
      * rewrite HS, orb_false_r, orb_true_iff, andb_true_iff, String.eqb_eq, has_prefix_iff in H.
        apply Nat.eqb_neq in L. destruct H as [(_ & H)|(r & H)]; [auto|]. right. split; [auto|].
        exists r. now rewrite H, sapp_assoc.
    + destruct (String.length fn =? 1) eqn:L.
      * apply String.eqb_eq. destruct H as [H|(H & _)]; [auto|]. apply Nat.eqb_eq in L. congruence.
      * rewrite HS, orb_false_r, orb_true_iff, andb_true_iff, String.eqb_eq, has_prefix_iff, Nat.eqb_eq.
        destruct H as [H|(_ & r & H)]; [left; now rewrite H|]. right. exists r. now rewrite H, sapp_assoc.
Qed.

Lemma registered_paren s : is_registered (s ++ ")")%string = true.
Proof.
  unfold is_registered.
  assert (L : (String.length (s ++ ")")%string =? 0) = false) by (destruct s; reflexivity).
  rewrite L.
  assert (HS : has_suffix ")" (to_upper (s ++ ")")) = true) by (apply to_upper_paren; eauto).
  apply existsb_exists. exists "ABS". split; [cbn; auto|]. cbn [String.length Nat.eqb]. rewrite HS. apply orb_true_r.
Qed.

Lemma registered_self fn : In fn registered_names -> to_upper fn = fn.
Proof. unfold registered_names. cbn. intuition (subst; reflexivity). Qed.
Lemma registered_resolves name fn :
  In fn registered_names -> same_text name fn ->
  is_registered name = true /\ (is_ok (new_executor name) = true \/ is_ok (new_aggregator_kind name) = true).
Proof.
  unfold same_text. intros I E. pose proof (registered_self fn I) as U. split.
  - unfold is_registered. rewrite E, U.
    assert (L : String.length name = String.length fn).
    { apply (f_equal String.length) in E. now rewrite !to_upper_length in E. }
    rewrite L. clear U E L. cbn in I. intuition (subst; reflexivity).
  - unfold new_executor, new_aggregator_kind. rewrite E, U. clear U E.
    cbn in I. intuition (subst; cbn; auto).
Qed.

Section Exec.
  Context {V : Type} (to_float : option V -> option float) (to_str : option V -> option string)
          (of_text : string -> option V) (lib : exe -> list float -> float) (odd : float -> Z)
          (random : option N).
  Local Notation run := (execute_args to_float to_str lib odd random).

  Lemma all_some_length {A B} (f : A -> option B) l l' : all_some f l = Some l' -> length l' = length l.
  Proof.
    revert l'. induction l as [|x l IH]; intros l'; cbn; [intros [= <-]; reflexivity|].
    destruct (f x); [|discriminate]. destruct (all_some f l); [|discriminate]. intros [= <-]. cbn. f_equal. auto.
  Qed.

  Lemma wrong_count e args :
    exe_type e <> TimeFunction -> arity e <> Some (length args) -> exists er, run e args = Err er.
  Proof.
    intros T A. unfold execute_args. destruct (exe_type e) eqn:ET; try congruence.
    all: try (destruct e; discriminate ET).
    - destruct (all_some to_float args) as [fs|] eqn:F; [|eauto].
      apply all_some_length in F. rewrite <- F in A.
      destruct e; try discriminate ET; destruct fs as [|? [|? [|? fs]]]; cbn in A |- *; eauto; congruence.
    - destruct args as [|a [|b [|c args]]]; eauto. destruct e; try discriminate ET; cbn in A; congruence.
    - destruct (all_some to_str args) as [fs|] eqn:F; [|eauto].
      apply all_some_length in F. rewrite <- F in A.
      destruct e; try discriminate ET; destruct fs as [|? [|? [|? fs]]]; cbn in A |- *; eauto; congruence.
  Qed.

  Lemma time_any_count e args :
    exe_type e = TimeFunction -> Forall (fun a => to_str a <> None) args -> run e args = Ok FvTime.
  Proof.
    intros T F. unfold execute_args. rewrite T.
    assert (H : exists l, all_some to_str args = Some l).
    { induction F as [|x l H F IH]; cbn; [eauto|]. destruct (to_str x); [|congruence].
      destruct IH as (l' & ->). eauto. }
    destruct H as (l & ->). reflexivity.
  Qed.

  Lemma math_no_panic e fs : math_fun lib odd random e fs <> Panic.
  Proof.
    destruct e, fs as [|a [|b [|c fs]]]; cbn; try discriminate.
    all: repeat match goal with |- context[if ?b then _ else _] => destruct b | |- context[match random with _ => _ end] => destruct random end; discriminate.
  Qed.
  Lemma string_no_panic e fs : string_fun e fs <> Panic.
  Proof. destruct e, fs as [|a [|b fs]]; cbn; discriminate. Qed.

  Lemma panics_iff e args :
    run e args = Panic <->
    e = MODOP /\ exists x y a b, args = [x; y] /\ to_float x = Some a /\ to_float y = Some b /\ go_int odd b = 0%Z.
  Proof.
    split.
    - unfold execute_args. intros H. destruct (exe_type e) eqn:ET.
      all: try (destruct e; discriminate ET).
      + destruct (all_some _ _); [now apply math_no_panic in H|discriminate].
      + destruct args as [|x [|y [|z args]]]; try discriminate.
        destruct (to_float x) as [a|] eqn:X; [|discriminate]. destruct (to_float y) as [b|] eqn:Y; [|discriminate].
        destruct e; try discriminate ET; try discriminate H. split; [reflexivity|].
        cbn in H. destruct (Z.eqb_spec (go_int odd b) 0) as [Z|]; [|discriminate]. exists x, y, a, b. auto.
      + destruct (all_some _ _); discriminate.
      + destruct (all_some _ _); [now apply string_no_panic in H|discriminate].
    - intros (-> & x & y & a & b & -> & X & Y & Z). unfold execute_args. cbn. rewrite X, Y, Z. reflexivity.
  Qed.

  Lemma mget_in (m : list (string * option V)) k v : NoDup (map fst m) -> In (k, v) m -> mget String.eqb k m = Some v.
  Proof.
    induction m as [|(k', v') m IH]; cbn; [contradiction|]. intros N [E|I].
    - inversion E. now rewrite String.eqb_refl.
    - inversion N as [|? ? NI N']. subst. destruct (String.eqb_spec k k') as [->|]; [|auto].
      exfalso. apply NI. change k' with (fst (k', v)). now apply in_map.
  Qed.
  Lemma mget_absent (m : list (string * option V)) k : ~ In k (map fst m) -> mget String.eqb k m = None.
  Proof.
    induction m as [|(k', v') m IH]; cbn; [reflexivity|]. intros N.
    destruct (String.eqb_spec k k') as [->|]; [tauto|]. apply IH. tauto.
  Qed.

  Lemma map_arguments e names (m : list (string * option V)) :
    NoDup (map fst m) ->
    exists values,
      execute to_float to_str of_text lib odd random e names (XMap m) =
      execute to_float to_str of_text lib odd random e names (XList values) /\
      length values = length names /\
      forall i name, nth_error names i = Some name ->
        (forall v, In (name, v) m -> nth_error values i = Some v) /\
        (~ In name (map fst m) -> nth_error values i = Some (of_text name)).
  Proof.
    intros N. eexists. split; [reflexivity|]. split; [apply map_length|].
    intros i name I. split.
    - intros v H. rewrite nth_error_map, I. cbn. now rewrite (mget_in m name v N H).
    - intros H. rewrite nth_error_map, I. cbn. now rewrite mget_absent.
  Qed.

  (** *** rounding *)
  Local Open Scope Z_scope.
  Lemma floor_spec x n : is_finite x = true -> (is_floor x n <-> float_floor x = Some n).
  Proof.
    destruct x as [s|s| |s m e]; try discriminate; intros _; unfold is_floor; cbn.
    - rewrite !Z.mul_1_r. split; [intros H; f_equal; lia|intros [= <-]; lia].
    - change (if s then Z.neg m else Z.pos m) with (smant s m). generalize (smant s m) as v. intros v.
      destruct (Z.leb_spec 0 e).
      + rewrite (Z.max_l e), (Z.max_r (- e)) by lia. rewrite Z.pow_0_r, !Z.mul_1_r.
        split; [intros H0; f_equal; lia|intros [= <-]; lia].
      + rewrite (Z.max_r e), (Z.max_l (- e)) by lia. rewrite Z.pow_0_r, Z.mul_1_r.
        assert (0 < 2 ^ (- e)) by (apply Z.pow_pos_nonneg; lia).
        generalize dependent (2 ^ (- e)). intros d D. split.
        * intros H0. f_equal. symmetry. apply (Z.div_unique v d n (v - n * d)); lia.
        * intros [= <-]. pose proof (Z.div_mod v d). pose proof (Z.mod_pos_bound v d). nia.
  Qed.
  Lemma ceil_spec x n : is_finite x = true -> (is_ceil x n <-> float_ceil x = Some n).
  Proof.
    destruct x as [s|s| |s m e]; try discriminate; intros _; unfold is_ceil; cbn.
    - rewrite !Z.mul_1_r. split; [intros H; f_equal; lia|intros [= <-]; lia].
    - change (if s then Z.neg m else Z.pos m) with (smant s m). generalize (smant s m) as v. intros v.
      destruct (Z.leb_spec 0 e).
      + rewrite (Z.max_l e), (Z.max_r (- e)) by lia. rewrite Z.pow_0_r, !Z.mul_1_r.
        split; [intros H0; f_equal; lia|intros [= <-]; lia].
      + rewrite (Z.max_r e), (Z.max_l (- e)) by lia. rewrite Z.pow_0_r, Z.mul_1_r.
        assert (0 < 2 ^ (- e)) by (apply Z.pow_pos_nonneg; lia).
        generalize dependent (2 ^ (- e)). intros d D. split.
        * intros H0. f_equal. rewrite <- (Z.div_unique (- v) d (- n) (- v + n * d)); lia.
        * intros [= <-]. pose proof (Z.div_mod (- v) d). pose proof (Z.mod_pos_bound (- v) d). nia.
  Qed.
  Lemma round_spec x n : is_finite x = true -> (is_round x n <-> float_round x = Some n).
  Proof.
    destruct x as [s|s| |s m e]; try discriminate; intros _; unfold is_round, float_num, float_den, float_round.
    - change (0 <=? 0) with true. cbv iota. split; [intros H; f_equal; lia|intros [= <-]; lia].
    - destruct (Z.leb_spec 0 e).
      + rewrite (Z.max_l e), (Z.max_r (- e)) by lia. rewrite Z.pow_0_r, !Z.mul_1_r.
        assert (0 < 2 ^ e) by (apply Z.pow_pos_nonneg; lia).
        generalize dependent (2 ^ e). intros d D.
        assert (P : 0 < Z.pos m * d) by lia.
        change (Z.neg m) with (- Z.pos m). rewrite ?Z.mul_opp_l.
        destruct s; rewrite ?Z.mul_opp_l; generalize dependent (Z.pos m * d); intros q P;
          (match goal with |- context[0 <=? ?z] => destruct (Z.leb_spec 0 z) end);
          (split; [intros HH; f_equal; lia|intros [= <-]; lia]).
      + rewrite (Z.max_r e), (Z.max_l (- e)) by lia. rewrite Z.pow_0_r, Z.mul_1_r.
        assert (0 < 2 ^ (- e)) by (apply Z.pow_pos_nonneg; lia).
        generalize dependent (2 ^ (- e)). intros d D.
        destruct s; (match goal with |- context[0 <=? ?z] => destruct (Z.leb_spec 0 z) end); try lia.
        all: assert (Q : 2 * Z.pos m + d = 2 * d * ((2 * Z.pos m + d) / (2 * d)) + (2 * Z.pos m + d) mod (2 * d))
          by (apply Z.div_mod; lia).
        all: assert (R : 0 <= (2 * Z.pos m + d) mod (2 * d) < 2 * d) by (apply Z.mod_pos_bound; lia).
        all: revert Q R; generalize ((2 * Z.pos m + d) / (2 * d)) as q; generalize ((2 * Z.pos m + d) mod (2 * d)) as r; intros.
        all: change (Z.neg m) with (- Z.pos m); generalize dependent (Z.pos m); intros z; intros.
        all: split; [intros HH; f_equal|intros HH; injection HH as <-]; nia.
  Qed.

  Lemma floor_ceil_round v x n :
    to_float v = Some x -> is_finite x = true -> in_int64 n = true ->
    (is_floor x n -> run FLOOR [v] = Ok (FvInt n)) /\
    (is_ceil x n -> run CEIL [v] = Ok (FvInt n)) /\
    (is_round x n -> run ROUND [v] = Ok (FvInt n)).
  Proof.
    intros E F R.
    split; [|split]; intros S; unfold execute_args; cbn [exe_type all_some]; rewrite E; cbn [math_fun]; unfold to_int.
    - apply floor_spec in S; [|exact F]. now rewrite S, R.
    - apply ceil_spec in S; [|exact F]. now rewrite S, R.
    - apply round_spec in S; [|exact F]. now rewrite S, R.
  Qed.

  Lemma num_sign x : is_finite x = true -> (fleb x fzero = true <-> float_num x <= 0).
  Proof.
    destruct x as [s|s| |s m e]; try discriminate; intros _; cbn [float_num].
    - split; intros; [lia|reflexivity].
    - assert (0 < 2 ^ Z.max e 0) by (apply Z.pow_pos_nonneg; lia). generalize dependent (2 ^ Z.max e 0). intros d D.
      change (Z.neg m) with (- Z.pos m).
      destruct s; split; intros; try reflexivity; try discriminate; nia.
  Qed.
  Lemma num_zero x : is_finite x = true -> (feqb x fzero = true <-> float_num x = 0).
  Proof.
    destruct x as [s|s| |s m e]; try discriminate; intros _; cbn [float_num].
    - split; intros; reflexivity.
    - assert (0 < 2 ^ Z.max e 0) by (apply Z.pow_pos_nonneg; lia). generalize dependent (2 ^ Z.max e 0). intros d D.
      change (Z.neg m) with (- Z.pos m).
      destruct s; split; intros; try reflexivity; try discriminate; nia.
  Qed.

  Lemma domains v w x y :
    to_float v = Some x -> to_float w = Some y -> is_finite x = true -> is_finite y = true ->
    (forall e, In e [SQRT; LOG; LOG10] -> (is_ok (run e [v]) = true <-> 0 < float_num x)) /\
    (is_ok (run MOD [v; w]) = true <-> float_num y <> 0) /\
    (0 <= float_num x -> is_ok (run POWER [v; w]) = true) /\
    (forall e, In e [ABS; FLOOR; CEIL; ROUND; EXP; SIN; COS; TAN] -> is_ok (run e [v]) = true) /\
    (forall e, In e [ADD; SUB; MUL; DIV] -> is_ok (run e [v; w]) = true).
  Proof.
    intros X Y FX FY. split; [|split; [|split; [|split]]].
    - intros e I. pose proof (num_sign x FX) as S. unfold execute_args.
      assert (H : 0 < float_num x <-> fleb x fzero = false).
      { destruct (fleb x fzero); split; intros; try discriminate; try reflexivity.
        - exfalso. assert (float_num x <= 0) by (now apply S). lia.
        - destruct (Z.lt_ge_cases 0 (float_num x)) as [|G]; [auto|]. apply S in G. discriminate. }
      rewrite H. cbn in I. destruct I as [<-|[<-|[<-|[]]]]; cbn [exe_type all_some]; rewrite X; cbn [math_fun];
        destruct (fleb x fzero); cbn; split; intros; congruence.
    - unfold execute_args. cbn [exe_type all_some]. rewrite X, Y. cbn [math_fun].
      pose proof (num_zero y FY) as S. destruct (feqb y fzero); cbn; split; intros; try reflexivity; try discriminate.
      + exfalso. apply H. now apply S.
      + intros E. apply S in E. discriminate.
    - intros P. unfold execute_args. cbn [exe_type all_some]. rewrite X, Y. cbn [math_fun].
      assert (S : fltb x fzero = false).
      { destruct x as [s|s| |s m e]; try discriminate FX; [reflexivity|]. destruct s; [|reflexivity].
        cbn [float_num] in P. assert (0 < 2 ^ Z.max e 0) by (apply Z.pow_pos_nonneg; lia). nia. }
      rewrite S. reflexivity.
    - intros e I. unfold execute_args. cbn in I.
      repeat (destruct I as [<-|I]); try contradiction; cbn [exe_type all_some]; rewrite X; reflexivity.
    - intros e I. unfold execute_args. cbn in I.
      repeat (destruct I as [<-|I]); try contradiction; cbn [exe_type]; rewrite X, Y; reflexivity.
  Qed.
End Exec.

Lemma rounding_exist x : is_finite x = true ->
  (exists n, is_floor x n) /\ (exists n, is_ceil x n) /\ (exists n, is_round x n).
Proof.
  intros F. split; [|split].
  - assert (H : exists n, float_floor x = Some n) by (destruct x; try discriminate; cbn; eauto).
    destruct H as (n & H). exists n. now apply floor_spec.
  - assert (H : exists n, float_ceil x = Some n) by (destruct x; try discriminate; cbn; eauto).
    destruct H as (n & H). exists n. now apply ceil_spec.
  - assert (H : exists n, float_round x = Some n) by (destruct x; try discriminate; cbn; eauto).
    destruct H as (n & H). exists n. now apply round_spec.
Qed.

Lemma smember_in s l : smember s l = true <-> In s l.
Proof.
  unfold smember. rewrite existsb_exists. split.
  - intros (x & I & E). apply String.eqb_eq in E. now subst.
  - intros I. exists s. split; [auto|apply String.eqb_refl].
Qed.

Lemma func_types name args :
  (forall e, name = exe_name e -> f_type (new_func name args) = exe_type e) /\
  (forall k, name = kind_name k -> f_type (new_func name args) = AggregateFunction) /\
  (func_is_aggregator (new_func name args) = true <-> exists k, name = kind_name k).
Proof.
  split; [|split].
  - intros e ->. destruct e; reflexivity.
  - intros k ->. destruct k; reflexivity.
  - split.
    + unfold func_is_aggregator, new_func, type_for_name. cbn [f_type].
      destruct (smember name (map exe_name [ABS; FLOOR; CEIL; ROUND; SQRT; LOG; LOG10; EXP; POWER; MOD; SIN; COS; TAN; RAND; PI])); [discriminate|].
      destruct (smember name ["SUM"; "AVG"; "COUNT"; "MAX"; "MIN"]) eqn:S.
      * intros _. apply smember_in in S. cbn in S.
        destruct S as [<-|[<-|[<-|[<-|[<-|[]]]]]]; [exists SUM|exists AVG|exists COUNT|exists MAX|exists MIN]; reflexivity.
      * repeat match goal with |- context[if ?b then _ else _] => destruct b end; discriminate.
    + intros (k & ->). destruct k; reflexivity.
Qed.

Lemma to_upper_spec s : Forall2 upper_of (list_ascii_of_string s) (list_ascii_of_string (to_upper s)).
Proof.
  induction s as [|c s IH]; cbn; constructor; [|exact IH].
  destruct c as [[] [] [] [] [] [] [] []]; reflexivity.
Qed.
Lemma to_lower_spec s : Forall2 lower_of (list_ascii_of_string s) (list_ascii_of_string (to_lower s)).
Proof.
  induction s as [|c s IH]; cbn; constructor; [|exact IH].
  destruct c as [[] [] [] [] [] [] [] []]; reflexivity.
Qed.

Lemma white_iff c : smem c white = true <-> is_white c.
Proof.
  unfold is_white. destruct c as [[] [] [] [] [] [] [] []]; vm_compute; split; intros H; try discriminate H; auto 8;
    try (intuition discriminate).
Qed.
Lemma list_ascii_srev s : list_ascii_of_string (srev s) = rev (list_ascii_of_string s).
Proof.
  induction s as [|c s IH]; [reflexivity|]. rewrite srev_cons.
  assert (A : forall a b, list_ascii_of_string (a ++ b)%string = list_ascii_of_string a ++ list_ascii_of_string b).
  { intros a b. induction a as [|x a IHa]; cbn; [reflexivity|now rewrite IHa]. }
  rewrite A, IH. reflexivity.
Qed.
Lemma trim_left_spec s : exists l, list_ascii_of_string s = l ++ list_ascii_of_string (trim_left white s) /\
  Forall is_white l /\ (forall c, hd_error (list_ascii_of_string (trim_left white s)) = Some c -> ~ is_white c).
Proof.
  induction s as [|c s (l & E & F & H)]; [exists []; repeat split; auto; discriminate|].
  cbn [trim_left]. destruct (smem c white) eqn:W.
  - exists (c :: l). cbn [list_ascii_of_string]. rewrite E. split; [|split].
    + reflexivity.
    + constructor; [now apply white_iff|exact F].
    + exact H.
  - exists []. split; [reflexivity|]. split; [constructor|]. cbn. intros d [= <-] I.
    apply white_iff in I. congruence.
Qed.
Lemma trim_spec s : trimmed s (trim white s).
Proof.
  destruct (trim_left_spec s) as (l & E & F & H). unfold trim.
  set (a := trim_left white s) in *.
  destruct (trim_left_spec (srev a)) as (t & E2 & F2 & H2).
  set (b := trim_left white (srev a)) in *.
  rewrite list_ascii_srev in E2.
  assert (EA : list_ascii_of_string a = list_ascii_of_string (srev b) ++ rev t).
  { rewrite <- (rev_involutive (list_ascii_of_string a)), E2, rev_app_distr, list_ascii_srev. reflexivity. }
  exists l, (rev t). split; [rewrite E, EA; reflexivity|]. split; [exact F|].
  split; [now apply Forall_rev|]. split.
  - intros c C. apply (H c). rewrite EA. destruct (list_ascii_of_string (srev b)); [discriminate|exact C].
  - intros c C. rewrite list_ascii_srev, rev_involutive in C. now apply H2.
Qed.
Lemma abs_spec x : is_finite x = true ->
  is_finite (SFabs x) = true /\ float_num (SFabs x) = Z.abs (float_num x) /\ float_den (SFabs x) = float_den x.
Proof.
  destruct x as [s|s| |s m e]; try discriminate; intros _; [repeat split|].
  split; [reflexivity|]. split; [|reflexivity]. cbn [SFabs float_num].
  assert (0 < 2 ^ Z.max e 0)%Z by (apply Z.pow_pos_nonneg; lia).
  destruct s; [change (Z.neg m) with (- Z.pos m)%Z|]; lia.
Qed.
