(** Proofs about result sets and rows. *)
From Verif Require Import GoBase ModelResultSet SpecResultSet FactsBase.

Lemma u64_small x : (x < 2 ^ 64)%N -> u64 x = x.
Proof. intros; unfold u64; apply N.mod_small; auto. Qed.

Section Cursor.
  Context {R : Type}.
  Implicit Types rs : rset R.

  Lemma next_fields rs : rs_rows (fst (rs_next rs)) = rs_rows rs /\
    rs_offset (fst (rs_next rs)) = rs_offset rs /\ rs_limit (fst (rs_next rs)) = rs_limit rs.
  Proof. unfold rs_next. destruct (_ && _)%bool; auto. Qed.

  Lemma advance_fields n rs : rs_rows (rs_advance n rs) = rs_rows rs /\
    rs_offset (rs_advance n rs) = rs_offset rs /\ rs_limit (rs_advance n rs) = rs_limit rs.
  Proof.
    revert rs; induction n; intros rs; cbn [rs_advance]; auto.
    destruct (IHn (fst (rs_next rs))) as (A & B & C), (next_fields rs) as (A' & B' & C').
    rewrite A, B, C; auto.
  Qed.

  Lemma next_cursor rs :
    rs_cursor (fst (rs_next rs)) = u64 (N.max (rs_cursor rs) (rs_offset rs) + 1).
  Proof.
    unfold rs_next. destruct (rs_cursor rs <? rs_offset rs)%N eqn:E.
    - apply N.ltb_lt in E. rewrite N.max_r by lia. destruct (_ && _)%bool; auto.
    - apply N.ltb_ge in E. rewrite N.max_l by lia. destruct (_ && _)%bool; auto.
  Qed.

  Lemma advance_S n rs : rs_advance (S n) rs = fst (rs_next (rs_advance n rs)).
  Proof. revert rs; induction n; intros; auto. cbn [rs_advance] in *. now rewrite <- IHn. Qed.

  Lemma advance_add n m rs : rs_advance (n + m) rs = rs_advance m (rs_advance n rs).
  Proof. revert rs; induction n; intros; auto. cbn [rs_advance plus]. auto. Qed.

  Lemma advance_cursor rows off lim n :
    (off + N.of_nat n < 2 ^ 64)%N -> 1 <= n ->
    rs_cursor (rs_advance n (new_rset rows off lim : rset R)) = (off + N.of_nat n)%N.
  Proof.
    intros H Hn. induction n as [|[|n] IH]; [lia| |].
    - cbn [rs_advance]. rewrite next_cursor. cbn [rs_cursor rs_offset new_rset].
      rewrite u64_small; lia.
    - rewrite advance_S, next_cursor.
      destruct (advance_fields (S n) (new_rset rows off lim)) as (_ & Ho & _).
      rewrite Ho, IH; try lia. cbn [rs_offset new_rset]. rewrite u64_small; lia.
  Qed.

  Lemma next_answer rs : snd (rs_next rs) =
    (negb ((0 <? rs_limit rs) && (u64 (rs_offset rs + rs_limit rs) <? rs_cursor (fst (rs_next rs))))%N &&
     (rs_cursor (fst (rs_next rs)) <=? N.of_nat (length (rs_rows rs)))%N)%bool.
  Proof. rewrite next_cursor. unfold rs_next.
    assert (E : (if (rs_cursor rs <? rs_offset rs)%N then rs_offset rs else rs_cursor rs)
                = N.max (rs_cursor rs) (rs_offset rs)).
    { destruct (N.ltb_spec (rs_cursor rs) (rs_offset rs)); lia. }
    rewrite E. destruct (_ && _)%bool; auto.
  Qed.

  Lemma window_length (rows : list R) off lim :
    length (window rows off lim) =
    (if (lim =? 0)%N then length rows - N.to_nat off
     else Nat.min (N.to_nat lim) (length rows - N.to_nat off)).
  Proof. unfold window. destruct (lim =? 0)%N; rewrite ?firstn_length, ?skipn_length; auto. Qed.

  Lemma nth_error_firstn_lt {B} (l : list B) n i : i < n -> nth_error (firstn n l) i = nth_error l i.
  Proof.
    revert n i; induction l; intros [|n] [|i] H; cbn; auto; try lia. apply IHl; lia.
  Qed.
  Lemma nth_error_skipn {B} (l : list B) n i : nth_error (skipn n l) i = nth_error l (n + i).
  Proof. revert l; induction n; intros [|a l]; cbn; auto. now destruct i. Qed.

  Lemma nth_next_spec rows off lim n :
    (off + lim < 2 ^ 64)%N -> (off + N.of_nat n < 2 ^ 64)%N -> 1 <= n ->
    nth_next (new_rset rows off lim : rset R) n = (n <=? length (window rows off lim)).
  Proof.
    intros H1 H2 Hn. unfold nth_next. rewrite next_answer, <- advance_S.
    replace (S (n - 1)) with n by lia.
    destruct (advance_fields (n - 1) (new_rset rows off lim)) as (E1 & E2 & E3).
    rewrite E1, E2, E3, advance_cursor by auto. cbn [rs_rows rs_offset rs_limit new_rset].
    rewrite u64_small by auto. rewrite window_length.
    destruct (N.eqb_spec lim 0) as [->|Hl].
    - cbn. apply Bool.eq_iff_eq_true. rewrite N.leb_le, Nat.leb_le. lia.
    - apply Bool.eq_iff_eq_true. rewrite andb_true_iff, negb_true_iff, andb_false_iff.
      rewrite !N.ltb_ge, N.leb_le, Nat.leb_le. lia.
  Qed.

  Lemma current_spec rows off lim n :
    (off + N.of_nat n < 2 ^ 64)%N -> 1 <= n ->
    rs_current (rs_advance n (new_rset rows off lim : rset R)) =
    match nth_error (skipn (N.to_nat off) rows) (n - 1) with Some r => Ok r | None => Err ErrNoRows end.
  Proof.
    intros H Hn. unfold rs_current. rewrite advance_cursor by auto.
    destruct (advance_fields n (new_rset rows off lim)) as (E1 & _ & _). rewrite E1.
    cbn [rs_rows new_rset]. rewrite nth_error_skipn.
    replace ((off + N.of_nat n =? 0)%N) with false by (symmetry; apply N.eqb_neq; lia).
    cbn [orb]. destruct (N.ltb_spec (N.of_nat (length rows)) (off + N.of_nat n)).
    - replace (nth_error rows _) with (@None R); auto. symmetry. apply nth_error_None. lia.
    - replace (N.to_nat (off + N.of_nat n - 1)) with (N.to_nat off + (n - 1)) by lia.
      destruct (nth_error rows _) eqn:E; auto. apply nth_error_None in E. lia.
  Qed.

  Lemma window_nth rows off lim n (r : R) :
    nth_error (window rows off lim) n = Some r -> nth_error (skipn (N.to_nat off) rows) n = Some r.
  Proof.
    intros H. pose proof (nth_error_Some (window rows off lim) n) as L.
    rewrite H in L. destruct L as [L _]. specialize (L ltac:(discriminate)).
    revert H L. unfold window. destruct (lim =? 0)%N; auto. intros H L.
    rewrite firstn_length in L. rewrite nth_error_firstn_lt in H; auto. lia.
  Qed.

  Lemma window_nth_iff rows off lim n :
    n < length (window rows off lim) ->
    nth_error (skipn (N.to_nat off) rows) n = nth_error (window rows off lim) n (A := R).
  Proof.
    intros H. destruct (nth_error (window rows off lim) n) eqn:E.
    - eapply window_nth; eauto.
    - apply nth_error_None in E. lia.
  Qed.

  Lemma iteration rows off lim n :
    (off + lim < 2 ^ 64)%N -> (off + N.of_nat n < 2 ^ 64)%N -> 1 <= n ->
    let w := window rows off lim in
    nth_next (new_rset rows off lim : rset R) n = (n <=? length w) /\
    (n <= length w ->
     exists r, nth_error w (n - 1) = Some r /\
               rs_current (rs_advance n (new_rset rows off lim)) = Ok r).
  Proof.
    intros H1 H2 Hn w. split. { now apply nth_next_spec. }
    intros L. rewrite current_spec by auto.
    rewrite (window_nth_iff rows off lim) by (fold w; lia). fold w.
    destruct (nth_error w (n - 1)) eqn:E; eauto. apply nth_error_None in E. lia.
  Qed.

  Lemma skipn_cons_nth {B} (l : list B) k x : nth_error l k = Some x -> skipn k l = x :: skipn (S k) l.
  Proof. revert k; induction l; intros [|k] H; cbn in *; try discriminate. now inversion H. now apply IHl. Qed.

  Lemma loop_spec rows off lim k fuel :
    (off + lim < 2 ^ 64)%N ->
    (off + N.of_nat (S (length (window rows off lim))) < 2 ^ 64)%N ->
    k <= length (window rows off lim) ->
    length (window rows off lim) - k < fuel ->
    rs_loop fuel (rs_advance k (new_rset rows off lim : rset R)) =
    Some (map Ok (skipn k (window rows off lim))).
  Proof.
    intros H1 H2. revert k. induction fuel; intros k Hk Hf; [lia|].
    cbn [rs_loop]. rewrite (surjective_pairing (rs_next _)), <- advance_S.
    pose proof (nth_next_spec rows off lim (S k) H1) as E. unfold nth_next in E.
    replace (S k - 1) with k in E by lia. rewrite E by lia.
    destruct (Nat.leb_spec (S k) (length (window rows off lim))).
    - rewrite IHfuel by lia. rewrite current_spec by lia. replace (S k - 1) with k by lia.
      destruct (nth_error (window rows off lim) k) eqn:En; [|apply nth_error_None in En; lia].
      rewrite (window_nth _ _ _ _ _ En). rewrite (skipn_cons_nth _ _ _ En). reflexivity.
    - rewrite skipn_all2 by lia. reflexivity.
  Qed.
End Cursor.

Section FnCursor.
  Context {R : Type}.
  Implicit Types rs : fn_rset R.

  Lemma fr_advance_S n rs : fr_advance (S n) rs = fst (fr_next (fr_advance n rs)).
  Proof. revert rs; induction n; intros; auto. cbn [fr_advance] in *. now rewrite <- IHn. Qed.

  Lemma fr_advance_state cols rows n :
    fr_advance n (new_fn_rset cols rows : fn_rset R) =
    mkFnRset cols rows (Z.of_nat (Nat.min n (length rows)) - 1).
  Proof.
    induction n. { reflexivity. }
    rewrite fr_advance_S, IHn. unfold fr_next. cbn [fr_columns fr_rows fr_index].
    destruct (Z.leb_spec (Z.of_nat (length rows)) (Z.of_nat (Nat.min n (length rows)) - 1 + 1));
      cbn [fst]; f_equal; lia.
  Qed.

  Lemma fr_next_spec cols rows n :
    snd (fr_next (fr_advance n (new_fn_rset cols rows : fn_rset R))) = (S n <=? length rows).
  Proof.
    rewrite fr_advance_state. unfold fr_next. cbn [fr_columns fr_rows fr_index].
    destruct (Z.leb_spec (Z.of_nat (length rows)) (Z.of_nat (Nat.min n (length rows)) - 1 + 1)); cbn [snd];
    symmetry; [apply Nat.leb_gt | apply Nat.leb_le]; lia.
  Qed.

  Lemma fr_row_spec cols rows n :
    fr_row (fr_advance n (new_fn_rset cols rows : fn_rset R)) =
    match n with
    | O => Err ErrNoData
    | S _ => match nth_error rows (Nat.min n (length rows) - 1) with
             | Some r => Ok r | None => Err ErrNoData end
    end.
  Proof.
    rewrite fr_advance_state. unfold fr_row. cbn [fr_rows fr_index].
    destruct n. { reflexivity. }
    destruct rows as [|r0 rows]. { reflexivity. }
    destruct (Z.ltb_spec (Z.of_nat (Nat.min (S n) (length (r0 :: rows))) - 1) 0). { cbn [length] in H. lia. }
    destruct (Z.leb_spec (Z.of_nat (length (r0 :: rows))) (Z.of_nat (Nat.min (S n) (length (r0 :: rows))) - 1)). { lia. }
    cbn [orb]. replace (Z.to_nat _) with (Nat.min (S n) (length (r0 :: rows)) - 1) by lia.
    destruct (nth_error _ _) eqn:E; auto. apply nth_error_None in E. cbn [length] in *. lia.
  Qed.
End FnCursor.

Section Rows.
  Context {A : Type}.
  Notation V := (option A).

  Lemma mget_mset_eq (k : string) (v : V) m : mget String.eqb k (mset String.eqb k v m) = Some v.
  Proof. unfold mset; cbn. now rewrite String.eqb_refl. Qed.

  Lemma mget_mdel_ne (k k' : string) (m : list (string * V)) : k <> k' ->
    mget String.eqb k (mdel String.eqb k' m) = mget String.eqb k m.
  Proof.
    intros H. induction m as [|[a b] m IH]; cbn; auto.
    destruct (String.eqb_spec k' a); subst; cbn.
    - rewrite IH. destruct (String.eqb_spec k a); congruence.
    - rewrite IH. auto.
  Qed.

  Lemma mget_mset_ne (k k' : string) (v : V) m : k <> k' ->
    mget String.eqb k (mset String.eqb k' v m) = mget String.eqb k m.
  Proof.
    intros H. unfold mset; cbn. destruct (String.eqb_spec k k'); [congruence|]. now apply mget_mdel_ne.
  Qed.

  (** Both construction loops are the same function. *)
  Lemma map_with_row_object i cols (row : list V) m :
    map_with_row_from i cols row m = object_of i cols row m.
  Proof. revert i m; induction cols; intros; cbn; auto. Qed.

  Lemma object_of_notin cols (vs : list V) c : ~ In c cols -> forall i m,
    mget String.eqb c (object_of i cols vs m) = mget String.eqb c m.
  Proof.
    induction cols as [|a cols IH]; intros H i m; cbn; auto.
    cbn in H. rewrite IH by tauto. apply mget_mset_ne. intuition.
  Qed.

  Lemma object_of_nth cols (vs : list V) : NoDup cols -> forall i m j c,
    nth_error cols j = Some c ->
    mget String.eqb c (object_of i cols vs m) = Some (nth (i + j) vs None).
  Proof.
    induction cols as [|a cols IH]; intros ND i m j c H; [destruct j; discriminate|].
    inversion ND as [|? ? Ha ND']; subst. cbn [object_of]. destruct j as [|j].
    - cbn in H. inversion H; subst. rewrite object_of_notin by auto. rewrite mget_mset_eq, Nat.add_0_r.
      f_equal. destruct (Nat.ltb_spec i (length vs)); auto. symmetry; apply nth_overflow; lia.
    - cbn in H. rewrite (IH ND' (S i) _ _ _ H). f_equal. f_equal. lia.
  Qed.

  Lemma object_names_values cols (vs : list V) : NoDup cols -> length cols = length vs ->
    names_values cols vs (fun n => mget String.eqb n (object_of 0 cols vs [])).
  Proof.
    intros ND L. split; auto. split.
    - intros i c v Hc Hv. rewrite (object_of_nth _ _ ND _ _ _ _ Hc). f_equal. now apply nth_error_nth.
    - intros c H. now rewrite object_of_notin.
  Qed.

  (** Caching is unobservable. *)
  Lemma row_get_object_idem (r : row A) : snd (row_get_object (fst (row_get_object r))) = snd (row_get_object r)
    /\ row_get_object (fst (row_get_object r)) = (fst (row_get_object r), snd (row_get_object r)).
  Proof. unfold row_get_object. destruct r as [[o|] s [v|]]; cbn; auto. Qed.

  (** A row holding one of its two views keeps answering from it. *)
  Definition row_ok (lookup : string -> option V) (vs : list V) (r : row A) : Prop :=
    (forall n, mget String.eqb n (snd (row_get_object r)) = lookup n) /\ snd (row_get_values r) = vs /\
    (row_object r <> None \/ row_values r <> None).

  Lemma row_ok_object lookup vs r : row_ok lookup vs r -> row_ok lookup vs (fst (row_get_object r)).
  Proof.
    intros (H1 & H2 & H3). destruct r as [[o|] s [v|]]; unfold row_ok in *; cbn in *; solve [intuition | repeat split; auto; left; discriminate].
  Qed.
  Lemma row_ok_values lookup vs r : row_ok lookup vs r -> row_ok lookup vs (fst (row_get_values r)).
  Proof.
    intros (H1 & H2 & H3). destruct r as [[o|] s [v|]]; unfold row_ok in *; cbn in *; solve [intuition | repeat split; auto; left; discriminate].
  Qed.

  Lemma row_step_ok lookup vs r o : row_ok lookup vs r ->
    snd (row_step r o) = row_answer lookup vs o /\ row_ok lookup vs (fst (row_step r o)).
  Proof.
    intros H. pose proof (row_ok_object _ _ _ H) as Ho. pose proof (row_ok_values _ _ _ H) as Hv.
    destruct H as (H1 & H2 & H3).
    destruct (row_get_object r) as [ro mo] eqn:Eo, (row_get_values r) as [rv mv] eqn:Ev.
    cbn [fst snd] in *.
    destruct o; unfold row_step, row_value_at, row_value_by; rewrite ?Eo, ?Ev;
      cbn [fst snd row_answer]; split; auto.
    - now rewrite H1.
    - now rewrite H2.
    - rewrite H2. f_equal. destruct (Z.ltb_spec i 0).
      + destruct (Z.leb_spec (Z.of_nat (length vs)) i); [lia|auto].
      + destruct (Z.leb_spec (Z.of_nat (length vs)) i).
        * replace (nth_error vs (Z.to_nat i)) with (@None V); auto.
          symmetry; apply nth_error_None; lia.
        * destruct (nth_error vs (Z.to_nat i)) eqn:E; auto. apply nth_error_None in E; lia.
    - now rewrite H1.
  Qed.

  Lemma row_run_ok lookup vs ops : forall r, row_ok lookup vs r ->
    row_run r ops = map (row_answer lookup vs) ops.
  Proof.
    induction ops as [|o ops IH]; intros r H; cbn; auto.
    destruct (row_step_ok _ _ _ o H) as (H1 & H2).
    rewrite (surjective_pairing (row_step r o)), H1. f_equal. now apply IH.
  Qed.

  Lemma row_from_values cols (vs : list V) : NoDup cols -> length cols = length vs ->
    exists lookup, names_values cols vs lookup /\
      forall ops, row_run (mkRow None (Some cols) (Some vs)) ops = map (row_answer lookup vs) ops.
  Proof.
    intros ND L. eexists. split. { now apply object_names_values. }
    intros ops. apply row_run_ok. repeat split; auto. right; discriminate.
  Qed.

  Lemma row_from_object cols (o : object A) :
    exists vs, length vs = length cols /\
      (forall i c, nth_error cols i = Some c ->
         nth_error vs i = Some (match mget String.eqb c o with Some v => v | None => None end)) /\
      forall ops, row_run (mkRow (Some o) (Some cols) None) ops
                  = map (row_answer (fun n => mget String.eqb n o) vs) ops.
  Proof.
    exists (map (fun n => match mget String.eqb n o with Some v => v | None => None end) cols).
    split. { apply map_length. }
    split. { intros i c H. erewrite map_nth_error; eauto. }
    intros ops. apply row_run_ok. repeat split; auto. left; discriminate.
  Qed.

  (** Without a schema: the columns are called 1, 2, ... *)
  Fixpoint value_of (s : string) (acc : N) : N :=
    match s with EmptyString => acc | String c s' => value_of s' (acc * 10 + (N_of_ascii c - 48)) end.
  Lemma digit_value d : (d < 10)%N -> (N_of_ascii (digit d) - 48 = d)%N.
  Proof. intros. unfold digit. rewrite N_ascii_embedding by lia. lia. Qed.
  Lemma itoa_fuel_value fuel : forall n acc, (n < 2 ^ N.of_nat fuel)%N -> 0 < fuel ->
    exists m, forall a, value_of (itoa_fuel fuel n acc) a = value_of acc (a * m + n).
  Proof.
    induction fuel as [|f IH]; intros n acc H Hf; [lia|]. cbn [itoa_fuel].
    destruct (N.ltb_spec n 10).
    - exists 10%N. intros a. cbn [value_of]. rewrite digit_value by (apply N.mod_lt; lia).
      rewrite N.mod_small by lia. reflexivity.
    - rewrite Nat2N.inj_succ, N.pow_succ_r' in H.
      assert (D : (n = 10 * (n / 10) + n mod 10)%N) by (apply N.div_mod; lia).
      assert (M : (n mod 10 < 10)%N) by (apply N.mod_lt; lia).
      destruct f as [|f]. { change (2 ^ N.of_nat 0)%N with 1%N in H. lia. }
      assert (H1 : (n / 10 < 2 ^ N.of_nat (S f))%N).
      { apply N.div_lt_upper_bound; lia. }
      destruct (IH (n / 10)%N (String (digit (n mod 10)) acc) H1 ltac:(lia)) as (m & Hm).
      exists (m * 10)%N. intros a. rewrite Hm. cbn [value_of]. rewrite digit_value by lia. f_equal. lia.
  Qed.
  Lemma itoa_inj n m : itoa n = itoa m -> n = m.
  Proof.
    assert (H : forall n, value_of (itoa n) 0 = n).
    { intros x. unfold itoa.
      assert (H1 : (x < 2 ^ N.of_nat (S (N.to_nat (N.log2 x))))%N).
      { rewrite Nat2N.inj_succ, N2Nat.id. destruct (N.eq_dec x 0) as [->|]; [cbn; lia|].
        apply N.log2_spec. lia. }
      destruct (itoa_fuel_value _ x "" H1 ltac:(lia)) as (k & Hk).
      rewrite Hk. cbn [value_of]. lia. }
    intros E. rewrite <- (H n), <- (H m), E. reflexivity.
  Qed.

  Lemma row_from_values_noschema (vs : list V) :
    let cols := map (fun n => itoa (N.of_nat (S n))) (seq 0 (length vs)) in
    exists lookup, names_values cols vs lookup /\
      forall ops, row_run (mkRow None None (Some vs)) ops = map (row_answer lookup vs) ops.
  Proof.
    intros cols. exists (fun n => mget String.eqb n (object_of 0 cols vs [])). split.
    - apply object_names_values. 
      + unfold cols. apply FinFun.Injective_map_NoDup; [|apply seq_NoDup].
        intros a b E. apply itoa_inj in E. lia.
      + unfold cols. now rewrite map_length, seq_length.
    - intros ops. apply row_run_ok. repeat split; auto. right; discriminate.
  Qed.

  (** Without a schema: an object lists its values by sorted key. *)
  Lemma sinsert_perm x l : Permutation (sinsert x l) (x :: l).
  Proof.
    induction l as [|y l IH]; cbn; auto. destruct (sle x y); auto.
    rewrite IH. apply perm_swap.
  Qed.
  Lemma sort_perm l : Permutation (sort_strings l) l.
  Proof. induction l as [|x l IH]; cbn; auto. rewrite sinsert_perm. now constructor. Qed.

  Lemma sle_total a b : sle a b = false -> sle b a = true.
  Proof.
    revert b; induction a as [|x a IH]; intros [|y b]; cbn; auto; try discriminate.
    rewrite (Ascii.eqb_sym y x). destruct (Ascii.eqb_spec x y); auto.
    intros H. apply N.ltb_ge in H. apply N.ltb_lt.
    assert (N_of_ascii x <> N_of_ascii y).
    { intros E. apply n. rewrite <- (ascii_N_embedding x), E. apply ascii_N_embedding. }
    lia.
  Qed.
  Lemma sle_trans a b c : sle a b = true -> sle b c = true -> sle a c = true.
  Proof.
    revert b c; induction a as [|x a IH]; intros [|y b] [|z c]; cbn; auto; try discriminate.
    destruct (Ascii.eqb_spec x y); destruct (Ascii.eqb_spec y z); destruct (Ascii.eqb_spec x z);
      subst; try congruence; eauto; rewrite ?N.ltb_lt; lia.
  Qed.
  Lemma sle_antisym a b : sle a b = true -> sle b a = true -> a = b.
  Proof.
    revert b; induction a as [|x a IH]; intros [|y b]; cbn; auto; try discriminate.
    rewrite (Ascii.eqb_sym y x). destruct (Ascii.eqb_spec x y); subst.
    - intros; f_equal; auto.
    - rewrite !N.ltb_lt. lia.
  Qed.
  Lemma sle_refl a : sle a a = true.
  Proof. induction a; cbn; auto. now rewrite Ascii.eqb_refl. Qed.

  Lemma sle_at_most a b : sle a b = true <-> at_most a b.
  Proof.
    revert b; induction a as [|x a IH]; intros b; split.
    - intros _. constructor.
    - intros _. destruct b; reflexivity.
    - destruct b as [|y b]; [discriminate|]. cbn [sle]. destruct (Ascii.eqb_spec x y) as [<-|N].
      + intro H. apply am_same, IH, H.
      + intro H. apply N.ltb_lt in H. apply am_less. unfold nat_of_ascii. lia.
    - intro H. inversion H as [|? ? b' L|? y ? b' L]; subst; cbn [sle].
      + rewrite Ascii.eqb_refl. apply IH, L.
      + destruct (Ascii.eqb_spec x y) as [<-|N]; [lia|]. apply N.ltb_lt. unfold nat_of_ascii in L. lia.
  Qed.
  Lemma sinsert_sorted x l : ssorted l -> ssorted (sinsert x l).
  Proof.
    induction l as [|y l IH]; cbn; [tauto|]. intros (H1 & H2).
    destruct (sle x y) eqn:E; cbn; [repeat split; auto|].
    - intros z [->|Hz]; [now apply sle_at_most|]. apply sle_at_most. eapply sle_trans; [exact E|]. apply sle_at_most; auto.
    - split; auto. intros z Hz. apply (Permutation_in _ (sinsert_perm x l)) in Hz.
      destruct Hz as [->|Hz]; auto. now apply sle_at_most, sle_total.
  Qed.
  Lemma sort_sorted l : ssorted (sort_strings l).
  Proof. induction l; cbn; auto. now apply sinsert_sorted. Qed.

  Lemma ssorted_unique l : forall l', ssorted l -> ssorted l' -> Permutation l l' -> l = l'.
  Proof.
    induction l as [|x l IH]; intros [|y l'] S1 S2 P; auto.
    - apply Permutation_nil in P; discriminate.
    - symmetry in P; apply Permutation_nil in P; discriminate.
    - cbn in S1, S2. destruct S1 as (A1 & S1), S2 as (A2 & S2).
      assert (x = y).
      { assert (I1 : In x (y :: l')) by (eapply Permutation_in; eauto; left; auto).
        assert (I2 : In y (x :: l)) by (eapply Permutation_in; [symmetry; eauto|left; auto]).
        destruct I1 as [|I1]; auto. destruct I2 as [|I2]; auto. apply sle_antisym; apply sle_at_most; auto. }
      subst. f_equal. apply IH; auto. eapply Permutation_cons_inv; eauto.
  Qed.
End Rows.

Section Project.
  Context {A : Type}.

  Lemma project_notin cs obj c : ~ In c (map rc_name cs) -> forall acc o,
    project_columns cs obj acc = Ok o -> mget String.eqb c o = mget (V := option A) String.eqb c acc.
  Proof.
    induction cs as [|a cs IH]; intros H acc o E; cbn in E. { now inversion E. }
    cbn in H. assert (c <> rc_name a) by intuition.
    destruct (rc_exec a) as [ex|].
    - destruct (ex obj); try discriminate. rewrite (IH ltac:(tauto) _ _ E).
      rewrite !mget_mset_ne; auto.
    - destruct (mget String.eqb (rc_name a) obj).
      + rewrite (IH ltac:(tauto) _ _ E). rewrite !mget_mset_ne; auto.
      + rewrite (IH ltac:(tauto) _ _ E). rewrite !mget_mset_ne; auto.
  Qed.

  Lemma project_ok cs obj : NoDup (map rc_name cs) -> forall (acc : object A),
    match all_ok (map (fun c => column_value c obj) cs) with
    | Ok vs => exists o, project_columns cs obj acc = Ok o /\ length vs = length cs /\
        forall i c v, nth_error (map rc_name cs) i = Some c -> nth_error vs i = Some v ->
          mget String.eqb c o = Some v
    | Err e => project_columns cs obj acc = Err e
    | Panic => project_columns cs obj acc = Panic
    end.
  Proof.
    induction cs as [|a cs IH]; intros ND acc.
    { cbn. eexists; repeat split; auto. intros [|]; discriminate. }
    inversion ND as [|? ? Ha ND']; subst. cbn [map all_ok project_columns].
    assert (S : forall v acc', mget String.eqb (rc_name a) acc' = Some v ->
      match rbind (Ok v) (fun v0 => rbind (all_ok (map (fun c => column_value c obj) cs)) (fun vs => Ok (v0 :: vs))) with
      | Ok vs => exists o, project_columns cs obj acc' = Ok o /\ length vs = length (a :: cs) /\
          forall i c w, nth_error (map rc_name (a :: cs)) i = Some c -> nth_error vs i = Some w ->
            mget String.eqb c o = Some w
      | Err e => project_columns cs obj acc' = Err e
      | Panic => project_columns cs obj acc' = Panic
      end).
    { intros v acc' Hv. specialize (IH ND' acc'). cbn [rbind].
      destruct (all_ok _) as [vs|e|]; cbn [rbind]; auto.
      destruct IH as (o & E & L & N). exists o. split; auto. split; [cbn; lia|].
      intros [|i] c w Hc Hw; cbn in Hc, Hw.
      - inversion Hc; inversion Hw; subst. rewrite (project_notin _ _ _ Ha _ _ E). auto.
      - eauto. }
    unfold column_value at 1. destruct (rc_exec a) as [ex|].
    - destruct (ex obj) as [v|e|]; cbn [rbind]; auto. apply (S v). apply mget_mset_eq.
    - destruct (mget String.eqb (rc_name a) obj) as [v|].
      + apply (S v). apply mget_mset_eq.
      + apply (S None). apply mget_mset_eq.
  Qed.

  Lemma projection cols (obj : object A) : NoDup (map rc_name cols) ->
    match all_ok (map (fun c => column_value c obj) cols) with
    | Ok vs => exists r lookup, new_row_from_object cols obj = Ok r /\
        names_values (map rc_name cols) vs lookup /\
        forall ops, row_run r ops = map (row_answer lookup vs) ops
    | Err e => new_row_from_object cols obj = Err e
    | Panic => new_row_from_object cols obj = Panic
    end.
  Proof.
    intros ND. pose proof (project_ok cols obj ND []) as H. unfold new_row_from_object.
    destruct (all_ok _) as [vs|e|]; [|now rewrite H..].
    destruct H as (o & E & L & N). rewrite E. cbn [rbind].
    exists (mkRow (Some o) (Some (map rc_name cols)) None), (fun n => mget String.eqb n o).
    split; auto. split.
    - split; [now rewrite map_length|]. split; auto. intros c Hc.
      now rewrite (project_notin _ _ _ Hc _ _ E).
    - destruct (row_from_object (map rc_name cols) o) as (ws & Lw & Nw & R). intros ops. rewrite R.
      replace vs with ws; auto.
      apply nth_ext with (d := None) (d' := None); [rewrite map_length in Lw; lia|].
      intros i Hi. destruct (nth_error (map rc_name cols) i) as [c|] eqn:Ec;
        [|apply nth_error_None in Ec; lia].
      specialize (Nw _ _ Ec).
      destruct (nth_error vs i) as [v|] eqn:Ev;
        [|apply nth_error_None in Ev; rewrite map_length in Lw; lia].
      rewrite (N _ _ _ Ec Ev) in Nw.
      rewrite (nth_error_nth _ _ None Nw), (nth_error_nth _ _ None Ev). reflexivity.
  Qed.
End Project.

Section More.
  Lemma max_offset_diverges (R : Type) (rows : list R) fuel :
    rs_loop fuel (new_rset rows (2 ^ 64 - 1) 0) = None.
  Proof.
    set (m := (2 ^ 64 - 1)%N).
    assert (G : forall fuel rs, rs_rows rs = rows -> rs_offset rs = m -> rs_limit rs = 0%N ->
                (rs_cursor rs <= m)%N -> rs_loop fuel rs = None).
    { clear fuel. induction fuel as [|f IH]; intros [rw c o l]; cbn [rs_rows rs_offset rs_limit rs_cursor];
        intros -> -> -> Hc; cbn [rs_loop]; auto.
      unfold rs_next. cbn [rs_rows rs_offset rs_limit rs_cursor with_cursor].
      assert (E : (if (c <? m)%N then m else c) = m) by (destruct (N.ltb_spec c m); lia).
      rewrite E. change (u64 (m + 1)) with 0%N. cbn [N.ltb andb N.compare].
      replace (0 <=? N.of_nat (length rows))%N with true by (symmetry; apply N.leb_le; lia).
      rewrite IH; auto. cbn. unfold m. lia. }
    apply G; auto. cbn. unfold m. lia.
  Qed.

  Lemma exhausted (R : Type) (rows : list R) offset limit n m :
    (offset + limit < 2 ^ 64)%N -> (offset + N.of_nat m < 2 ^ 64)%N -> 1 <= n <= m ->
    nth_next (new_rset rows offset limit) n = false ->
    nth_next (new_rset rows offset limit) m = false /\
    (length rows <= N.to_nat offset \/ limit = 0%N \/ length rows <= N.to_nat (offset + limit) ->
     rs_current (rs_advance m (new_rset rows offset limit)) = Err ErrNoRows) /\
    rs_current (new_rset rows offset limit) = Err ErrNoRows.
  Proof.
    intros H1 H2 Hn. rewrite !nth_next_spec by lia. rewrite Nat.leb_gt. intros H. split; [|split].
    - apply Nat.leb_gt. lia.
    - intros G. rewrite current_spec by lia. rewrite nth_error_skipn.
      replace (nth_error rows _) with (@None R); auto. symmetry. apply nth_error_None.
      rewrite window_length in H. destruct (N.eqb_spec limit 0); lia.
    - reflexivity.
  Qed.

  Lemma fn_cursor (R : Type) (columns : list string) (rows : list R) (n : nat) :
    let rs := new_fn_rset columns rows in
    snd (fr_next (fr_advance n rs)) = (S n <=? length rows) /\
    fr_row (fr_advance 0 rs) = Err ErrNoData /\
    (forall r, nth_error rows n = Some r -> fr_row (fr_advance (S n) rs) = Ok r) /\
    (length rows <= n -> forall r rows', rows = rows' ++ [r] -> fr_row (fr_advance n rs) = Ok r) /\
    (rows = [] -> fr_row (fr_advance n rs) = Err ErrNoData).
  Proof.
    intros rs. unfold rs. split; [apply fr_next_spec|]. split; [reflexivity|].
    rewrite !fr_row_spec. split; [|split].
    - intros r H. assert (n < length rows) by (apply nth_error_Some; rewrite H; discriminate).
      replace (Nat.min (S n) (length rows) - 1) with n by lia. now rewrite H.
    - intros L r rows' ->. rewrite app_length in *. cbn [length] in *. destruct n; [lia|].
      replace (Nat.min (S n) (length rows' + 1) - 1) with (length rows') by lia.
      rewrite nth_error_app2, Nat.sub_diag by lia. reflexivity.
    - intros ->. destruct n; auto.
  Qed.

  Lemma map_of_row (A : Type) (columns : list string) (row : list (option A)) :
    NoDup columns ->
    (forall i c, nth_error columns i = Some c ->
       mget String.eqb c (new_map_with_row columns row) = Some (nth i row None)) /\
    (forall c, ~ In c columns -> mget String.eqb c (new_map_with_row columns row) = None).
  Proof.
    intros ND. unfold new_map_with_row. rewrite map_with_row_object. split.
    - intros i c H. rewrite (object_of_nth _ _ ND _ _ _ _ H). reflexivity.
    - intros c H. now rewrite object_of_notin.
  Qed.

  Lemma mget_nodup {A} (obj : object A) k v : NoDup (map fst obj) -> In (k, v) obj -> mget String.eqb k obj = Some v.
  Proof.
    induction obj as [|[a b] o IH]; cbn; [tauto|]. intros ND [E|I].
    - inversion E; subst. now rewrite String.eqb_refl.
    - inversion ND as [|? ? Ha ND']; subst. destruct (String.eqb_spec k a); auto.
      subst. destruct Ha. change a with (fst (a, v)). now apply in_map.
  Qed.
  Lemma mget_none {A} (obj : object A) k : ~ In k (map fst obj) -> mget String.eqb k obj = None.
  Proof.
    induction obj as [|[a b] o IH]; cbn; auto. intros H. destruct (String.eqb_spec k a); subst; tauto.
  Qed.
  Lemma mget_in_some {A} (obj : object A) k : In k (map fst obj) -> exists v, mget String.eqb k obj = Some v.
  Proof.
    induction obj as [|[a b] o IH]; cbn; [tauto|]. intros H. destruct (String.eqb_spec k a); eauto.
    apply IH. destruct H; congruence.
  Qed.

  Lemma row_from_object_noschema (A : Type) (obj : object A) : NoDup (map fst obj) ->
    exists cols values,
      Permutation cols (map fst obj) /\ ssorted cols /\
      names_values cols values (fun n => mget String.eqb n obj) /\
      forall ops, row_run (mkRow (Some obj) None None) ops
                  = map (row_answer (fun n => mget String.eqb n obj) values) ops.
  Proof.
    intros ND. pose proof (sort_perm (map fst obj)) as P.
    exists (sort_strings (map fst obj)),
      (map (fun n => match mget String.eqb n obj with Some v => v | None => None end) (sort_strings (map fst obj))).
    split; auto. split; [apply sort_sorted|]. split.
    - split; [now rewrite map_length|]. split.
      + intros i c v Hc Hv. rewrite (map_nth_error _ _ _ Hc) in Hv. inversion Hv.
        destruct (mget_in_some obj c) as (w & W).
        { eapply Permutation_in; eauto. eapply nth_error_In; eauto. }
        now rewrite W.
      + intros c Hc. apply mget_none. intros I. apply Hc. eapply Permutation_in; [symmetry; eauto|auto].
    - intros ops. apply row_run_ok. repeat split; auto. left; discriminate.
  Qed.
End More.
