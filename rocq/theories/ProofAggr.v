(** Proofs about the aggregators. *)
From Coq Require Import Floats.SpecFloat.
From Verif Require Import GoBase ModelResultSet ModelAggr SpecAggr FactsBase.

(** ** join *)
Lemma join_comma_inj l : forall l', length l = length l' ->
  (forall s, In s l -> ~ In ","%char (list_ascii_of_string s)) ->
  (forall s, In s l' -> ~ In ","%char (list_ascii_of_string s)) ->
  join "," l = join "," l' -> l = l'.
Proof.
  induction l as [|x l IH]; intros [|y l'] L A B E; try discriminate; auto.
  cbn [length] in L. destruct l as [|x2 l], l' as [|y2 l']; try discriminate.
  - cbn in E. now subst.
  - assert (Ex : x = y /\ join "," (x2 :: l) = join "," (y2 :: l')).
    { cbn [join] in E. apply (append_inv_no_char ","%char x y).
      - apply A; left; auto.
      - apply B; left; auto.
      - exact E. }
    destruct Ex as (-> & Ej). f_equal. apply IH; auto.
    + intros s Hs; apply A; right; auto.
    + intros s Hs; apply B; right; auto.
Qed.

Lemma all_some_map {A B} (f : A -> option B) (d : B) l l' :
  all_some f l = Some l' -> l' = map (fun x => match f x with Some y => y | None => d end) l.
Proof.
  revert l'; induction l as [|x l IH]; intros l' H; cbn in H. { now inversion H. }
  destruct (f x) eqn:E; try discriminate. destruct (all_some f l) eqn:E2; try discriminate.
  inversion H; subst. cbn. rewrite E. f_equal. now apply IH.
Qed.

Lemma final_fold k xs :
  final_value k (fold_left (agg_value k) xs (reset_value k)) (length xs) = aggregate_of k xs.
Proof. destruct k; cbn; auto; destruct xs; auto. Qed.

Section Aggr.
  Context {V : Type} (to_float : V -> option float) (to_str : option V -> option string)
          (compare : option V -> option V -> option comparison).
  Notation frow := (frow V).
  Notation aggregate_row := (aggregate_row to_float to_str).
  Notation aggregate_rows := (aggregate_rows to_float to_str).
  Notation agg_cells := (agg_cells to_float).
  Notation finalize := (finalize compare).
  Notation number := (number to_float).
  Notation column := (column to_float).
  Notation aggregates := (aggregates to_float).
  Notation group_of := (group_of to_str).
  Notation group_row := (group_row to_float to_str).
  Notation grouped := (grouped to_float to_str).

  Lemma agg_cells_ok k cells : forall accs accs', agg_cells k accs cells = (accs', Ok tt) ->
    length accs = length cells ->
    length accs' = length accs /\
    forall i, i < length accs -> nth i accs' fzero = agg_value k (nth i accs fzero) (number (nth i cells None)).
  Proof.
    induction cells as [|c cs IH]; intros accs accs' H L; cbn in H.
    - inversion H; subst. split; auto. rewrite L. cbn. lia.
    - destruct accs as [|a accs]; cbn in L; [lia|].
      destruct (cell_float to_float c) as [x|] eqn:E; try discriminate.
      destruct (agg_cells k accs cs) as [r e] eqn:E2. inversion H; subst.
      destruct (IH _ _ E2 ltac:(lia)) as (L' & N). split. { cbn. lia. }
      intros [|i] Hi; cbn [nth].
      + f_equal. unfold number. destruct c; cbn in E; [rewrite E|inversion E]; auto.
      + apply N. cbn in Hi. lia.
  Qed.

  Lemma nth_skipn_cells {B} (l : list B) from i d : nth i (skipn from l) d = nth (from + i) l d.
  Proof. revert l; induction from; intros [|a l]; cbn; auto. now destruct i. Qed.

  Lemma column_snoc rows r i : column (rows ++ [r]) i = column rows i ++ [number (nth i r None)].
  Proof. unfold SpecAggr.column. now rewrite map_app. Qed.

  (** Accumulators of columns from..from+n-1 over the rows. *)
  Definition accs (k : kind) (from n : nat) (rows : list (list (option V))) : list float :=
    map (fun i => fold_left (agg_value k) (column rows i) (reset_value k)) (seq from n).

  Lemma accs_nil k from n : accs k from n [] = repeat (reset_value k) n.
  Proof.
    unfold accs. cbn. revert from; induction n; intros; cbn; auto. f_equal. apply IHn.
  Qed.

  Lemma accs_step k from n rows cells a' :
    length cells = from + n ->
    agg_cells k (accs k from n rows) (skipn from cells) = (a', Ok tt) ->
    a' = accs k from n (rows ++ [cells]).
  Proof.
    intros L H. apply agg_cells_ok in H.
    2:{ unfold accs. rewrite map_length, seq_length, skipn_length. lia. }
    destruct H as (L' & N). unfold accs in *. rewrite map_length, seq_length in *.
    apply nth_ext with (d := fzero) (d' := fzero). { now rewrite map_length, seq_length. }
    intros i Hi. rewrite L' in Hi. rewrite N by auto. rewrite nth_skipn_cells.
    assert (G : forall (f : nat -> float), nth i (map f (seq from n)) fzero = f (from + i)).
    { intros f. rewrite (nth_indep _ fzero (f 0)) by (rewrite map_length, seq_length; auto).
      rewrite map_nth. f_equal. now apply seq_nth. }
    rewrite !G. rewrite column_snoc, fold_left_app. reflexivity.
  Qed.

  Lemma final_accs k from n rows :
    map (fun a => num_cell (final_value k a (length rows))) (accs k from n rows)
    = aggregates k from n rows.
  Proof.
    unfold accs, SpecAggr.aggregates. rewrite map_map. apply map_ext. intros i.
    rewrite <- final_fold. unfold SpecAggr.column. now rewrite map_length.
  Qed.

  (** *** Runs *)
  Lemma aggregate_rows_app st rows r :
    aggregate_rows st (rows ++ [r]) =
    (fst (aggregate_row (fst (aggregate_rows st rows)) r),
     snd (aggregate_rows st rows) ++ [snd (aggregate_row (fst (aggregate_rows st rows)) r)]).
  Proof.
    revert st; induction rows as [|x rows IH]; intros st; cbn.
    - destruct (aggregate_row st r); auto.
    - destruct (aggregate_row st x) as [st1 e]. rewrite IH.
      destruct (aggregate_rows st1 rows); auto.
  Qed.

  Lemma row_fixed st r : let st' := fst (aggregate_row st r) in
    a_kind st' = a_kind st /\ a_args st' = a_args st /\ a_columns st' = a_columns st /\
    a_groups st' = a_groups st.
  Proof.
    unfold ModelAggr.aggregate_row. destruct (negb _); auto.
    destruct (is_grouping st) eqn:G.
    - destruct (group_set_key _ _) as [key|e|]; auto.
      destruct (mget String.eqb key (a_gaggrs st)); cbn;
      match goal with |- context [agg_cells ?a ?b ?c] => destruct (agg_cells a b c) end; cbn; auto.
    - destruct (agg_cells _ _ _); auto.
  Qed.

  Lemma rows_fixed st rows : let st' := fst (aggregate_rows st rows) in
    a_kind st' = a_kind st /\ a_args st' = a_args st /\ a_columns st' = a_columns st /\
    a_groups st' = a_groups st.
  Proof.
    revert st; induction rows as [|r rows IH]; intros st; cbn; auto.
    pose proof (row_fixed st r) as F. destruct (aggregate_row st r) as [st1 e]. cbn in F.
    specialize (IH st1). destruct (aggregate_rows st1 rows). cbn in *. intuition congruence.
  Qed.

  (** What a successful Reset establishes. *)
  Lemma reset_ok st opts st0 : reset st opts = (st0, Ok tt) ->
    a_columns st0 = columns_of st0 /\ a_counts st0 = 0 /\ a_gaggrs st0 = [] /\ a_gcounts st0 = [] /\
    a_aggrs st0 = repeat (reset_value (a_kind st0)) (length (a_columns st0)) /\ a_columns st0 <> [].
  Proof.
    unfold reset. destruct (apply_opts st opts) as [st1 [u|e|]]; try discriminate.
    destruct (length (columns_of st1) =? 0) eqn:E; try discriminate. intros H; inversion H; subst; cbn.
    repeat split; auto. intros C. rewrite C in E. discriminate.
  Qed.

  (** *** Without GROUP BY *)
  Lemma plain_run st0 rows :
    is_grouping st0 = false -> a_columns st0 = columns_of st0 -> a_counts st0 = 0 ->
    a_aggrs st0 = repeat (reset_value (a_kind st0)) (length (a_columns st0)) ->
    accepted (snd (aggregate_rows st0 rows)) ->
    a_aggrs (fst (aggregate_rows st0 rows)) =
      accs (a_kind st0) 0 (length (a_columns st0)) (map fr_cells rows) /\
    a_counts (fst (aggregate_rows st0 rows)) = length rows.
  Proof.
    intros G C N0 A0. induction rows as [|r rows IH] using rev_ind; intros Acc.
    - cbn. rewrite accs_nil. auto.
    - rewrite aggregate_rows_app in Acc |- *. cbn [fst snd] in *.
      apply Forall_app in Acc. destruct Acc as (Acc & Er). specialize (IH Acc). destruct IH as (IA & IN).
      inversion Er as [|? ? Er1 _]; subst. clear Er.
      pose proof (rows_fixed st0 rows) as (F1 & F2 & F3 & F4).
      set (st := fst (aggregate_rows st0 rows)) in *.
      unfold ModelAggr.aggregate_row in *. rewrite F3 in *.
      destruct (Nat.eqb_spec (length (a_columns st0)) (length (fr_cells r))) as [L|L]; cbn [negb] in *;
        [|discriminate].
      unfold is_grouping in *. rewrite F4 in *. rewrite G in *.
      rewrite F1, IA in *.
      destruct (agg_cells _ _ _) as [a e] eqn:E. cbn [fst snd] in *. subst e. cbn [is_ok a_aggrs a_counts].
      split; [|rewrite app_length; cbn; lia].
      rewrite map_app. cbn [map].
      apply (accs_step (a_kind st0) 0 (length (a_columns st0))); auto.
  Qed.

  Lemma plain_finalize st opts st0 rows mem ob sort iter :
    reset st opts = (st0, Ok tt) -> a_groups st0 = [] ->
    accepted (snd (aggregate_rows st0 rows)) ->
    finalize mem ob sort iter (fst (aggregate_rows st0 rows)) =
    Ok (new_fn_rset (a_columns st0)
          [aggregates (a_kind st0) 0 (length (a_args st0)) (map fr_cells rows)]).
  Proof.
    intros R G Acc. apply reset_ok in R. destruct R as (C & N & _ & _ & A & _).
    assert (G' : is_grouping st0 = false) by (unfold is_grouping; rewrite G; auto).
    destruct (plain_run st0 rows G' C N A Acc) as (IA & IN).
    pose proof (rows_fixed st0 rows) as (F1 & F2 & F3 & F4).
    unfold ModelAggr.finalize. unfold is_grouping. rewrite F4, G. cbn [length Nat.eqb negb].
    rewrite F3, F1, IA, IN.
    rewrite <- (map_length fr_cells rows), final_accs.
    rewrite C. unfold columns_of. rewrite G'. cbn [app]. rewrite map_length. reflexivity.
  Qed.

  (** *** With GROUP BY *)
  Definition jkey (g : nat) (r : frow) : string := join "," (group_of g (fr_cells r)).
  Definition members (g : nat) (key : string) (rows : list frow) : list frow :=
    filter (fun r => String.eqb (jkey g r) key) rows.

  Lemma members_snoc g key rows r : members g key (rows ++ [r]) =
    members g key rows ++ (if String.eqb (jkey g r) key then [r] else []).
  Proof. unfold members. rewrite filter_app. cbn. destruct (String.eqb (jkey g r) key); auto. Qed.

  Record ginv (st0 st : aggr) (rows : list frow) : Prop := {
    gi_aggrs : forall key, mget String.eqb key (a_gaggrs st) =
      match members (length (a_groups st0)) key rows with
      | [] => None
      | ms => Some (accs (a_kind st0) (length (a_groups st0)) (length (a_columns st0) - length (a_groups st0))
                      (map fr_cells ms))
      end;
    gi_counts : forall key, mget String.eqb key (a_gcounts st) =
      match members (length (a_groups st0)) key rows with [] => None | ms => Some (length ms) end;
    gi_keys : forall key, match members (length (a_groups st0)) key rows with
      | [] => True
      | m :: _ => mget String.eqb key (a_keys st) = Some (fr_buf m, length (a_groups st0))
      end;
    gi_nodup : NoDup (map fst (a_gaggrs st)) }.

  Lemma grouped_run st0 rows :
    is_grouping st0 = true -> a_columns st0 = columns_of st0 ->
    a_gaggrs st0 = [] -> a_gcounts st0 = [] ->
    accepted (snd (aggregate_rows st0 rows)) ->
    ginv st0 (fst (aggregate_rows st0 rows)) rows.
  Proof.
    intros G C A0 N0. induction rows as [|r rows IH] using rev_ind; intros Acc.
    { cbn. constructor; cbn; rewrite ?A0, ?N0; auto. constructor. }
    rewrite aggregate_rows_app in Acc |- *. cbn [fst snd] in *.
    apply Forall_app in Acc. destruct Acc as (Acc & Er). specialize (IH Acc).
    inversion Er as [|? ? Er1 _]; subst. clear Er.
    pose proof (rows_fixed st0 rows) as (F1 & F2 & F3 & F4).
    set (st := fst (aggregate_rows st0 rows)) in *.
    unfold ModelAggr.aggregate_row in *. rewrite F3 in *.
    destruct (Nat.eqb_spec (length (a_columns st0)) (length (fr_cells r))) as [L|L]; cbn [negb] in *;
      [|discriminate].
    unfold is_grouping in *. rewrite F4 in *. rewrite G in *.
    set (g := length (a_groups st0)) in *.
    assert (Lg : g <= length (a_columns st0)).
    { rewrite C. unfold columns_of, is_grouping. fold g. rewrite G, app_length. unfold g. lia. }
    set (n := length (a_columns st0) - g) in *.
    destruct (group_set_key to_str (a_groups st0) (firstn g (fr_cells r))) as [key|e|] eqn:EK;
      cbn [snd] in Er1; try discriminate.
    assert (K : key = jkey g r).
    { clear Er1. unfold group_set_key in EK.
      destruct (length (a_groups st0) =? length (firstn g (fr_cells r))); try discriminate.
      destruct (all_some to_str (firstn g (fr_cells r))) as [ts|] eqn:Es; try discriminate.
      inversion EK. unfold jkey, SpecAggr.group_of. f_equal. unfold text. now apply all_some_map. }
    destruct IH as [IA IC IK IN]. fold g in IA, IC, IK. fold n in IA.
    assert (Lc : length (fr_cells r) = g + n) by lia.
    (* the accumulators used *)
    assert (STEP : forall a e, agg_cells (a_kind st0) (accs (a_kind st0) g n (map fr_cells (members g key rows)))
                      (skipn g (fr_cells r)) = (a, e) -> e = Ok tt ->
               a = accs (a_kind st0) g n (map fr_cells (members g key rows ++ [r]))).
    { intros a e E ->. rewrite map_app. cbn [map]. eapply accs_step; eauto. }
    assert (MS : forall key', members g key' (rows ++ [r]) =
               if String.eqb key' key then members g key rows ++ [r] else members g key' rows).
    { intros key'. rewrite members_snoc, <- K. rewrite (String.eqb_sym key key').
      destruct (String.eqb_spec key' key); subst; auto. now rewrite app_nil_r. }
    pose proof (IA key) as IAk. pose proof (IC key) as ICk. pose proof (IK key) as IKk.
    destruct (mget String.eqb key (a_gaggrs st)) as [old|] eqn:Eold.
    - destruct (members g key rows) as [|m0 ms] eqn:Em; [discriminate|].
      assert (Hold : old = accs (a_kind st0) g n (map fr_cells (m0 :: ms))) by congruence.
      unfold getd in *. rewrite Eold in *. rewrite F1 in *. rewrite <- Hold in STEP.
      destruct (agg_cells (a_kind st0) old (skipn g (fr_cells r))) as [a e] eqn:Ea. cbn [fst snd] in *.
      specialize (STEP a e eq_refl Er1). subst e. cbn [is_ok]. rewrite ICk.
      constructor; cbn [a_gaggrs a_gcounts a_keys]; fold g; fold n; try (intros key'; rewrite MS).
      + rewrite sget_set. destruct (String.eqb_spec key' key); [subst; reflexivity|apply IA].
      + rewrite sget_set. destruct (String.eqb_spec key' key).
        * cbn. f_equal. rewrite app_length. cbn. lia.
        * apply IC.
      + destruct (String.eqb_spec key' key); [subst; exact IKk|apply IK].
      + now apply nodup_keys_set.
    - destruct (members g key rows) as [|m0 ms] eqn:Em; [|discriminate].
      cbn [a_gaggrs a_kind a_gcounts a_args a_columns a_aggrs a_counts a_groups a_keys] in *.
      unfold getd in *. rewrite !sget_set_eq in *. rewrite F1 in *.
      cbn [map] in STEP. rewrite accs_nil in STEP.
      destruct (agg_cells (a_kind st0) (repeat (reset_value (a_kind st0)) n) (skipn g (fr_cells r)))
        as [a e] eqn:Ea. cbn [fst snd] in *.
      specialize (STEP a e eq_refl Er1). subst e. cbn [is_ok].
      constructor; cbn [a_gaggrs a_gcounts a_keys]; fold g; fold n; try (intros key'; rewrite MS).
      + rewrite sget_set. destruct (String.eqb_spec key' key); [subst; reflexivity|].
        rewrite sget_set_ne by auto. apply IA.
      + rewrite sget_set. destruct (String.eqb_spec key' key); [reflexivity|].
        rewrite sget_set_ne by auto. apply IC.
      + destruct (String.eqb_spec key' key); [subst; apply sget_set_eq|].
        rewrite sget_set_ne by auto. apply IK.
      + now apply nodup_keys_set, nodup_keys_set.
  Qed.

  (** *** Finalize with GROUP BY *)
  Definition key_tuple (g : nat) (rows : list frow) (key : string) : list (option V) :=
    match members g key rows with m :: _ => firstn g (fr_cells m) | [] => [] end.
  Definition key_row (k : kind) (g n : nat) (rows : list frow) (key : string) : list (cell V) :=
    map key_cell (key_tuple g rows key) ++ aggregates k g n (map fr_cells (members g key rows)).

  Lemma members_in g key rows : members g key rows <> [] <-> In key (map (jkey g) rows).
  Proof.
    unfold members. split.
    - destruct (filter _ rows) as [|m ms] eqn:E; [congruence|]. intros _.
      assert (I : In m (filter (fun r => String.eqb (jkey g r) key) rows)) by (rewrite E; left; auto).
      apply filter_In in I. destruct I as (I & Eq). apply String.eqb_eq in Eq. subst key. now apply in_map.
    - intros H E. apply in_map_iff in H. destruct H as (r & <- & I).
      assert (I' : In r (filter (fun r0 => String.eqb (jkey g r0) (jkey g r)) rows)).
      { apply filter_In. split; auto. apply String.eqb_refl. }
      rewrite E in I'. destruct I'.
  Qed.

  Lemma ginv_slot st0 st rows mem key : ginv st0 st rows -> unwritten mem (length (a_groups st0)) rows ->
    In key (map fst (a_gaggrs st)) ->
    read_slice mem (getd (0, 0) key (a_keys st)) = key_tuple (length (a_groups st0)) rows key.
  Proof.
    intros [IA IC IK IN] U I. apply sget_in_keys in I. rewrite IA in I. specialize (IK key).
    unfold key_tuple. destruct (members _ key rows) as [|m ms] eqn:E; [congruence|].
    unfold getd. rewrite IK. unfold read_slice. cbn [fst snd]. apply U.
    assert (J : In m (members (length (a_groups st0)) key rows)) by (rewrite E; left; auto).
    unfold members in J. now apply filter_In in J.
  Qed.

  Lemma group_rows_ok st0 st rows mem keys : ginv st0 st rows -> a_kind st = a_kind st0 ->
    unwritten mem (length (a_groups st0)) rows ->
    (forall key, In key keys -> In key (map fst (a_gaggrs st))) ->
    group_rows mem st keys =
    Ok (map (key_row (a_kind st0) (length (a_groups st0)) (length (a_columns st0) - length (a_groups st0)) rows) keys).
  Proof.
    intros GI K U. induction keys as [|key keys IH]; intros H; cbn [group_rows map]; auto.
    rewrite IH by (intros; apply H; right; auto). clear IH.
    pose proof (ginv_slot _ _ _ _ key GI U (H _ (or_introl eq_refl))) as SL.
    destruct GI as [IA IC IK IN].
    pose proof (H _ (or_introl eq_refl)) as I. apply sget_in_keys in I.
    rewrite IA in I |- *. specialize (IC key). specialize (IK key). rewrite IC.
    unfold key_row. unfold getd in SL.
    destruct (members _ key rows) as [|m ms] eqn:E; [congruence|].
    rewrite IK in SL |- *. rewrite SL, K. cbn [rbind]. f_equal. f_equal. f_equal.
    rewrite <- E. rewrite <- (map_length fr_cells (members _ key rows)). apply final_accs.
  Qed.

  Lemma finalize_exact st opts st0 rows mem ob sort iter :
    reset st opts = (st0, Ok tt) -> a_groups st0 <> [] ->
    accepted (snd (aggregate_rows st0 rows)) ->
    unwritten mem (length (a_groups st0)) rows ->
    (forall lt l, Permutation (sort lt l) l) ->
    Permutation iter (map fst (a_gaggrs (fst (aggregate_rows st0 rows)))) ->
    let order := order_groups compare mem ob sort (fst (aggregate_rows st0 rows)) iter in
    finalize mem ob sort iter (fst (aggregate_rows st0 rows)) =
      Ok (new_fn_rset (a_columns st0)
           (map (key_row (a_kind st0) (length (a_groups st0)) (length (a_args st0)) rows) order)) /\
    Permutation order iter /\ NoDup order /\ (forall key, In key order <-> In key (map (jkey (length (a_groups st0))) rows)).
  Proof.
    intros R G Acc U SP PI order. apply reset_ok in R. destruct R as (C & N & A0 & C0 & _ & _).
    assert (G' : is_grouping st0 = true).
    { unfold is_grouping. destruct (a_groups st0); [congruence|auto]. }
    pose proof (grouped_run st0 rows G' C A0 C0 Acc) as GI.
    pose proof (rows_fixed st0 rows) as (F1 & F2 & F3 & F4).
    set (st1 := fst (aggregate_rows st0 rows)) in *.
    assert (PO : Permutation order iter).
    { unfold order, order_groups. destruct ob; auto. }
    assert (Ha : length (a_columns st0) - length (a_groups st0) = length (a_args st0)).
    { rewrite C. unfold columns_of. rewrite G', app_length, map_length. lia. }
    split; [|split; [|split]]; auto.
    - unfold ModelAggr.finalize. replace (is_grouping st1) with true by (unfold is_grouping in *; now rewrite F4).
      fold order. rewrite (group_rows_ok st0 st1 rows mem); auto.
      + cbn [rbind]. now rewrite F3, Ha.
      + intros key I. eapply Permutation_in; [exact PI|]. eapply Permutation_in; eauto.
    - eapply Permutation_NoDup; [symmetry; etransitivity; eauto|]. apply GI.
    - intros key. rewrite <- members_in.
      assert (E : In key order <-> In key (map fst (a_gaggrs st1))).
      { assert (PP : Permutation order (map fst (a_gaggrs st1))) by (etransitivity; eauto).
        split; intros J; [exact (Permutation_in _ PP J)|exact (Permutation_in _ (Permutation_sym PP) J)]. }
      rewrite E, sget_in_keys, (gi_aggrs _ _ _ GI).
      destruct (members _ key rows); intuition congruence.
  Qed.

  Lemma group_of_inj g rows (r1 r2 : frow) : In r1 rows -> In r2 rows ->
    keys_distinguishable to_str g (map fr_cells rows) ->
    length (group_of g (fr_cells r1)) = length (group_of g (fr_cells r2)) ->
    jkey g r1 = jkey g r2 -> group_of g (fr_cells r1) = group_of g (fr_cells r2).
  Proof.
    intros I1 I2 [->|H] L E; unfold jkey in E.
    - assert (B : forall r : frow, length (group_of 1 (fr_cells r)) <= 1).
      { intros r. unfold SpecAggr.group_of. rewrite map_length, firstn_length. lia. }
      pose proof (B r1) as B1. pose proof (B r2) as B2. revert L E B1 B2.
      destruct (group_of 1 (fr_cells r1)) as [|a [|? ?]], (group_of 1 (fr_cells r2)) as [|b [|? ?]];
        cbn; intros; congruence || lia.
    - apply join_comma_inj; auto; intros s Hs; unfold SpecAggr.group_of in Hs;
        apply in_map_iff in Hs; destruct Hs as (v & <- & Hv); (eapply H; [|exact Hv]; apply in_map; assumption).
  Qed.

  Lemma accepted_lengths st0 rows : accepted (snd (aggregate_rows st0 rows)) ->
    forall r, In r rows -> length (fr_cells r) = length (a_columns st0).
  Proof.
    revert st0; induction rows as [|x rows IH]; intros st0 Acc r I; [destruct I|].
    cbn in Acc. pose proof (row_fixed st0 x) as (F1 & F2 & F3 & F4).
    destruct (aggregate_row st0 x) as [st1 e] eqn:Ex.
    specialize (IH st1). destruct (aggregate_rows st1 rows) as [st2 es] eqn:Er. cbn [snd fst] in *.
    inversion Acc as [|? ? E1 E2]; subst. destruct I as [->|I].
    - unfold ModelAggr.aggregate_row in Ex.
      destruct (Nat.eqb_spec (length (a_columns st0)) (length (fr_cells r))); auto. discriminate.
    - rewrite IH; auto. now rewrite F3.
  Qed.

  (** The keys in any order are the joined texts of the distinct groups, and each key's rows are the
      rows of its group. *)
  Lemma order_spec st0 rows order : let g := length (a_groups st0) in
    accepted (snd (aggregate_rows st0 rows)) ->
    keys_distinguishable to_str g (map fr_cells rows) ->
    NoDup order -> (forall key, In key order <-> In key (map (jkey g) rows)) ->
    exists ts, Permutation ts (nodup (list_eq_dec string_dec) (map (group_of g) (map fr_cells rows))) /\
      order = map (join ",") ts /\
      forall t, In t ts ->
        map fr_cells (members g (join "," t) rows) = filter (same_group to_str g t) (map fr_cells rows) /\
        key_tuple g rows (join "," t) = firstn g (hd [] (filter (same_group to_str g t) (map fr_cells rows))).
  Proof.
    intros g Acc KD ND M.
    assert (Lg : forall r1 r2, In r1 rows -> In r2 rows ->
              length (group_of g (fr_cells r1)) = length (group_of g (fr_cells r2))).
    { intros r1 r2 I1 I2. unfold SpecAggr.group_of. rewrite !map_length, !firstn_length.
      rewrite (accepted_lengths _ _ Acc _ I1), (accepted_lengths _ _ Acc _ I2). auto. }
    assert (INJ : forall r1 r2, In r1 rows -> In r2 rows -> jkey g r1 = jkey g r2 ->
              group_of g (fr_cells r1) = group_of g (fr_cells r2)).
    { intros. eapply group_of_inj; eauto. }
    rewrite map_map.
    set (ts := nodup (list_eq_dec string_dec) (map (fun x => group_of g (fr_cells x)) rows)).
    assert (Ts : forall t, In t ts <-> exists r, In r rows /\ t = group_of g (fr_cells r)).
    { intros t. unfold ts. rewrite nodup_In, in_map_iff.
      split; intros (r & H1 & H2); exists r; auto. }
    assert (P : Permutation order (map (join ",") ts)).
    { apply NoDup_Permutation; auto.
      - assert (NDt : NoDup ts) by apply NoDup_nodup.
        assert (IJ : forall a b, In a ts -> In b ts -> join "," a = join "," b -> a = b).
        { intros a b Ia Ib E. apply Ts in Ia, Ib. destruct Ia as (r1 & I1 & ->), Ib as (r2 & I2 & ->).
          now apply INJ. }
        clear -NDt IJ. induction ts as [|a ts IH]; cbn; constructor.
        + intros I. apply in_map_iff in I. destruct I as (b & E & I).
          inversion NDt; subst. assert (b = a) by (apply IJ; [right|left|]; auto). congruence.
        + inversion NDt; subst. apply IH; auto. intros; apply IJ; auto; right; auto.
      - intros key. rewrite M, !in_map_iff. split.
        + intros (r & <- & I). exists (group_of g (fr_cells r)). split; auto. apply Ts; eauto.
        + intros (t & <- & I). apply Ts in I. destruct I as (r & I & ->). exists r; auto. }
    apply Permutation_map_inv in P. destruct P as (ts' & -> & P). exists ts'.
    split; [now symmetry|split; auto].
    intros t I. apply Permutation_sym in P. apply (Permutation_in _ P), Ts in I. destruct I as (r & I & ->).
    assert (Em : map fr_cells (members g (join "," (group_of g (fr_cells r))) rows) =
                 filter (same_group to_str g (group_of g (fr_cells r))) (map fr_cells rows)).
    { unfold members. clear -INJ I. revert INJ I.
      assert (Gn : forall l, (forall x, In x l -> jkey g x = jkey g r -> group_of g (fr_cells x) = group_of g (fr_cells r)) ->
        map fr_cells (filter (fun r0 => String.eqb (jkey g r0) (join "," (group_of g (fr_cells r)))) l) =
        filter (same_group to_str g (group_of g (fr_cells r))) (map fr_cells l)).
      { induction l as [|x l IH]; intros H; cbn; auto. unfold same_group at 1.
        destruct (list_eq_dec string_dec (group_of g (fr_cells x)) (group_of g (fr_cells r))) as [E|E].
        - unfold jkey at 1. rewrite E, String.eqb_refl. cbn. f_equal. apply IH. intros; apply H; auto; right; auto.
        - destruct (String.eqb_spec (jkey g x) (join "," (group_of g (fr_cells r)))) as [E'|E'].
          + exfalso. apply E. apply H; auto. left; auto.
          + apply IH. intros; apply H; auto; right; auto. }
      intros INJ I. apply Gn. intros; apply INJ; auto. }
    split; auto. rewrite <- Em.
    unfold key_tuple. destruct (members g (join "," (group_of g (fr_cells r))) rows) eqn:E2; auto.
    cbn. now rewrite firstn_nil.
  Qed.

  Lemma finalize_grouped st opts st0 rows mem ob sort iter :
    reset st opts = (st0, Ok tt) -> a_groups st0 <> [] ->
    accepted (snd (aggregate_rows st0 rows)) ->
    unwritten mem (length (a_groups st0)) rows ->
    keys_distinguishable to_str (length (a_groups st0)) (map fr_cells rows) ->
    (forall lt l, Permutation (sort lt l) l) ->
    Permutation iter (map fst (a_gaggrs (fst (aggregate_rows st0 rows)))) ->
    exists out,
      finalize mem ob sort iter (fst (aggregate_rows st0 rows)) = Ok (new_fn_rset (a_columns st0) out) /\
      Permutation out (grouped (a_kind st0) (length (a_groups st0)) (length (a_args st0)) (map fr_cells rows)).
  Proof.
    intros R G Acc U KD SP PI.
    destruct (finalize_exact st opts st0 rows mem ob sort iter R G Acc U SP PI) as (E & PO & ND & M).
    eexists. split; [exact E|]. clear E.
    set (order := order_groups _ _ _ _ _ _) in *.
    destruct (order_spec st0 rows order Acc KD ND M) as (ts & P & -> & H).
    unfold SpecAggr.grouped. rewrite <- P, map_map.
    apply Permutation_refl'. apply map_ext_in. intros t I. destruct (H t I) as (Em & Ek).
    unfold key_row, SpecAggr.group_row. now rewrite Em, Ek.
  Qed.
End Aggr.
