(** More proofs about the aggregators: Reset, rejected rows, ordering, maps, sets. *)
From Coq Require Import Floats.SpecFloat.
From Verif Require Import GoBase ModelResultSet ModelAggr SpecAggr FactsBase ProofAggr.

Ltac flds := cbn [a_kind a_args a_columns a_aggrs a_counts a_groups a_keys a_gaggrs a_gcounts].

Section Aggr.
  Context {V : Type} (to_float : V -> option float) (to_str : option V -> option string)
          (compare : option V -> option V -> option comparison).
  Notation frow := (frow V).
  Notation aggregate_row := (aggregate_row to_float to_str).
  Notation aggregate_rows := (aggregate_rows to_float to_str).
  Notation aggregate_map := (aggregate_map to_float to_str).
  Notation agg_cells := (agg_cells to_float).
  Notation finalize := (finalize compare).
  Notation aggregates := (aggregates to_float).
  Notation group_of := (group_of to_str).
  Notation grouped := (grouped to_float to_str).
  Notation reachable := (reachable to_float to_str).

  (** *** Reset forgets *)
  Record upto_keys (a b : aggr) : Prop := {
    uk_kind : a_kind a = a_kind b; uk_args : a_args a = a_args b; uk_cols : a_columns a = a_columns b;
    uk_aggrs : a_aggrs a = a_aggrs b; uk_counts : a_counts a = a_counts b; uk_groups : a_groups a = a_groups b;
    uk_gaggrs : forall k, mget String.eqb k (a_gaggrs a) = mget String.eqb k (a_gaggrs b);
    uk_gcounts : forall k, mget String.eqb k (a_gcounts a) = mget String.eqb k (a_gcounts b);
    uk_keys : forall k, mget String.eqb k (a_gaggrs a) <> None ->
                mget String.eqb k (a_keys a) = mget String.eqb k (a_keys b) }.

  Lemma upto_same a b : same_state a b -> upto_keys a b.
  Proof. intros (K & A & C & G & N & S & KY & GA & GC). constructor; auto. Qed.

  Lemma upto_row a b r : upto_keys a b ->
    snd (aggregate_row a r) = snd (aggregate_row b r) /\
    upto_keys (fst (aggregate_row a r)) (fst (aggregate_row b r)).
  Proof.
    intros [K A C G N S GA GC KY]. unfold ModelAggr.aggregate_row, is_grouping.
    rewrite <- ?K, <- ?A, <- ?C, <- ?G, <- ?N, <- ?S.
    destruct (negb (length (a_columns a) =? length (fr_cells r))). { split; auto. constructor; auto. }
    destruct (negb (length (a_groups a) =? 0)).
    - destruct (group_set_key to_str (a_groups a) (firstn (length (a_groups a)) (fr_cells r))) as [key|e|];
        [|split; auto; constructor; auto..].
      rewrite <- (GA key).
      destruct (mget String.eqb key (a_gaggrs a)) as [old|] eqn:E.
      + unfold getd. rewrite <- (GA key), <- (GC key), E.
        destruct (agg_cells (a_kind a) old _) as [acc e]. cbn [fst snd]. split; auto.
        constructor; flds; auto; try congruence.
        * intros k. rewrite !sget_set. destruct (String.eqb k key); auto.
        * intros k. destruct (is_ok e); auto. rewrite !sget_set. destruct (String.eqb k key); auto.
        * intros k Hk. apply KY. rewrite sget_set in Hk.
          destruct (String.eqb_spec k key); subst; auto. congruence.
      + flds. unfold getd. rewrite !sget_set, String.eqb_refl.
        destruct (agg_cells (a_kind a) _ _) as [acc e]. cbn [fst snd]. split; auto.
        constructor; flds; auto; try congruence.
        * intros k. rewrite !sget_set. destruct (String.eqb k key); auto.
        * intros k. destruct (is_ok e); rewrite !sget_set; destruct (String.eqb k key); auto.
        * intros k Hk. rewrite !sget_set in *. destruct (String.eqb k key); auto.
    - destruct (agg_cells (a_kind a) (a_aggrs a) (fr_cells r)) as [acc e]. cbn [fst snd]. split; auto.
      constructor; flds; auto; congruence.
  Qed.

  Lemma upto_rows rows : forall a b, upto_keys a b ->
    snd (aggregate_rows a rows) = snd (aggregate_rows b rows) /\
    upto_keys (fst (aggregate_rows a rows)) (fst (aggregate_rows b rows)).
  Proof.
    induction rows as [|r rows IH]; intros a b U; cbn; auto.
    destruct (upto_row a b r U) as (E & U').
    destruct (aggregate_row a r) as [a1 e1], (aggregate_row b r) as [b1 e2]. cbn in E, U'. subst e2.
    destruct (IH a1 b1 U') as (E2 & U2).
    destruct (aggregate_rows a1 rows) as [a2 l1], (aggregate_rows b1 rows) as [b2 l2]. cbn in *. subst. auto.
  Qed.

  Lemma upto_finalize a b mem ob sort iter : upto_keys a b -> sort_contract sort ->
    Permutation iter (map fst (a_gaggrs a)) ->
    finalize mem ob sort iter a = finalize mem ob sort iter b.
  Proof.
    intros [K A C G N S GA GC KY] (SP & SE & _) P. unfold ModelAggr.finalize, is_grouping.
    rewrite <- ?K, <- ?C, <- ?G, <- ?N, <- ?S. destruct (negb _); auto.
    assert (KY' : forall k, In k iter -> mget String.eqb k (a_keys a) = mget String.eqb k (a_keys b)).
    { intros k I. apply KY, sget_in_keys. eapply Permutation_in; eauto. }
    assert (EO : order_groups compare mem ob sort a iter = order_groups compare mem ob sort b iter).
    { unfold order_groups. destruct ob; auto; apply SE; intros x y Ix Iy; unfold getd; rewrite !KY'; auto. }
    rewrite <- EO. set (order := order_groups compare mem ob sort a iter).
    assert (IO : forall k, In k order -> In k iter).
    { intros k I. unfold order, order_groups in I.
      destruct ob; auto; (eapply Permutation_in; [apply SP|exact I]). }
    assert (ER : group_rows mem a order = group_rows mem b order).
    { clearbody order. induction order as [|g gs IH]; cbn; auto.
      rewrite <- GA, <- GC, <- K. rewrite <- KY' by (apply IO; left; auto).
      rewrite <- IH by (intros; apply IO; right; auto). reflexivity. }
    now rewrite ER.
  Qed.

  Lemma reset_same a b s : a_kind a = a_kind b -> a_args a = a_args b -> a_groups a = a_groups b ->
    reset a [] = (s, Ok tt) -> exists s', reset b [] = (s', Ok tt) /\ upto_keys s s'.
  Proof.
    intros K A G. unfold reset. cbn [apply_opts]. unfold columns_of, is_grouping.
    rewrite <- K, <- A, <- G.
    destruct (_ =? 0); try discriminate. intros H; inversion H; subst.
    eexists. split; [reflexivity|]. constructor; cbn; auto. congruence.
  Qed.

  (** Invariants of reachable states. *)
  Lemma opts_groups opts st : ~ In "" (a_groups st) -> ~ In "" (a_groups (fst (apply_opts st opts))).
  Proof.
    revert st; induction opts as [|o opts IH]; intros st H; cbn; auto.
    assert (H' : ~ In "" (a_groups (fst (apply_opt st o)))).
    { destruct o; cbn [apply_opt fst]; auto.
      - destruct (1 <? length (a_args st)); auto.
      - unfold set_groups; flds. rewrite filter_In. intros (_ & E). discriminate. }
    destruct (apply_opt st o) as [st' [u|e|]]; cbn in *; auto.
  Qed.
  Lemma reset_fields st opts : let st1 := fst (apply_opts st opts) in
    let s := fst (reset st opts) in
    a_groups s = a_groups st1 /\ a_kind s = a_kind st1 /\ a_args s = a_args st1.
  Proof.
    unfold reset. destruct (apply_opts st opts) as [st1 [u|e|]]; cbn; auto.
    destruct (length (columns_of st1) =? 0); cbn; auto.
  Qed.
  Lemma reachable_groups st : reachable st -> ~ In "" (a_groups st).
  Proof.
    induction 1.
    - unfold new_aggr in H. pose proof (opts_groups opts (blank_aggr k) (fun x => x)) as B.
      destruct (apply_opts (blank_aggr k) opts) as [s [u|e|]]; try discriminate.
      pose proof (reset_fields s []) as (E & _). destruct (reset s []) as [s' [u'|e'|]]; try discriminate.
      inversion H; subst. cbn in *. now rewrite E.
    - rewrite (proj1 (reset_fields st opts)). now apply opts_groups.
    - rewrite (proj2 (proj2 (proj2 (row_fixed to_float to_str st r)))). auto.
    - unfold ModelAggr.aggregate_map. destruct (map_cells (a_args st) m); auto.
      rewrite (proj2 (proj2 (proj2 (row_fixed to_float to_str st (mkFrow b a))))). auto.
  Qed.

  Lemma reachable_rows rows : forall st, reachable st -> reachable (fst (aggregate_rows st rows)).
  Proof.
    induction rows as [|r rows IH]; intros st H; cbn; auto.
    pose proof (reach_row to_float to_str st r H) as H1. destruct (aggregate_row st r) as [st1 e]. cbn in H1.
    specialize (IH st1 H1). destruct (aggregate_rows st1 rows). auto.
  Qed.

  Lemma filter_nonempty l : ~ In "" l -> filter (fun g => negb (String.eqb g "")) l = l.
  Proof.
    intros H. apply filter_all. intros x I. destruct (String.eqb_spec x ""); subst; auto.
  Qed.

  Lemma reset_forgets st s rows : reachable st -> reset st [] = (s, Ok tt) ->
    exists fresh, new_aggr (a_kind st) [OptArgs (a_args st); OptGroups (a_groups st)] = Ok fresh /\
      snd (aggregate_rows s rows) = snd (aggregate_rows fresh rows) /\
      forall mem ob sort iter, sort_contract sort ->
        Permutation iter (map fst (a_gaggrs (fst (aggregate_rows s rows)))) ->
        finalize mem ob sort iter (fst (aggregate_rows s rows)) =
        finalize mem ob sort iter (fst (aggregate_rows fresh rows)).
  Proof.
    intros R E. apply reachable_groups in R.
    set (b := mkAggr (a_kind st) (a_args st) [] [] 0 (a_groups st) [] [] []).
    destruct (reset_same st b s eq_refl eq_refl eq_refl E) as (f & Ef & U).
    exists f. split.
    - unfold new_aggr.
      replace (apply_opts (blank_aggr (a_kind st)) [OptArgs (a_args st); OptGroups (a_groups st)]) with (b, Ok tt).
      + now rewrite Ef.
      + cbn [apply_opts apply_opt blank_aggr a_args length]. change (1 <? 0) with false. cbn iota.
        unfold set_groups; flds. rewrite filter_nonempty by auto. reflexivity.
    - destruct (upto_rows rows s f U) as (E1 & U1). split; auto.
      intros. now apply upto_finalize.
  Qed.

  (** *** Rejected rows *)
  Lemma agg_cells_reject k accs cells accs' e : agg_cells k accs cells = (accs', e) -> e <> Ok tt ->
    length cells <= 1 -> accs' = accs.
  Proof.
    intros H E L. destruct cells as [|c [|c2 cs]]; cbn in *; try lia.
    - inversion H; congruence.
    - destruct (cell_float to_float c). destruct accs as [|a l]; inversion H; subst; try congruence.
      now inversion H.
  Qed.

  Lemma same_state_refl st : same_state st st.
  Proof. repeat split. Qed.

  Lemma rejected_row st r :
    length (a_columns st) <= length (a_groups st) + 1 ->
    snd (aggregate_row st r) <> Ok tt ->
    (is_grouping st = true -> forall key, group_set_key to_str (a_groups st) (firstn (length (a_groups st)) (fr_cells r)) = Ok key ->
       In key (map fst (a_gaggrs st))) ->
    same_state (fst (aggregate_row st r)) st.
  Proof.
    intros L. unfold ModelAggr.aggregate_row.
    destruct (Nat.eqb_spec (length (a_columns st)) (length (fr_cells r))) as [LC|]; cbn [negb];
      [|intros; apply same_state_refl].
    destruct (is_grouping st) eqn:G.
    - destruct (group_set_key to_str (a_groups st) (firstn (length (a_groups st)) (fr_cells r))) as [key|e|];
        [|intros; apply same_state_refl..].
      intros E H. specialize (H eq_refl key eq_refl).
      apply sget_in_keys in H. destruct (mget String.eqb key (a_gaggrs st)) as [old|] eqn:Eo; [|congruence].
      unfold getd in *. rewrite Eo in *.
      destruct (agg_cells (a_kind st) old _) as [acc e] eqn:Ea. cbn [fst snd] in *.
      apply agg_cells_reject in Ea; auto; [|rewrite skipn_length; lia]. subst acc.
      assert (is_ok e = false) as ->. { destruct e as [[]| |]; cbn; congruence. }
      repeat split; auto. intros k. cbn [a_gaggrs]. rewrite sget_set.
      destruct (String.eqb_spec k key); subst; auto.
    - assert (length (a_groups st) = 0).
      { unfold is_grouping in G. apply negb_false_iff, Nat.eqb_eq in G. auto. }
      destruct (agg_cells (a_kind st) (a_aggrs st) (fr_cells r)) as [acc e] eqn:Ea. cbn [fst snd].
      intros E _. apply agg_cells_reject in Ea; auto; [|lia]. subst acc.
      assert (is_ok e = false) as ->. { destruct e as [[]| |]; cbn; congruence. }
      destruct st; repeat split.
  Qed.

  (** *** Maps *)
  Definition arg_cell (m : list (string * option V)) (a : string) : option V :=
    if String.eqb a "*" then None else match mget String.eqb a m with Some v => v | None => None end.
  Lemma map_cells_ok args m :
    (forall a, In a args -> a <> "*" -> mget String.eqb a m <> None) ->
    map_cells args m = Ok (map (arg_cell m) args).
  Proof.
    induction args as [|a args IH]; intros H; cbn; auto. unfold arg_cell at 1.
    rewrite IH by (intros; apply H; auto; right; auto).
    destruct (String.eqb_spec a "*"); auto. 
    destruct (mget String.eqb a m) eqn:E; auto. destruct (H a); auto. left; auto.
  Qed.
  Lemma map_cells_missing args (m : list (string * option V)) a :
    In a args -> a <> "*" -> mget String.eqb a m = None -> map_cells args m = Err ErrNotFound.
  Proof.
    induction args as [|x args IH]; intros I N E; [destruct I|]. cbn.
    destruct (String.eqb_spec x "*").
    - destruct I as [->|I]; [congruence|]. rewrite (IH I N E). auto.
    - destruct (mget String.eqb x m) eqn:Ex; auto.
      destruct I as [->|I]; [congruence|]. rewrite (IH I N E). auto.
  Qed.
  Lemma map_cells_length args (m : list (string * option V)) cells : map_cells args m = Ok cells -> length cells = length args.
  Proof.
    revert cells; induction args as [|x args IH]; intros cells H; cbn in H. { now inversion H. }
    destruct (String.eqb x "*").
    - destruct (map_cells args m); inversion H; subst. cbn. f_equal. now apply IH.
    - destruct (mget String.eqb x m); try discriminate.
      destruct (map_cells args m); inversion H; subst. cbn. f_equal. now apply IH.
  Qed.
  Lemma grouped_map_rejected st opts st0 rows buf m :
    reset st opts = (st0, Ok tt) -> a_groups st0 <> [] ->
    let st1 := fst (aggregate_rows st0 rows) in
    fst (aggregate_map st1 buf m) = st1 /\ exists e, snd (aggregate_map st1 buf m) = Err e.
  Proof.
    intros R G st1. apply reset_ok in R. destruct R as (C & _).
    pose proof (rows_fixed to_float to_str st0 rows) as (F1 & F2 & F3 & F4). fold st1 in F1, F2, F3, F4.
    unfold ModelAggr.aggregate_map. destruct (map_cells (a_args st1) m) as [cells|e|] eqn:E; [|split; [reflexivity|eexists; reflexivity]|].
    - unfold ModelAggr.aggregate_row. cbn [fr_cells].
      destruct (Nat.eqb_spec (length (a_columns st1)) (length cells)); cbn [negb]; [|split; [reflexivity|eexists; reflexivity]].
      exfalso. apply map_cells_length in E. rewrite F3, C in e. rewrite F2 in E.
      unfold columns_of, is_grouping in e.
      destruct (a_groups st0) as [|x l]; [congruence|]. cbn in e. rewrite app_length, map_length in e. lia.
    - exfalso. clear -E. revert E. induction (a_args st1) as [|a args IH]; cbn; try discriminate.
      destruct (String.eqb a "*").
      + destruct (map_cells args m); cbn; try discriminate. auto.
      + destruct (mget String.eqb a m); try discriminate. destruct (map_cells args m); cbn; try discriminate. auto.
  Qed.

  (** *** Ordering *)
  Fixpoint lexc (a b : list Z) : comparison :=
    match a, b with
    | x :: a', y :: b' => match Z.compare x y with Eq => lexc a' b' | c => c end
    | _, _ => Eq
    end.
  Lemma lexc_refl a : lexc a a = Eq.
  Proof. induction a; cbn; auto. now rewrite Z.compare_refl. Qed.
  Lemma lexc_antisym a : forall b, lexc b a = CompOpp (lexc a b).
  Proof.
    induction a as [|x a IH]; intros [|y b]; cbn; auto.
    rewrite (Z.compare_antisym x y). destruct (Z.compare x y); cbn; auto.
  Qed.
  Lemma lexc_eq a : forall b, length a = length b -> lexc a b = Eq -> a = b.
  Proof.
    induction a as [|x a IH]; intros [|y b] L H; try discriminate; auto.
    cbn in *. destruct (Z.compare_spec x y); try discriminate. subst. f_equal. apply IH; auto.
  Qed.
  Lemma lexc_lt_trans a : forall b c, length a = length b -> length b = length c ->
    lexc a b = Lt -> lexc b c = Lt -> lexc a c = Lt.
  Proof.
    induction a as [|x a IH]; intros [|y b] [|z c] L1 L2 H1 H2; try discriminate; cbn in *.
    destruct (Z.compare_spec x y), (Z.compare_spec y z); try discriminate; subst.
    - rewrite Z.compare_refl. eapply IH; [| |eassumption|eassumption]; lia.
    - apply Z.compare_lt_iff in H0. now rewrite H0.
    - apply Z.compare_lt_iff in H. now rewrite H.
    - assert (x < z)%Z by lia. apply Z.compare_lt_iff in H3. now rewrite H3.
  Qed.

  Lemma keys_less_lex rank vs a : forall b, orders compare rank vs ->
    (forall x, In x a -> In x vs) -> (forall x, In x b -> In x vs) ->
    keys_less compare a b = match lexc (map rank a) (map rank b) with Lt => true | _ => false end /\
    tuple_less compare a b = match lexc (map rank a) (map rank b) with Lt => true | _ => false end.
  Proof.
    induction a as [|x a IH]; intros [|y b] O Ia Ib; cbn; auto.
    rewrite (O x y (Ia x (or_introl eq_refl)) (Ib y (or_introl eq_refl))).
    destruct (Z.compare (rank x) (rank y)); auto.
    apply IH; auto; intros; [apply Ia|apply Ib]; right; auto.
  Qed.

  Lemma in_order_map {A B} (f : A -> B) lt lt' l :
    (forall x y, In x l -> In y l -> lt y x = false -> lt' (f y) (f x) = false) ->
    in_order lt l -> in_order lt' (map f l).
  Proof.
    induction l as [|x l IH]; cbn; auto. intros H (H1 & H2). split.
    - intros y Hy. apply in_map_iff in Hy. destruct Hy as (z & <- & Hz). apply H; auto.
    - apply IH; auto.
  Qed.

  Section Ordered.
    Context (st : aggr) (opts : list aopt) (st0 : aggr) (rows : list frow)
            (mem : nat -> list (option V)) (sort : sorter) (iter : list string) (rank : option V -> Z).
    Hypothesis R : reset st opts = (st0, Ok tt).
    Hypothesis G : a_groups st0 <> [].
    Hypothesis Acc : accepted (snd (aggregate_rows st0 rows)).
    Let g := length (a_groups st0).
    Hypothesis U : unwritten mem g rows.
    Hypothesis SC : sort_contract sort.
    Let st1 := fst (aggregate_rows st0 rows).
    Hypothesis PI : Permutation iter (map fst (a_gaggrs st1)).
    Hypothesis O : orders compare rank (flat_map (fun r => firstn g (fr_cells r)) rows).

    Let kt := key_tuple to_str g rows.
    Let slot k := read_slice mem (getd (0, 0) k (a_keys st1)).

    Lemma gi : ginv to_float to_str st0 st1 rows.
    Proof.
      pose proof R as R'. apply reset_ok in R'. destruct R' as (C & N & A0 & C0 & _ & _).
      apply grouped_run; auto. unfold is_grouping. destruct (a_groups st0); [congruence|auto].
    Qed.

    Lemma slot_kt key : In key iter -> slot key = kt key.
    Proof.
      intros I. unfold slot, kt, g. eapply ginv_slot; eauto using gi. eapply Permutation_in; eauto.
    Qed.

    Lemma kt_member key : In key iter -> exists r, In r rows /\ kt key = firstn g (fr_cells r) /\
       jkey to_str g r = key /\ length (kt key) = g.
    Proof.
      intros I. assert (I' : In key (map fst (a_gaggrs st1))) by (eapply Permutation_in; eauto).
      apply sget_in_keys in I'. rewrite (gi_aggrs _ _ _ _ _ gi) in I'. unfold kt, key_tuple. fold g in I'.
      destruct (members to_str g key rows) as [|m ms] eqn:E; [congruence|].
      assert (J : In m (members to_str g key rows)) by (rewrite E; left; auto).
      unfold members in J. apply filter_In in J. destruct J as (J & K). apply String.eqb_eq in K.
      exists m. repeat split; auto. rewrite firstn_length.
      pose proof R as R'. apply reset_ok in R'. destruct R' as (C & _).
      rewrite (accepted_lengths to_float to_str _ _ Acc _ J), C. unfold columns_of, is_grouping.
      unfold g. destruct (a_groups st0) as [|x l]; [congruence|]. cbn [length Nat.eqb negb].
      rewrite app_length. cbn [length]. lia.
    Qed.

    Lemma asc_lex a b : In a iter -> In b iter ->
      key_less compare (slot a) (slot b) = match lexc (map rank (kt a)) (map rank (kt b)) with Lt => true | _ => false end /\
      tuple_less compare (kt a) (kt b) = match lexc (map rank (kt a)) (map rank (kt b)) with Lt => true | _ => false end.
    Proof.
      intros Ia Ib. rewrite !slot_kt by auto.
      destruct (kt_member a Ia) as (ra & Ra & Ea & _ & La), (kt_member b Ib) as (rb & Rb & Eb & _ & Lb).
      unfold key_less. rewrite La, Lb, Nat.ltb_irrefl.
      eapply keys_less_lex; eauto.
      - intros x Hx. apply in_flat_map. exists ra. rewrite <- Ea. auto.
      - intros x Hx. apply in_flat_map. exists rb. rewrite <- Eb. auto.
    Qed.

    Lemma rows_keys order : (forall k, In k order -> In k iter) ->
      map (firstn g) (map (key_row to_float to_str (a_kind st0) g (length (a_args st0)) rows) order) =
      map (map key_cell) (map kt order).
    Proof.
      intros H. rewrite !map_map. apply map_ext_in. intros k I.
      unfold key_row. fold kt. destruct (kt_member k (H k I)) as (_ & _ & _ & _ & L).
      rewrite firstn_app, map_length, L, Nat.sub_diag. cbn. rewrite app_nil_r.
      apply firstn_all2. rewrite map_length. lia.
    Qed.

    Lemma finalize_asc : exists out ks,
      finalize mem OrderAsc sort iter st1 = Ok (new_fn_rset (a_columns st0) out) /\
      map (firstn g) out = map (map key_cell) ks /\ in_order (tuple_less compare) ks.
    Proof.
      pose proof SC as (SP & SE & SS).
      destruct (finalize_exact to_float to_str compare st opts st0 rows mem OrderAsc sort iter R G Acc U SP PI)
        as (E & PO & ND & M).
      set (order := order_groups compare mem OrderAsc sort (fst (aggregate_rows st0 rows)) iter) in *.
      eexists _, (map kt order). split; [exact E|]. split.
      { apply rows_keys. intros k I. eapply Permutation_in; eauto. }
      assert (IO : in_order (fun a b => key_less compare (slot a) (slot b)) order).
      { unfold order, order_groups. apply SS.
        change (strict_weak (fun a b => key_less compare (slot a) (slot b)) iter). split; [|split]; cbv beta.
        - intros a Ia. destruct (asc_lex a a Ia Ia) as (-> & _). now rewrite lexc_refl.
        - intros a b c Ia Ib Ic. rewrite (proj1 (asc_lex a b Ia Ib)), (proj1 (asc_lex b c Ib Ic)), (proj1 (asc_lex a c Ia Ic)).
          destruct (lexc (map rank (kt a)) (map rank (kt b))) eqn:E1; try discriminate.
          destruct (lexc (map rank (kt b)) (map rank (kt c))) eqn:E2; try discriminate. intros _ _.
          destruct (kt_member a Ia) as (_ & _ & _ & _ & La), (kt_member b Ib) as (_ & _ & _ & _ & Lb),
            (kt_member c Ic) as (_ & _ & _ & _ & Lc).
          assert (F : lexc (map rank (kt a)) (map rank (kt c)) = Lt).
          { eapply lexc_lt_trans; [| |exact E1|exact E2]; rewrite !map_length; congruence. }
          now rewrite F.
        - intros a b c Ia Ib Ic.
          rewrite (proj1 (asc_lex a b Ia Ib)), (proj1 (asc_lex b c Ib Ic)), (proj1 (asc_lex a c Ia Ic)),
                  (proj1 (asc_lex b a Ib Ia)), (proj1 (asc_lex c b Ic Ib)), (proj1 (asc_lex c a Ic Ia)).
          rewrite (lexc_antisym (map rank (kt a)) (map rank (kt b))), (lexc_antisym (map rank (kt b)) (map rank (kt c))),
                  (lexc_antisym (map rank (kt a)) (map rank (kt c))).
          destruct (kt_member a Ia) as (_ & _ & _ & _ & La), (kt_member b Ib) as (_ & _ & _ & _ & Lb),
            (kt_member c Ic) as (_ & _ & _ & _ & Lc).
          destruct (lexc (map rank (kt a)) (map rank (kt b))) eqn:E1; cbn; try discriminate.
          destruct (lexc (map rank (kt b)) (map rank (kt c))) eqn:E2; cbn; try discriminate.
          apply lexc_eq in E1; [|rewrite !map_length; congruence].
          apply lexc_eq in E2; [|rewrite !map_length; congruence].
          rewrite E1, E2, lexc_refl. auto. }
      eapply in_order_map; [|exact IO]. intros x y Ix Iy H; cbv beta in H.
      assert (Jx : In x iter) by (eapply Permutation_in; eauto).
      assert (Jy : In y iter) by (eapply Permutation_in; eauto).
      rewrite (proj2 (asc_lex y x Jy Jx)). now rewrite (proj1 (asc_lex y x Jy Jx)) in H.
    Qed.

    Lemma finalize_desc :
      sorts_distinct sort ->
      (forall r1 r2, In r1 rows -> In r2 rows ->
         map rank (firstn g (fr_cells r1)) = map rank (firstn g (fr_cells r2)) ->
         group_of g (fr_cells r1) = group_of g (fr_cells r2)) ->
      exists out ks,
      finalize mem OrderDesc sort iter st1 = Ok (new_fn_rset (a_columns st0) out) /\
      map (firstn g) out = map (map key_cell) ks /\ in_order (fun a b => tuple_less compare b a) ks.
    Proof.
      intros SD DI. pose proof SC as (SP & SE & SS).
      destruct (finalize_exact to_float to_str compare st opts st0 rows mem OrderDesc sort iter R G Acc U SP PI)
        as (E & PO & ND & M).
      set (order := order_groups compare mem OrderDesc sort (fst (aggregate_rows st0 rows)) iter) in *.
      eexists _, (map kt order). split; [exact E|]. split.
      { apply rows_keys. intros k I. eapply Permutation_in; eauto. }
      assert (NE : forall a b, In a iter -> In b iter -> a <> b -> lexc (map rank (kt a)) (map rank (kt b)) <> Eq).
      { intros a b Ia Ib N C.
        destruct (kt_member a Ia) as (ra & Ra & Ea & Ka & La), (kt_member b Ib) as (rb & Rb & Eb & Kb & Lb).
        apply lexc_eq in C; [|rewrite !map_length; congruence]. rewrite Ea, Eb in C.
        apply N. rewrite <- Ka, <- Kb. unfold jkey. f_equal. now apply DI. }
      assert (IO : in_order (fun a b => negb (key_less compare (slot a) (slot b))) order).
      { unfold order, order_groups. change (in_order (fun a b => negb (key_less compare (slot a) (slot b)))
          (sort (fun a b => negb (key_less compare (slot a) (slot b))) iter)). apply SD; cbv beta.
        - eapply Permutation_NoDup; [|exact ND]. exact PO.
        - intros a b Ia Ib N. rewrite (proj1 (asc_lex a b Ia Ib)), (proj1 (asc_lex b a Ib Ia)).
          rewrite (lexc_antisym (map rank (kt a))). specialize (NE a b Ia Ib N).
          destruct (lexc (map rank (kt a)) (map rank (kt b))); cbn; congruence.
        - intros a b c Ia Ib Ic N1 N2 N3.
          rewrite (proj1 (asc_lex a b Ia Ib)), (proj1 (asc_lex b c Ib Ic)), (proj1 (asc_lex a c Ia Ic)).
          pose proof (NE a b Ia Ib N1) as X1. pose proof (NE b c Ib Ic N2) as X2.
          destruct (lexc (map rank (kt a)) (map rank (kt b))) eqn:E1; cbn; try congruence.
          destruct (lexc (map rank (kt b)) (map rank (kt c))) eqn:E2; cbn; try congruence. intros _ _.
          destruct (kt_member a Ia) as (_ & _ & _ & _ & La), (kt_member b Ib) as (_ & _ & _ & _ & Lb),
            (kt_member c Ic) as (_ & _ & _ & _ & Lc).
          assert (F1 : lexc (map rank (kt b)) (map rank (kt a)) = Lt) by (rewrite lexc_antisym, E1; auto).
          assert (F2 : lexc (map rank (kt c)) (map rank (kt b)) = Lt) by (rewrite lexc_antisym, E2; auto).
          assert (F3 : lexc (map rank (kt c)) (map rank (kt a)) = Lt).
          { eapply lexc_lt_trans; [| |exact F2|exact F1]; rewrite !map_length; congruence. }
          rewrite lexc_antisym, F3. auto. }
      assert (NDo : NoDup order) by exact ND.
      assert (Io : forall k, In k order -> In k iter) by (intros; eapply Permutation_in; eauto).
      clearbody order. clear E PO ND M.
      induction order as [|x l IH]; cbn; auto. cbn in IO. destruct IO as (I1 & I2). inversion NDo; subst. split.
      - intros y Hy. apply in_map_iff in Hy. destruct Hy as (z & <- & Hz). specialize (I1 z Hz); cbv beta in I1.
        assert (Jx : In x iter) by (apply Io; left; auto). assert (Jz : In z iter) by (apply Io; right; auto).
        rewrite (proj1 (asc_lex z x Jz Jx)) in I1. rewrite (proj2 (asc_lex x z Jx Jz)).
        rewrite lexc_antisym. destruct (lexc (map rank (kt z)) (map rank (kt x))); cbn in *; congruence.
      - apply IH; auto. intros; apply Io; right; auto.
    Qed.
  End Ordered.

  (** The rows do not depend on the requested order. *)
  Lemma finalize_any_order st opts st0 rows mem ob ob' sort sort' iter iter' :
    reset st opts = (st0, Ok tt) -> accepted (snd (aggregate_rows st0 rows)) ->
    unwritten mem (length (a_groups st0)) rows ->
    (forall lt l, Permutation (sort lt l) l) -> (forall lt l, Permutation (sort' lt l) l) ->
    Permutation iter (map fst (a_gaggrs (fst (aggregate_rows st0 rows)))) ->
    Permutation iter' (map fst (a_gaggrs (fst (aggregate_rows st0 rows)))) ->
    exists out out',
      finalize mem ob sort iter (fst (aggregate_rows st0 rows)) = Ok (new_fn_rset (a_columns st0) out) /\
      finalize mem ob' sort' iter' (fst (aggregate_rows st0 rows)) = Ok (new_fn_rset (a_columns st0) out') /\
      Permutation out out'.
  Proof.
    intros R Acc U SP SP' PI PI'. destruct (a_groups st0) as [|x l] eqn:G.
    - do 2 eexists. rewrite !(plain_finalize _ _ _ st opts st0) by auto. repeat split. reflexivity.
    - assert (G' : a_groups st0 <> []) by congruence. rewrite <- G in U.
      destruct (finalize_exact to_float to_str compare st opts st0 rows mem ob sort iter R G' Acc U SP PI) as (E & PO & _).
      destruct (finalize_exact to_float to_str compare st opts st0 rows mem ob' sort' iter' R G' Acc U SP' PI') as (E' & PO' & _).
      do 2 eexists. split; [exact E|]. split; [exact E'|]. apply Permutation_map.
      etransitivity; [exact PO|]. etransitivity; [exact PI|]. symmetry. etransitivity; eauto.
  Qed.

  (** A rejected row, observed through later calls. *)
  Lemma rejected_unobservable st r later :
    length (a_columns st) <= length (a_groups st) + 1 ->
    snd (aggregate_row st r) <> Ok tt ->
    (is_grouping st = true -> forall key, group_set_key to_str (a_groups st) (firstn (length (a_groups st)) (fr_cells r)) = Ok key ->
       In key (map fst (a_gaggrs st))) ->
    let a := aggregate_rows (fst (aggregate_row st r)) later in
    let b := aggregate_rows st later in
    snd a = snd b /\
    forall mem ob sort iter, sort_contract sort -> Permutation iter (map fst (a_gaggrs (fst a))) ->
      finalize mem ob sort iter (fst a) = finalize mem ob sort iter (fst b).
  Proof.
    intros L E K a b. destruct (upto_rows later _ _ (upto_same _ _ (rejected_row st r L E K))) as (E1 & U).
    split; auto. intros. now apply upto_finalize.
  Qed.

  (** *** Acceptance without grouping does not depend on the state *)
  Lemma agg_cells_accepts k cells : forall accs, length accs = length cells ->
    (snd (agg_cells k accs cells) = Ok tt <-> forall c, In c cells -> cell_float to_float c <> None).
  Proof.
    induction cells as [|c cs IH]; intros accs L; cbn.
    - split; auto.
    - destruct (cell_float to_float c) eqn:E.
      + destruct accs as [|a accs]; [discriminate|].
        specialize (IH accs ltac:(cbn in L; lia)).
        destruct (agg_cells k accs cs) as [r e]. cbn in *. rewrite IH. split.
        * intros H x [<-|I]; auto. congruence.
        * intros H x I; auto.
      + cbn. split; [discriminate|]. intros H. destruct (H c); auto.
  Qed.
  Definition fits (st : aggr) (r : frow) : Prop :=
    length (fr_cells r) = length (a_columns st) /\ forall c, In c (fr_cells r) -> cell_float to_float c <> None.
  Lemma agg_cells_length k cells : forall accs, length (fst (agg_cells k accs cells)) = length accs.
  Proof.
    induction cells as [|c cs IH]; intros accs; cbn; auto.
    destruct (cell_float to_float c); auto. destruct accs as [|a accs]; auto.
    specialize (IH accs). destruct (agg_cells k accs cs). cbn in *. lia.
  Qed.
  Lemma plain_accepts st0 rows : is_grouping st0 = false -> length (a_aggrs st0) = length (a_columns st0) ->
    (accepted (snd (aggregate_rows st0 rows)) <-> Forall (fits st0) rows).
  Proof.
    revert st0; induction rows as [|r rows IH]; intros st0 G L; cbn. { split; constructor. }
    assert (X : snd (aggregate_row st0 r) = Ok tt <-> fits st0 r).
    { unfold ModelAggr.aggregate_row, fits.
      destruct (Nat.eqb_spec (length (a_columns st0)) (length (fr_cells r))) as [Ll|Ll]; cbn [negb snd].
      - rewrite G. pose proof (agg_cells_accepts (a_kind st0) (fr_cells r) (a_aggrs st0) ltac:(lia)) as A.
        destruct (agg_cells (a_kind st0) (a_aggrs st0) (fr_cells r)) as [x e]. cbn [snd] in *. intuition.
      - split; [discriminate|]. intros (E & _). congruence. }
    pose proof (row_fixed to_float to_str st0 r) as (F1 & F2 & F3 & F4).
    assert (La : length (a_aggrs (fst (aggregate_row st0 r))) = length (a_aggrs st0)).
    { unfold ModelAggr.aggregate_row. destruct (negb _); auto. rewrite G.
      pose proof (agg_cells_length (a_kind st0) (fr_cells r) (a_aggrs st0)) as A.
      destruct (agg_cells (a_kind st0) (a_aggrs st0) (fr_cells r)) as [x e]. exact A. }
    assert (G1 : is_grouping (fst (aggregate_row st0 r)) = false) by (unfold is_grouping in *; now rewrite F4).
    specialize (IH (fst (aggregate_row st0 r)) G1 ltac:(congruence)).
    assert (FF : Forall (fits (fst (aggregate_row st0 r))) rows <-> Forall (fits st0) rows).
    { unfold fits. rewrite F3. reflexivity. }
    destruct (aggregate_row st0 r) as [st1 e]. cbn [fst snd] in *.
    destruct (aggregate_rows st1 rows) as [st2 es]. cbn [fst snd] in *.
    unfold accepted in *. split.
    - intros H; inversion H; subst. constructor; [now apply X|]. apply FF, IH. auto.
    - intros H; inversion H; subst. constructor; [now apply X|]. apply IH, FF. auto.
  Qed.
  Lemma plain_accepts_perm st opts st0 rows rows' : reset st opts = (st0, Ok tt) -> a_groups st0 = [] ->
    Permutation rows rows' -> accepted (snd (aggregate_rows st0 rows)) -> accepted (snd (aggregate_rows st0 rows')).
  Proof.
    intros R G P. apply reset_ok in R. destruct R as (_ & _ & _ & _ & A & _).
    assert (is_grouping st0 = false) by (unfold is_grouping; now rewrite G).
    assert (length (a_aggrs st0) = length (a_columns st0)) by now rewrite A, repeat_length.
    rewrite !plain_accepts by auto. apply Permutation_Forall; auto.
  Qed.

  (** *** Aggregator sets *)
  Lemma set_aggregate_ok l r l' : set_aggregate to_float to_str l r = (l', Ok tt) ->
    l' = map (fun a => fst (aggregate_row a r)) l /\ Forall (fun a => snd (aggregate_row a r) = Ok tt) l.
  Proof.
    revert l'; induction l as [|a l IH]; intros l' H; cbn in H. { inversion H; subst; auto. }
    destruct (aggregate_row a r) as [a1 [[]|e|]] eqn:E; try (inversion H; fail).
    destruct (set_aggregate to_float to_str l r) as [l1 e1] eqn:E1. inversion H; subst.
    destruct (IH l1 eq_refl) as (-> & F). cbn. rewrite E. split; auto. constructor; auto. now rewrite E.
  Qed.
  Lemma set_rows_ok rows : forall l, accepted (snd (set_aggregate_rows to_float to_str l rows)) ->
    fst (set_aggregate_rows to_float to_str l rows) = map (fun a => fst (aggregate_rows a rows)) l /\
    Forall (fun a => accepted (snd (aggregate_rows a rows))) l.
  Proof.
    induction rows as [|r rows IH]; intros l H; cbn in *.
    - split. { now rewrite map_id. } apply Forall_forall. intros. constructor.
    - destruct (set_aggregate to_float to_str l r) as [l1 e1] eqn:E.
      destruct (set_aggregate_rows to_float to_str l1 rows) as [l2 es] eqn:E2. cbn [fst snd] in *.
      inversion H as [|? ? H1 H2]; subst. apply set_aggregate_ok in E. destruct E as (-> & F).
      specialize (IH (map (fun a => fst (aggregate_row a r)) l)). rewrite E2 in IH. cbn [fst snd] in IH.
      destruct (IH H2) as (-> & F2). rewrite map_map. split.
      + apply map_ext. intros a. destruct (aggregate_row a r) as [a1 e]. cbn [fst].
        destruct (aggregate_rows a1 rows); auto.
      + clear -F F2. rewrite Forall_forall in *. intros a I. specialize (F a I).
        specialize (F2 (fst (aggregate_row a r)) (in_map _ _ _ I)).
        destruct (aggregate_row a r) as [a1 e]. cbn [fst snd] in *.
        destruct (aggregate_rows a1 rows) as [a2 es2]. cbn [snd] in *. constructor; auto.
  Qed.
  Lemma merge_columns_ok sets : forall cols, Forall (fun c => c <> []) sets ->
    merge_columns cols sets = Ok (cols ++ flat_map (@tl string) sets).
  Proof.
    induction sets as [|c sets IH]; intros cols F; cbn. { now rewrite app_nil_r. }
    inversion F; subst. destruct c as [|x c]; [congruence|]. cbn. rewrite IH by auto. now rewrite app_assoc.
  Qed.
  Lemma append_rows_ok {A K} (f k : K -> list A) iter : (forall x, In x iter -> 2 <= length (k x)) ->
    append_rows (map f iter) (map k iter) = Ok (map (fun x => f x ++ tl (k x)) iter).
  Proof.
    induction iter as [|x iter IH]; intros H; cbn; auto.
    assert (S : set_tail (k x) = Ok (tl (k x))).
    { specialize (H x (or_introl eq_refl)). destruct (k x) as [|a [|b l]]; cbn in *; try lia. auto. }
    rewrite S. cbn [rbind]. rewrite IH by (intros; apply H; right; auto). reflexivity.
  Qed.
  Lemma merge_rows_ok {A K S} (k : S -> K -> list A) iter (sets : list S) : forall f : K -> list A,
    (forall s x, In s sets -> In x iter -> 2 <= length (k s x)) ->
    merge_rows (map f iter) (map (fun s => map (k s) iter) sets) =
    Ok (map (fun x => f x ++ flat_map (fun s => tl (k s x)) sets) iter).
  Proof.
    induction sets as [|s sets IH]; intros f H; cbn.
    - f_equal. apply map_ext. intros. now rewrite app_nil_r.
    - rewrite append_rows_ok by (intros; apply H; auto; left; auto). cbn [rbind].
      rewrite (IH (fun x => f x ++ tl (k s x))) by (intros; apply H; auto; right; auto).
      f_equal. apply map_ext. intros. now rewrite app_assoc.
  Qed.

  Definition set_member (c : string) (m : aggr) : Prop :=
    (exists st opts, reset st opts = (m, Ok tt)) /\ a_groups m = [c] /\ a_args m <> [].

  Lemma set_results ms c rows mem sort iter :
    ms <> [] -> Forall (set_member c) ms ->
    accepted (snd (set_aggregate_rows to_float to_str ms rows)) ->
    unwritten mem 1 rows ->
    Forall (fun m => Permutation iter (map fst (a_gaggrs m))) (fst (set_aggregate_rows to_float to_str ms rows)) ->
    exists ts,
      Permutation ts (nodup (list_eq_dec string_dec) (map (group_of 1) (map fr_cells rows))) /\
      aggr_set_finalize compare mem sort
        (map (fun m => (m, iter)) (fst (set_aggregate_rows to_float to_str ms rows))) =
      Ok (new_fn_rset (c :: flat_map (fun m => map (aggregate_name (a_kind m)) (a_args m)) ms)
            (map (set_row to_float to_str (map (fun m => (a_kind m, length (a_args m))) ms) (map fr_cells rows)) ts)).
  Proof.
    intros NE F Acc U. destruct (set_rows_ok rows ms Acc) as (-> & AccM). intros PI.
    rewrite Forall_map in PI. unfold aggr_set_finalize. rewrite (map_map (fun a => fst (aggregate_rows a rows))).
    rewrite Forall_forall in F, AccM, PI.
    assert (X : forall m, In m ms ->
      finalize mem OrderNone sort iter (fst (aggregate_rows m rows)) =
      Ok (new_fn_rset (a_columns m) (map (key_row to_float to_str (a_kind m) 1 (length (a_args m)) rows) iter)) /\
      NoDup iter /\ (forall key, In key iter <-> In key (map (jkey to_str 1) rows)) /\
      a_columns m = c :: map (aggregate_name (a_kind m)) (a_args m)).
    { intros m I. destruct (F m I) as ((st & opts & R) & G & A).
      assert (G' : a_groups m <> []) by congruence. assert (U' : unwritten mem (length (a_groups m)) rows) by now rewrite G.
      destruct (finalize_exact to_float to_str compare st opts m rows mem OrderNone (fun _ l => l) iter R G' (AccM m I) U'
                  (fun _ _ => Permutation_refl _) (PI m I)) as (E & _ & ND & M).
      rewrite G in *. cbn [length order_groups] in *. repeat split; auto; try apply M.
      apply reset_ok in R. destruct R as (C & _). rewrite C. unfold columns_of, is_grouping. rewrite G. cbn [length Nat.eqb negb app]. f_equal.
      apply map_ext. intros a. destruct (a_kind m); reflexivity. }
    assert (FA : forall l, (forall m, In m l -> In m ms) ->
      finalize_all compare mem sort (map (fun m => (fst (aggregate_rows m rows), iter)) l) =
      Ok (map (fun m => new_fn_rset (a_columns m) (map (key_row to_float to_str (a_kind m) 1 (length (a_args m)) rows) iter)) l)).
    { induction l as [|m l IH]; intros H; cbn [map finalize_all]; auto.
      rewrite (proj1 (X m (H m (or_introl eq_refl)))). cbn [rbind].
      rewrite IH by (intros; apply H; right; auto). reflexivity. }
    rewrite FA by auto. cbn [rbind]. clear FA.
    destruct ms as [|m0 ms]; [congruence|]. destruct (X m0 (or_introl eq_refl)) as (_ & ND & M & C0).
    destruct (F m0 (or_introl eq_refl)) as (_ & G0 & _).
    destruct (order_spec to_float to_str m0 rows iter) as (ts & P & -> & H); auto.
    { apply AccM; left; auto. } { rewrite G0. left; reflexivity. } { now rewrite G0. }
    rewrite G0 in P, H. cbn [length] in P, H. exists ts. split; [exact P|].
    assert (KT : forall t, In t ts -> exists v, key_tuple to_str 1 rows (join "," t) = [v]).
    { intros t I. assert (J : In (join "," t) (map (jkey to_str 1) rows)) by (apply M, in_map; auto).
      apply members_in in J. unfold key_tuple.
      destruct (members to_str 1 (join "," t) rows) as [|m l] eqn:E; [congruence|].
      assert (Im : In m rows).
      { assert (Im : In m (members to_str 1 (join "," t) rows)) by (rewrite E; left; auto).
        unfold members in Im. apply filter_In in Im. apply Im. }
      pose proof (accepted_lengths to_float to_str m0 rows (AccM m0 (or_introl eq_refl)) m Im) as L.
      rewrite C0 in L. destruct (fr_cells m) as [|v l']; [discriminate|]. exists v. reflexivity. }
    assert (KL : forall m t, In t ts -> tl (key_row to_float to_str (a_kind m) 1 (length (a_args m)) rows (join "," t)) =
       aggregates (a_kind m) 1 (length (a_args m)) (map fr_cells (members to_str 1 (join "," t) rows))).
    { intros m t I. unfold key_row. destruct (KT t I) as (v & ->). reflexivity. }
    cbn [map set_finalize]. rewrite !map_map. cbn [new_fn_rset fr_columns fr_rows].
    rewrite merge_columns_ok.
    2:{ rewrite Forall_map, Forall_forall. intros m I. destruct (X m (or_intror I)) as (_ & _ & _ & C). congruence. }
    cbn [rbind].
    rewrite (map_ext _ (fun m => map (fun t => key_row to_float to_str (a_kind m) 1 (length (a_args m)) rows (join "," t)) ts))
      by (intros; apply map_map).
    rewrite (merge_rows_ok (fun m t => key_row to_float to_str (a_kind m) 1 (length (a_args m)) rows (join "," t)) ts ms).
    - cbn [rbind]. f_equal. f_equal.
      + rewrite C0. cbn. f_equal. f_equal. clear -X. induction ms as [|m ms IH]; cbn; auto.
        destruct (X m (or_intror (or_introl eq_refl))) as (_ & _ & _ & ->). cbn. f_equal.
        apply IH. intros m' [<-|I]; apply X; [left; auto|right; right; auto].
      + apply map_ext_in. intros t I. destruct (H t I) as (Em & Ek).
        unfold key_row at 1, set_row. rewrite Em, Ek. cbn [flat_map fst snd]. rewrite <- app_assoc. f_equal. f_equal.
        rewrite !flat_map_concat_map, map_map. f_equal. apply map_ext. intros m.
        fold (key_row to_float to_str (a_kind m) 1 (length (a_args m)) rows (join "," t)).
        rewrite KL by auto. now rewrite Em.
    - intros m t I J. unfold key_row. destruct (KT t J) as (v & ->). rewrite app_length.
      unfold SpecAggr.aggregates. rewrite !map_length, seq_length. cbn [map length].
      destruct (F m (or_intror I)) as (_ & _ & A). destruct (a_args m); [congruence|]. cbn [length]. lia.
  Qed.
End Aggr.
