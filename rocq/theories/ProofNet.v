(** Proofs about the stack, the connection manager and sessions. *)
From Verif Require Import GoBase FactsBase ModelUtil ModelNet SpecNet.

(** ** Stack *)
Lemma stack_step_lifo {A} (s : stack A) o :
  let (s', r) := stack_step s o in
  lifo_step (rev s) o = (rev s', r).
Proof.
  destruct o as [x| | |]; cbn.
  - unfold push_object. now rewrite rev_app_distr.
  - unfold pop_object. destruct s as [|a s] using rev_ind; cbn; [reflexivity|].
    rewrite app_length; cbn. rewrite Nat.add_1_r; cbn.
    rewrite rev_app_distr; cbn. rewrite Nat.sub_0_r.
    rewrite firstn_app, Nat.sub_diag, firstn_all, app_nil_r.
    rewrite app_nth2 by lia. rewrite Nat.sub_diag. reflexivity.
  - unfold peek_object. destruct s as [|a s] using rev_ind; cbn; [reflexivity|].
    rewrite app_length; cbn. rewrite Nat.add_1_r; cbn. rewrite Nat.sub_0_r.
    rewrite app_nth2 by lia. rewrite Nat.sub_diag. rewrite rev_app_distr. reflexivity.
  - unfold stack_size. now rewrite rev_length.
Qed.

Lemma stack_run_lifo {A} (s : stack A) ops :
  snd (stack_run s ops) = lifo_run (rev s) ops.
Proof.
  revert s; induction ops as [|o ops IH]; intros s; cbn; [reflexivity|].
  pose proof (stack_step_lifo s o) as H.
  destruct (stack_step s o) as [s' r]. rewrite H.
  specialize (IH s'). destruct (stack_run s' ops) as [s'' rs]. cbn in *. now rewrite IH.
Qed.

(** ** Connection manager *)

(** C02: AddConn in an arbitrary state. *)
Lemma mget_mdel_eq {V} n (m : list (N * V)) : mget N.eqb n (mdel N.eqb n m) = None.
Proof.
  induction m as [|[k v] m IH]; cbn; [reflexivity|].
  destruct (N.eqb_spec n k); [exact IH|]. cbn. destruct (N.eqb_spec n k); [contradiction|exact IH].
Qed.
Lemma mget_mdel_neq {V} n k (m : list (N * V)) : n <> k -> mget N.eqb n (mdel N.eqb k m) = mget N.eqb n m.
Proof.
  intros Hn. induction m as [|[k' v] m IH]; cbn; [reflexivity|].
  destruct (N.eqb_spec k k') as [->|Hk].
  - destruct (N.eqb_spec n k'); [contradiction|exact IH].
  - cbn. now rewrite IH.
Qed.
Lemma mget_mset {V} n k (v : V) m :
  mget N.eqb n (mset N.eqb k v m) = if N.eqb n k then Some v else mget N.eqb n m.
Proof.
  unfold mset; cbn. destruct (N.eqb_spec n k); [reflexivity|now apply mget_mdel_neq].
Qed.

Lemma add_conn_spec s c :
  (snd (add_conn s c) = Err ErrExist /\ fst (add_conn s c) = s /\
   (lookup_by_uuid s (conn_uuid c) <> None \/ lookup_by_uid s (conn_id c) <> None)) \/
  (snd (add_conn s c) = Ok tt /\
   lookup_by_uuid s (conn_uuid c) = None /\ lookup_by_uid s (conn_id c) = None /\
   (forall n, lookup_by_uid (fst (add_conn s c)) n =
              if N.eqb n (conn_id c) then Some c else lookup_by_uid s n) /\
   (forall u, lookup_by_uuid (fst (add_conn s c)) u =
              if N.eqb u (conn_uuid c) then Some c else lookup_by_uuid s u)).
Proof.
  unfold add_conn.
  destruct (lookup_by_uuid s (conn_uuid c)) eqn:E1; [left; cbn; repeat split; left; congruence|].
  destruct (lookup_by_uid s (conn_id c)) eqn:E2; [left; cbn; repeat split; right; congruence|].
  right. cbn. repeat split; auto; intros k.
  - unfold lookup_by_uid; cbn [uid_map]. apply mget_mset.
  - unfold lookup_by_uuid; cbn [uuid_map]. apply mget_mset.
Qed.

(** *** The refinement *)

Record sim (s : mgr) (r : registry) : Prop := mkSim {
  sim_uid : exists l, uid_map s = index conn_id l /\ Permutation l r;
  sim_uuid : exists l, uuid_map s = index conn_uuid l /\ Permutation l r;
  sim_ids : NoDup (map conn_id r);
  sim_uuids : NoDup (map conn_uuid r) }.

Lemma sim_new : sim new_mgr [].
Proof.
  split; cbn; try constructor; exists []; split; reflexivity || constructor.
Qed.

Lemma sim_lookup_uid s r n : sim s r -> lookup_by_uid s n = find_id r n.
Proof.
  intros [(l & E & P) _ Hi _]. unfold lookup_by_uid. rewrite E, mget_index.
  apply find_key_perm; auto. eapply Permutation_NoDup; [|exact Hi].
  apply Permutation_map. now apply Permutation_sym.
Qed.
Lemma sim_lookup_uuid s r n : sim s r -> lookup_by_uuid s n = find_uuid r n.
Proof.
  intros [_ (l & E & P) _ Hi]. unfold lookup_by_uuid. rewrite E, mget_index.
  apply find_key_perm; auto. eapply Permutation_NoDup; [|exact Hi].
  apply Permutation_map. now apply Permutation_sym.
Qed.
Lemma sim_conns s r : sim s r -> Permutation (conns s) r.
Proof. intros [_ (l & E & P) _ _]. unfold conns. now rewrite E, snd_index. Qed.

Lemma sim_perm s r r' : sim s r -> Permutation r r' -> sim s r'.
Proof.
  intros [(l & E & P) (l' & E' & P') H1 H2] Hp. split.
  - exists l; split; auto. eapply Permutation_trans; eauto.
  - exists l'; split; auto. eapply Permutation_trans; eauto.
  - eapply Permutation_NoDup; [apply Permutation_map|]; eauto.
  - eapply Permutation_NoDup; [apply Permutation_map|]; eauto.
Qed.

(** [c] shares both keys or none with each registered connection. *)
Definition keyfit (r : registry) (c : conn) : Prop :=
  forall d, In d r -> (conn_id d = conn_id c <-> conn_uuid d = conn_uuid c).

Lemma keyfit_filter r c :
  keyfit r c ->
  filter (fun d => negb (N.eqb (conn_uuid d) (conn_uuid c))) r =
  filter (fun d => negb (N.eqb (conn_id d) (conn_id c))) r.
Proof.
  intros Hc. apply filter_ext_in. intros d Hd. f_equal. specialize (Hc d Hd).
  destruct (N.eqb_spec (conn_uuid d) (conn_uuid c)), (N.eqb_spec (conn_id d) (conn_id c)); tauto.
Qed.

Lemma keyfit_member r c :
  NoDup (map conn_id r) -> NoDup (map conn_uuid r) -> In c r -> keyfit r c.
Proof.
  intros H1 H2 Hc d Hd. split; intros E.
  - assert (d = c) as -> by (eapply (NoDup_map_inj conn_id); eauto). reflexivity.
  - assert (d = c) as -> by (eapply (NoDup_map_inj conn_uuid); eauto). reflexivity.
Qed.

Lemma sim_filter_remove s r c :
  sim s r -> keyfit r c ->
  sim (remove_conn s c) (filter (fun d => negb (N.eqb (conn_id d) (conn_id c))) r).
Proof.
  intros [(l & E & P) (l' & E' & P') H1 H2] Hc. unfold remove_conn. split; cbn.
  - rewrite E, mdel_index. eexists; split; [reflexivity|]. now apply perm_filter.
  - rewrite E', mdel_index. eexists; split; [reflexivity|].
    rewrite <- keyfit_filter by auto. now apply perm_filter.
  - now apply NoDup_map_filter.
  - now apply NoDup_map_filter.
Qed.

Lemma sim_add s r c :
  sim s r ->
  (forall d, In d r -> conn_uuid d <> conn_uuid c /\ conn_id d <> conn_id c) ->
  sim (mkMgr (mset N.eqb (conn_id c) c (uid_map s)) (mset N.eqb (conn_uuid c) c (uuid_map s))) (c :: r).
Proof.
  intros [(l & E & P) (l' & E' & P') H1 H2] Hfresh. unfold mset. split; cbn.
  - exists (c :: l). rewrite E, mdel_index. split; [|now constructor].
    unfold index; cbn. f_equal. f_equal. apply filter_all. intros d Hd.
    apply negb_true_iff, N.eqb_neq, Hfresh. eapply Permutation_in; [exact P|exact Hd].
  - exists (c :: l'). rewrite E', mdel_index. split; [|now constructor].
    unfold index; cbn. f_equal. f_equal. apply filter_all. intros d Hd.
    apply negb_true_iff, N.eqb_neq, Hfresh. eapply Permutation_in; [exact P'|exact Hd].
  - constructor; auto. intros Hin. apply in_map_iff in Hin as (d & Ed & Hd).
    now apply Hfresh in Hd as [_ Hd].
  - constructor; auto. intros Hin. apply in_map_iff in Hin as (d & Ed & Hd).
    now apply Hfresh in Hd as [Hd _].
Qed.

Lemma filter_out_mid r1 d r2 (k : conn -> N) n :
  NoDup (map k (r1 ++ d :: r2)) -> k d = n ->
  filter (fun c => negb (N.eqb (k c) n)) (r1 ++ d :: r2) = r1 ++ r2.
Proof.
  intros Hd E. rewrite map_app in Hd; cbn in Hd. apply NoDup_remove_2 in Hd.
  assert (Hr1 : filter (fun c => negb (N.eqb (k c) n)) r1 = r1).
  { apply filter_all. intros x Hx. apply negb_true_iff, N.eqb_neq. intros Ex. apply Hd.
    apply in_or_app. left. rewrite E, <- Ex. now apply in_map. }
  assert (Hr2 : filter (fun c => negb (N.eqb (k c) n)) r2 = r2).
  { apply filter_all. intros x Hx. apply negb_true_iff, N.eqb_neq. intros Ex. apply Hd.
    apply in_or_app. right. rewrite E, <- Ex. now apply in_map. }
  rewrite filter_app; cbn. rewrite E, N.eqb_refl; cbn. now rewrite Hr1, Hr2.
Qed.

Lemma sim_update s r1 d r2 f t :
  sim s (r1 ++ d :: r2) -> keyfit (r1 ++ d :: r2) f ->
  conn_id f = conn_id t -> conn_uuid f = conn_uuid t -> conn_id d = conn_id f ->
  sim (mkMgr (mset N.eqb (conn_id f) t (uid_map s)) (mset N.eqb (conn_uuid f) t (uuid_map s)))
      (t :: r1 ++ r2).
Proof.
  intros [(l & E & P) (l' & E' & P') H1 H2] Hf Eft Euf Ed.
  assert (Eud : conn_uuid d = conn_uuid f) by (apply Hf; [apply in_elt|exact Ed]).
  unfold mset. split; cbn.
  - exists (t :: filter (fun c => negb (N.eqb (conn_id c) (conn_id f))) l).
    rewrite E, mdel_index, Eft. split; [reflexivity|]. constructor.
    rewrite <- (filter_out_mid r1 d r2 conn_id (conn_id t)); [|exact H1|congruence].
    now apply perm_filter.
  - exists (t :: filter (fun c => negb (N.eqb (conn_uuid c) (conn_uuid f))) l').
    rewrite E', mdel_index, Euf. split; [reflexivity|]. constructor.
    rewrite <- (filter_out_mid r1 d r2 conn_uuid (conn_uuid t)); [|exact H2|congruence].
    now apply perm_filter.
  - rewrite <- Eft, <- Ed. eapply Permutation_NoDup; [|exact H1].
    rewrite !map_app; cbn. apply Permutation_sym, Permutation_middle.
  - rewrite <- Euf, <- Eud. eapply Permutation_NoDup; [|exact H2].
    rewrite !map_app; cbn. apply Permutation_sym, Permutation_middle.
Qed.

Lemma close_each_sim closes snap : forall s r,
  sim s r -> Forall (keyfit r) snap ->
  let '(s', log, failed) := close_each closes s snap in
  log = snap /\ failed = existsb (fun d => negb (closes d)) snap /\
  sim s' (filter (fun d => negb (existsb (fun c => closes c && N.eqb (conn_id c) (conn_id d)) snap)%bool) r).
Proof.
  induction snap as [|c snap IH]; intros s r Hs Hsnap; cbn.
  - split; [reflexivity|split; [reflexivity|]]. rewrite filter_all by auto. exact Hs.
  - inversion Hsnap as [|? ? Hc Hsnap']; subst.
    assert (Hs' : sim (if closes c then remove_conn s c else s)
              (filter (fun d => negb (closes c && N.eqb (conn_id c) (conn_id d))%bool) r)).
    { destruct (closes c); cbn.
      - erewrite filter_ext; [eapply sim_filter_remove; eauto|]. intros a; cbn. now rewrite N.eqb_sym.
      - rewrite filter_all by auto. exact Hs. }
    assert (Hsnap2 : Forall (keyfit (filter (fun d => negb (closes c && N.eqb (conn_id c) (conn_id d))%bool) r)) snap).
    { eapply Forall_impl; [|exact Hsnap']. intros x Hx d Hd. apply filter_In in Hd as [Hd _]. now apply Hx. }
    specialize (IH _ _ Hs' Hsnap2).
    destruct (close_each closes _ snap) as [[s2 log] failed].
    destruct IH as (-> & -> & Hsim). split; [reflexivity|split; [reflexivity|]].
    eapply sim_perm; [exact Hsim|].
    match goal with |- Permutation ?a ?b => assert (E : a = b); [|rewrite E; apply Permutation_refl] end.
    clear. induction r as [|d r IH]; cbn; [reflexivity|].
    destruct (closes c && N.eqb (conn_id c) (conn_id d))%bool; cbn; [exact IH|].
    rewrite IH. reflexivity.
Qed.

(** Closing over a snapshot of the registry itself. *)
Lemma mgr_close_sim closes snap s r :
  sim s r -> Permutation snap r ->
  let '(s', log, failed) := mgr_close closes snap s in
  log = snap /\ failed = existsb (fun d => negb (closes d)) r /\
  sim s' (filter (fun d => negb (closes d)) r).
Proof.
  intros Hs Hp. unfold mgr_close.
  assert (Hall : Forall (keyfit r) snap).
  { rewrite Forall_forall. intros c Hc. apply keyfit_member; try apply Hs. eapply Permutation_in; eauto. }
  pose proof (close_each_sim closes snap s r Hs Hall) as H.
  destruct (close_each closes s snap) as [[s' log] failed].
  destruct H as (-> & -> & H). split; [reflexivity|split].
  - now apply perm_existsb.
  - eapply sim_perm; [exact H|].
    match goal with |- Permutation ?a ?b => assert (E : a = b); [|rewrite E; apply Permutation_refl] end.
    apply filter_ext_in. intros d Hd. f_equal.
    destruct (closes d) eqn:Ed.
    + apply existsb_exists. exists d. split.
      * eapply Permutation_in; [apply Permutation_sym|]; eauto.
      * now rewrite Ed, N.eqb_refl.
    + apply not_true_iff_false. intros Hex. apply existsb_exists in Hex as (c & Hc & Hb).
      apply andb_true_iff in Hb as [Hb1 Hb2]. apply N.eqb_eq in Hb2.
      assert (c = d) as ->; [|congruence].
      eapply (NoDup_map_inj conn_id r); eauto.
      * apply Hs.
      * eapply Permutation_in; eauto.
Qed.

Lemma find_some_split r n d : find_id r n = Some d -> exists r1 r2, r = r1 ++ d :: r2 /\ conn_id d = n.
Proof.
  unfold find_id. intros H. apply find_some in H as [Hi He]. apply N.eqb_eq in He.
  apply in_split in Hi as (r1 & r2 & ->). eauto.
Qed.

Lemma no_half_match_keyfit s r c : sim s r -> no_half_match s c -> keyfit r c.
Proof.
  intros Hs H d Hd. apply H. eapply Permutation_in; [|exact Hd].
  apply Permutation_sym. eapply sim_conns; eauto.
Qed.

Lemma step_sim s r o s' x :
  fits s o -> sim s r -> mop_enabled s o -> mgr_step s o = (s', x) ->
  exists r0 r', Permutation r r0 /\ registry_step r0 o r' x /\ sim s' r'.
Proof.
  intros Hfit Hs Hen Hst.
  destruct o as [c|f t|c|n|u|closes snap]; cbn in Hst, Hfit.
  - unfold add_conn in Hst.
    rewrite (sim_lookup_uuid s r) in Hst by auto. rewrite (sim_lookup_uid s r) in Hst by auto.
    destruct (find_uuid r (conn_uuid c)) eqn:E1.
    { inversion Hst; subst. exists r, r. split; [apply Permutation_refl|]. split; [|exact Hs].
      apply rs_add_dup. apply find_key_some in E1 as [? ?]; [|apply Hs]. eauto. }
    destruct (find_id r (conn_id c)) eqn:E2.
    { inversion Hst; subst. exists r, r. split; [apply Permutation_refl|]. split; [|exact Hs].
      apply rs_add_dup. apply find_key_some in E2 as [? ?]; [|apply Hs]. eauto. }
    inversion Hst; subst. exists r, (c :: r). split; [apply Permutation_refl|].
    assert (Hf : forall d, In d r -> conn_uuid d <> conn_uuid c /\ conn_id d <> conn_id c).
    { intros d Hd. split; [exact (find_key_absent _ _ _ _ E1 Hd)|exact (find_key_absent _ _ _ _ E2 Hd)]. }
    split; [now apply rs_add|]. now apply sim_add.
  - destruct Hfit as (Hf & Eid & Euu). apply (no_half_match_keyfit s r) in Hf; [|exact Hs].
    unfold update_conn in Hst.
    rewrite (sim_lookup_uuid s r) in Hst by auto. rewrite (sim_lookup_uid s r) in Hst by auto.
    destruct (find_uuid r (conn_uuid f)) eqn:E1.
    2:{ inversion Hst; subst. exists r, r. split; [apply Permutation_refl|]. split; [|exact Hs].
        apply rs_update_missing. intros d Hd E. apply (find_key_absent _ _ _ _ E1 Hd). now apply Hf. }
    destruct (find_id r (conn_id f)) eqn:E2.
    2:{ inversion Hst; subst. exists r, r. split; [apply Permutation_refl|]. split; [|exact Hs].
        apply rs_update_missing. intros d Hd. exact (find_key_absent _ _ _ _ E2 Hd). }
    inversion Hst; subst. apply find_some_split in E2 as (r1 & r2 & -> & Ed).
    exists (r1 ++ c0 :: r2), (t :: r1 ++ r2). split; [apply Permutation_refl|].
    split; [now apply rs_update|]. eapply sim_update; eauto.
  - inversion Hst; subst.
    eexists r, _. split; [apply Permutation_refl|]. split; [apply rs_remove|].
    apply sim_filter_remove; auto. now apply (no_half_match_keyfit s r).
  - inversion Hst; subst. eexists r, _. split; [apply Permutation_refl|]. split; [apply rs_remove_uid|].
    unfold remove_conn_by_uid. rewrite (sim_lookup_uid s r) by auto.
    destruct (find_id r n) as [c|] eqn:E.
    + apply find_key_some in E as [Hi He]; [|apply Hs]. subst n. apply sim_filter_remove; auto.
      apply keyfit_member; auto; apply Hs.
    + rewrite filter_all; auto. intros d Hd. apply negb_true_iff, N.eqb_neq.
      exact (find_key_absent _ _ _ _ E Hd).
  - inversion Hst; subst. eexists r, _. split; [apply Permutation_refl|]. split; [apply rs_remove_uuid|].
    unfold remove_conn_by_uuid. rewrite (sim_lookup_uuid s r) by auto.
    destruct (find_uuid r u) as [c|] eqn:E.
    + apply find_key_some in E as [Hi He]; [|apply Hs]. subst u.
      assert (Hc : keyfit r c) by (apply keyfit_member; auto; apply Hs).
      rewrite keyfit_filter; auto. apply sim_filter_remove; auto.
    + rewrite filter_all; auto. intros d Hd. apply negb_true_iff, N.eqb_neq.
      exact (find_key_absent _ _ _ _ E Hd).
  - cbn in Hen. assert (Hp : Permutation snap r).
    { eapply Permutation_trans; [exact Hen|]. eapply sim_conns; eauto. }
    pose proof (mgr_close_sim closes snap s r Hs Hp) as H.
    destruct (mgr_close closes snap s) as [[s2 log] failed]. destruct H as (-> & -> & H).
    inversion Hst; subst. eexists r, _. split; [apply Permutation_refl|]. split; [now apply rs_close|exact H].
Qed.

Lemma run_sim s ops s' xs :
  fitting_run s ops s' xs -> forall r, sim s r ->
  exists r', registry_run r ops r' xs /\ sim s' r'.
Proof.
  induction 1 as [s|s o s1 x ops s2 xs Hfit Hen Hst Hrun IH]; intros r Hs.
  - exists r. split; [constructor; apply Permutation_refl|exact Hs].
  - edestruct step_sim as (ra & rb & Hp & Hr & Hs1); eauto.
    edestruct IH as (r2 & Hrr & Hs2); eauto.
    exists r2. split; [|exact Hs2]. econstructor; eauto.
Qed.

Lemma sim_agree s r : sim s r -> indexes_agree s.
Proof.
  intros Hs. pose proof (sim_ids _ _ Hs) as Hi. pose proof (sim_uuids _ _ Hs) as Hu.
  assert (H1 : forall c, lookup_by_uid s (conn_id c) = Some c <-> In c r).
  { intros c. rewrite (sim_lookup_uid s r) by auto. unfold find_id. rewrite find_key_some by auto. tauto. }
  assert (H2 : forall c, lookup_by_uuid s (conn_uuid c) = Some c <-> In c r).
  { intros c. rewrite (sim_lookup_uuid s r) by auto. unfold find_uuid. rewrite find_key_some by auto. tauto. }
  pose proof (sim_conns _ _ Hs) as Hp.
  split; [|split].
  - intros c. now rewrite H1, H2.
  - intros c. rewrite H1. split; intros H.
    + eapply Permutation_in; eauto.
    + eapply Permutation_in; [apply Permutation_sym|]; eauto.
  - eapply Permutation_NoDup; [apply Permutation_sym; exact Hp|]. eapply NoDup_map_inv; eauto.
Qed.

Lemma manager_refines ops s xs :
  fitting_run new_mgr ops s xs ->
  exists r, registry_run [] ops r xs /\
    (forall n, lookup_by_uid s n = find_id r n) /\
    (forall u, lookup_by_uuid s u = find_uuid r u) /\
    Permutation (conns s) r.
Proof.
  intros Hrun. edestruct run_sim as (r & Hr & Hs); eauto using sim_new.
  exists r. repeat split; eauto using sim_lookup_uid, sim_lookup_uuid, sim_conns.
Qed.

Lemma manager_agree ops s xs : fitting_run new_mgr ops s xs -> indexes_agree s.
Proof.
  intros Hrun. edestruct run_sim as (r & Hr & Hs); eauto using sim_new. eapply sim_agree; eauto.
Qed.

(** Close/Stop in a reachable state. *)
Lemma manager_close ops s xs closes snap :
  fitting_run new_mgr ops s xs -> Permutation snap (conns s) ->
  let '(s', log, failed) := mgr_close closes snap s in
  Permutation log (conns s) /\
  (failed = false <-> forall c, In c (conns s) -> closes c = true) /\
  (forall c, In c (conns s') <-> In c (conns s) /\ closes c = false) /\
  indexes_agree s'.
Proof.
  intros Hrun Hp. edestruct run_sim as (r & Hr & Hs); eauto using sim_new.
  pose proof (sim_conns _ _ Hs) as Hc.
  pose proof (mgr_close_sim closes snap s r Hs (Permutation_trans Hp Hc)) as H.
  destruct (mgr_close closes snap s) as [[s' log] failed]. destruct H as (-> & -> & H).
  pose proof (sim_conns _ _ H) as Hc'.
  split; [exact Hp|]. split; [|split].
  - split.
    + intros E c Hin. destruct (closes c) eqn:Ec; auto.
      assert (existsb (fun d => negb (closes d)) r = true); [|congruence].
      apply existsb_exists. exists c. rewrite Ec. split; auto. eapply Permutation_in; eauto.
    + intros Hall. apply not_true_iff_false. intros E. apply existsb_exists in E as (c & Hin & E).
      rewrite Hall in E; [discriminate|]. eapply Permutation_in; [apply Permutation_sym; exact Hc|exact Hin].
  - intros c. split.
    + intros Hin. apply (Permutation_in c Hc') in Hin. apply filter_In in Hin as [Hin Hn].
      split; [|now apply negb_true_iff].
      eapply Permutation_in; [apply Permutation_sym; exact Hc|exact Hin].
    + intros [Hin Hn]. eapply Permutation_in; [apply Permutation_sym; exact Hc'|].
      apply filter_In. split; [|now rewrite Hn]. eapply Permutation_in; eauto.
  - eapply sim_agree; eauto.
Qed.

(** *** Interleavings *)

(** A pool of connections whose two keys identify each other. *)
Definition pool (U : conn -> Prop) : Prop :=
  forall c d, U c -> U d -> (conn_id c = conn_id d <-> conn_uuid c = conn_uuid d).

Definition usim (U : conn -> Prop) s r := sim s r /\ Forall U r.

Lemma Forall_filter {A} (P : A -> Prop) f l : Forall P l -> Forall P (filter f l).
Proof.
  rewrite !Forall_forall. intros H x Hx. apply filter_In in Hx as [Hx _]. auto.
Qed.

Lemma pool_keyfit U r c : pool U -> Forall U r -> U c -> keyfit r c.
Proof. intros HU Hr Hc d Hd. apply HU; auto. rewrite Forall_forall in Hr. auto. Qed.

Lemma usim_remove U s r c : pool U -> usim U s r -> U c -> exists r', usim U (remove_conn s c) r'.
Proof.
  intros HU [Hs Hr] Hc. eexists. split; [apply sim_filter_remove|apply Forall_filter]; eauto.
  eapply pool_keyfit; eauto.
Qed.

Definition act_uses (U : conn -> Prop) (a : action) : Prop :=
  match a with
  | AAdd c | ARemove c | ACloseOne c _ => U c
  | AUpdate f t => U f /\ U t /\ conn_id f = conn_id t
  | _ => True
  end.
Definition thread_ok (U : conn -> Prop) (t : thread) : Prop :=
  Forall (act_uses U) (todo t) /\ match found t with Some c => U c | None => True end.

Lemma act_step_sim U s t s' t' r :
  pool U -> usim U s r -> thread_ok U t -> act_step s t s' t' ->
  (exists r', usim U s' r') /\ thread_ok U t'.
Proof.
  intros HU Hs [Ht Hf] Hst. destruct Hs as [Hs Hpool].
  destruct Hst as [s f c rest|s f a b rest|s f c rest|s f n rest|s f u rest|s f rest
                  |s f closes snap rest Hp|s f c ok rest];
    cbn [todo found] in *; inversion Ht as [|? ? Ha Hrest]; subst; cbn in Ha.
  - split; [|split; auto].
    destruct (mgr_step s (MAdd c)) as [s1 x] eqn:E.
    assert (Hfit : fits s (MAdd c)) by exact I.
    edestruct (step_sim s r (MAdd c) s1 x Hfit Hs I E) as (ra & rb & Hp & Hr & H).
    cbn in E. destruct (add_conn s c). inversion E; subst. cbn. exists rb. split; auto.
    inversion Hr; subst; try constructor; auto; eapply Permutation_Forall; eauto.
  - split; [|split; auto]. destruct Ha as (Ha & Hb & Hk).
    destruct (mgr_step s (MUpdate a b)) as [s1 x] eqn:E.
    assert (Hfit : fits s (MUpdate a b)).
    { split; [|split; auto].
      - intros d Hd. assert (Hk2 : keyfit r a) by (eapply pool_keyfit; eauto). apply Hk2.
        eapply Permutation_in; [|exact Hd]. eapply sim_conns; eauto.
      - apply HU; auto. }
    edestruct (step_sim s r (MUpdate a b) s1 x Hfit Hs I E) as (ra & rb & Hp & Hr & H).
    cbn in E. destruct (update_conn s a b). inversion E; subst. cbn. exists rb. split; auto.
    assert (Hra : Forall U ra) by (eapply Permutation_Forall; eauto).
    inversion Hr; subst; auto.
    constructor; auto. apply Forall_app in Hra as [H1 H2]. inversion H2; subst. now apply Forall_app.
  - split; [|split; auto]. eapply usim_remove; eauto. split; eauto.
  - split; [exists r; split; auto|]. split; auto. cbn. rewrite (sim_lookup_uid s r) by auto.
    destruct (find_id r n) eqn:E; auto. apply find_some in E as [E _].
    rewrite Forall_forall in Hpool. auto.
  - split; [exists r; split; auto|]. split; auto. cbn. rewrite (sim_lookup_uuid s r) by auto.
    destruct (find_uuid r u) eqn:E; auto. apply find_some in E as [E _].
    rewrite Forall_forall in Hpool. auto.
  - split; [|split; cbn; auto]. destruct f; [|exists r; split; auto].
    eapply usim_remove; eauto. split; eauto.
  - split; [exists r; split; auto|]. split; cbn; auto. apply Forall_app. split; auto.
    rewrite Forall_forall. intros a Hin. apply in_map_iff in Hin as (c & <- & Hc). cbn.
    rewrite Forall_forall in Hpool. apply Hpool.
    eapply Permutation_in; [|exact Hc]. eapply Permutation_trans; [eassumption|]. eapply sim_conns; eauto.
  - split; [|split; auto]. destruct ok; [|exists r; split; auto]. eapply usim_remove; eauto. split; eauto.
Qed.

Lemma sys_steps_sim U x y :
  pool U -> sys_steps x y ->
  (exists r, usim U (fst x) r) -> Forall (thread_ok U) (snd x) ->
  (exists r, usim U (fst y) r) /\ Forall (thread_ok U) (snd y).
Proof.
  intros HU. induction 1 as [x|x y z Hst Hrest IH]; intros [r Hs] Ht; [eauto|].
  destruct Hst as [s s' pre t t' post Ha]. cbn in *.
  apply Forall_app in Ht as [Hpre Hpost]. inversion Hpost as [|? ? Ht Hpost']; subst.
  edestruct act_step_sim as [Hs' Ht']; eauto. apply IH; auto.
  cbn. apply Forall_app. auto.
Qed.

Lemma concurrent_agree progs s ts :
  disciplined (concat progs) ->
  sys_steps (new_mgr, map thread_of progs) (s, ts) -> indexes_agree s.
Proof.
  intros [Hk Hu] Hrun. set (U := fun c => In c (flat_map mentions (concat progs))).
  assert (HU : pool U) by (intros c d Hc Hd; now apply Hk).
  edestruct (sys_steps_sim U) as [[r [Hs _]] _]; [exact HU|exact Hrun| | |].
  - exists []. split; [apply sim_new|constructor].
  - cbn. rewrite Forall_forall. intros t Ht. apply in_map_iff in Ht as (p & <- & Hp).
    split; cbn; auto. rewrite Forall_forall. intros a Ha.
    apply in_flat_map in Ha as (o & Ho & Ha).
    assert (Ho' : In o (concat progs)) by (apply in_concat; eauto).
    assert (Hm : forall c, In c (mentions o) -> U c) by (intros c Hc; apply in_flat_map; eauto).
    rewrite Forall_forall in Hu. specialize (Hu o Ho').
    destruct o; cbn in Ha, Hm, Hu; intuition; subst; cbn; auto.
    all: repeat split; auto.
  - eapply sim_agree; eauto.
Qed.

(** A whole-program discipline implies the call-by-call one. *)
Lemma disciplined_fitting U s ops s' xs r :
  pool U -> Forall (fun o => Forall U (mentions o) /\ update_keeps_id o) ops ->
  usim U s r -> mgr_run s ops s' xs -> fitting_run s ops s' xs.
Proof.
  intros HU Hops Hs Hrun. revert r Hs Hops.
  induction Hrun as [s|s o s1 x ops s2 xs Hen Hst Hrun IH]; intros r [Hs Hr] Hops; [constructor|].
  inversion Hops as [|? ? [Hm Hk] Hops']; subst.
  assert (Hkf : forall c, U c -> no_half_match s c).
  { intros c Hc d Hd. assert (Hk2 : keyfit r c) by (eapply pool_keyfit; eauto). apply Hk2.
    eapply Permutation_in; [|exact Hd]. eapply sim_conns; eauto. }
  assert (Hfit : fits s o).
  { destruct o; cbn in *; auto.
    - inversion Hm as [|? ? Hf Hm']; subst. inversion Hm'; subst. split; auto. split; auto.
      apply HU; auto.
    - inversion Hm; subst. auto. }
  econstructor; eauto.
  edestruct step_sim as (ra & rb & Hp & Hrs & Hs1); eauto.
  apply (IH rb); auto. split; auto.
  assert (Hra : Forall U ra) by (eapply Permutation_Forall; eauto).
  inversion Hrs; subst; auto; try (now apply Forall_filter).
  - inversion Hm; subst. constructor; auto.
  - inversion Hm as [|? ? Hf Hm']; subst. inversion Hm'; subst.
    apply Forall_app in Hra as [Hra1 Hra2]. inversion Hra2; subst. constructor; auto. now apply Forall_app.
Qed.

Lemma disciplined_run_fits ops s xs :
  disciplined ops -> mgr_run new_mgr ops s xs -> fitting_run new_mgr ops s xs.
Proof.
  intros [Hk Hu] Hrun.
  eapply (disciplined_fitting (fun c => In c (flat_map mentions ops)) _ _ _ _ []); [exact Hk| | |exact Hrun].
  - rewrite Forall_forall in *. intros o Ho. split; auto.
    rewrite Forall_forall. intros c Hc. apply in_flat_map. eauto.
  - split; [apply sim_new|constructor].
Qed.

(** ** Close of one connection *)
Lemma close_n_closed outcome n c :
  is_closed c = true -> close_n outcome n c = (c, repeat true n).
Proof.
  intros Hc. induction n as [|n IH]; cbn; [reflexivity|].
  unfold conn_close. rewrite Hc. now rewrite IH.
Qed.

Lemma close_n_fails outcome n : forall k c,
  is_closed c = false -> calls c = k ->
  (forall i, k <= i < k + n -> outcome i = false) ->
  close_n outcome n c = (mkCloser false (k + n), repeat false n).
Proof.
  induction n as [|n IH]; intros k c Hc Hk Hf; cbn.
  - destruct c; cbn in *; subst. now rewrite Nat.add_0_r.
  - unfold conn_close. rewrite Hc, Hk, Hf by lia.
    rewrite (IH (S k)); cbn; auto.
    + f_equal. f_equal. lia.
    + intros i Hi. apply Hf. lia.
Qed.

Lemma close_n_app outcome n m c :
  close_n outcome (n + m) c =
  let (c', r) := close_n outcome n c in
  let (c'', r') := close_n outcome m c' in (c'', r ++ r').
Proof.
  revert c; induction n as [|n IH]; intros c; cbn.
  - destruct (close_n outcome m c); reflexivity.
  - destruct (conn_close outcome c) as [c1 b]. rewrite IH.
    destruct (close_n outcome n c1). destruct (close_n outcome m c0). reflexivity.
Qed.

Lemma close_history outcome k n :
  (forall i, i < k -> outcome i = false) -> outcome k = true ->
  close_n outcome n new_closer =
  (mkCloser (k <? n) (Nat.min n (S k)), repeat false (Nat.min n k) ++ repeat true (n - k)).
Proof.
  intros Hf Ht. destruct (le_lt_dec n k) as [Hle|Hlt].
  - rewrite (close_n_fails outcome n 0); auto.
    + replace (k <? n) with false by (symmetry; apply Nat.ltb_ge; lia).
      replace (n - k) with 0 by lia. cbn. rewrite app_nil_r.
      rewrite !Nat.min_l by lia. reflexivity.
    + intros i Hi. apply Hf. lia.
  - replace n with (k + (1 + (n - k - 1))) at 1 by lia.
    rewrite close_n_app. rewrite (close_n_fails outcome k 0); auto.
    2:{ intros i Hi. apply Hf. lia. }
    cbn [plus]. cbn [close_n]. unfold conn_close; cbn [is_closed calls]. rewrite Ht. rewrite close_n_closed by reflexivity.
    replace (k <? n) with true by (symmetry; apply Nat.ltb_lt; lia).
    rewrite Nat.min_r by lia. rewrite Nat.min_r by lia.
    replace (n - k) with (S (n - k - 1)) at 2 by lia. cbn. reflexivity.
Qed.

Lemma close_never outcome n :
  (forall i, outcome i = false) ->
  close_n outcome n new_closer = (mkCloser false n, repeat false n).
Proof. intros H. rewrite (close_n_fails outcome n 0); auto. Qed.

(** ** Sessions *)
Lemma length_update_nth {A} n (x : A) l : length (update_nth n x l) = length l.
Proof. revert n; induction l as [|y l IH]; intros [|n]; cbn; auto. Qed.
Lemma nth_update_nth_eq {A} n (x d : A) l : n < length l -> nth n (update_nth n x l) d = x.
Proof. revert n; induction l as [|y l IH]; intros [|n] H; cbn in *; try lia; auto. apply IH. lia. Qed.
Lemma nth_update_nth_neq {A} n m (x d : A) l : n <> m -> nth n (update_nth m x l) d = nth n l d.
Proof.
  revert n m; induction l as [|y l IH]; intros [|n] [|m] H; cbn; auto; try congruence.
Qed.

Definition session_inv (st : session * list nat) (v : view) : Prop :=
  let (s, held) := st in
  c_user s = v_user v /\ c_db s = v_db v /\ read_cell s (c_schemas s) = v_schemas v /\
  c_schemas s < length (cells s) /\
  Forall (fun a => a <> c_schemas s /\ a < length (cells s)) held.

Lemma contains_in l x : scontains_elem l x = if in_dec string_dec x l then true else false.
Proof.
  unfold scontains_elem. destruct (in_dec string_dec x l) as [H|H].
  - apply existsb_exists. exists x. split; auto. apply String.eqb_refl.
  - apply not_true_iff_false. intros E. apply existsb_exists in E as (y & Hy & E).
    apply String.eqb_eq in E. now subst.
Qed.

Lemma set_schemas_inv l : forall s held v,
  session_inv (s, held) v ->
  session_inv (set_schemas s l, held) (mkView (v_user v) (v_db v) (add_new (v_schemas v) l)).
Proof.
  induction l as [|x l IH]; intros s held v H; cbn [set_schemas add_new].
  - destruct v; exact H.
  - destruct H as (H1 & H2 & H3 & H4 & H5). cbn zeta. rewrite contains_in, H3.
    destruct (in_dec string_dec x (v_schemas v)) as [Hin|Hout].
    + apply (IH s held v). repeat split; auto.
    + apply (IH _ held (mkView (v_user v) (v_db v) (v_schemas v ++ [x]))).
      unfold write_cell, read_cell; cbn. repeat split; auto.
      * now apply nth_update_nth_eq.
      * now rewrite length_update_nth.
      * eapply Forall_impl; [|exact H5]. cbn. intros a [Ha Hb]. now rewrite length_update_nth.
Qed.

Lemma session_step_inv st v o :
  session_inv st v ->
  let '(s', h', r) := session_step st o in
  r = snd (view_step v o) /\ session_inv (s', h') (fst (view_step v o)).
Proof.
  destruct st as [s held]. intros (H1 & H2 & H3 & H4 & H5).
  destruct o; cbn [session_step view_step fst snd].
  - split; auto. cbn. repeat split; auto.
  - split; auto. cbn. unfold read_cell; cbn. rewrite app_length; cbn. repeat split; auto; try lia.
    + rewrite app_nth2, Nat.sub_diag by lia. reflexivity.
    + eapply Forall_impl; [|exact H5]. cbn. intros a [Ha Hb]. lia.
  - split; auto. now apply set_schemas_inv.
  - split; [now rewrite H1|]. repeat split; auto.
  - split; [now rewrite H2|]. repeat split; auto.
  - cbn. unfold read_cell in *; cbn. split.
    + rewrite app_nth2, Nat.sub_diag by lia. cbn. now rewrite H3.
    + rewrite app_length; cbn. repeat split; auto; try lia.
      * now rewrite app_nth1.
      * apply Forall_app. split; [|repeat constructor; lia].
        eapply Forall_impl; [|exact H5]. cbn. intros a [Ha Hb]. lia.
  - destruct (nth_error held k) as [a|] eqn:E; cbn; (split; [reflexivity|]).
    + rewrite Forall_forall in H5. apply nth_error_In in E. destruct (H5 a E) as [Hne Hlt].
      unfold write_cell, read_cell in *; cbn. rewrite length_update_nth. repeat split; auto.
      * rewrite nth_update_nth_neq; auto.
      * rewrite Forall_forall. auto.
    + repeat split; auto.
Qed.

Lemma session_run_view ops : forall st v,
  session_inv st v -> session_run st ops = view_run v ops.
Proof.
  induction ops as [|o ops IH]; intros st v H; cbn; [reflexivity|].
  pose proof (session_step_inv st v o H) as Hs.
  destruct (session_step st o) as [[s' h'] r]. destruct Hs as [-> Hi].
  destruct (view_step v o) as [v' r']. cbn in *. f_equal. now apply IH.
Qed.

Lemma session_run_spec ops :
  session_run (new_session, []) ops = view_run (mkView "" "" []) ops.
Proof. apply session_run_view. cbn. repeat split; auto. Qed.
