(** Invariants of a connection and of the slices it shares. *)
From Verif Require Import GoBase ModelNet SpecNet ModelFunc SpecFunc ProofFunc ModelConn SpecConn FactsBase.

Lemma update_nth_length {A} (x : A) l : forall n, length (update_nth n x l) = length l.
Proof. induction l as [|y l IH]; intros [|n]; cbn; auto. Qed.
Lemma nth_update_same {A} (x d : A) l : forall n, n < length l -> nth n (update_nth n x l) d = x.
Proof. induction l as [|y l IH]; intros [|n] H; cbn in *; try lia; auto. apply IH. lia. Qed.
Lemma nth_update_other {A} (x d : A) l : forall n m, n <> m -> nth m (update_nth n x l) d = nth m l d.
Proof. induction l as [|y l IH]; intros [|n] [|m] H; cbn; auto; try contradiction. Qed.
Lemma put_length h a i v : length (put h a i v) = length h.
Proof. apply update_nth_length. Qed.
Lemma put_other h a i v b : a <> b -> nth b (put h a i v) [] = nth b h [].
Proof. apply nth_update_other. Qed.
Lemma put_same h a i v : a < length h -> nth a (put h a i v) [] = update_nth i v (nth a h []).
Proof. apply nth_update_same. Qed.
Lemma elems_same h h' s : nth (sl_arr s) h' [] = nth (sl_arr s) h [] -> elems h' s = elems h s.
Proof. unfold elems. now intros ->. Qed.
Lemma elems_more h l s : sl_arr s < length h -> elems (h ++ l) s = elems h s.
Proof. intro H. apply elems_same. apply app_nth1, H. Qed.
Lemma lies_same h h' s : length h <= length h' -> nth (sl_arr s) h' [] = nth (sl_arr s) h [] -> lies h s -> lies h' s.
Proof. unfold lies. intros L E (A & B & C). rewrite E. repeat split; lia. Qed.
Lemma lies_more h l s : lies h s -> lies (h ++ l) s.
Proof. intro L. apply (lies_same h); [rewrite app_length; lia| |exact L]. apply app_nth1, L. Qed.
Lemma lies_put h a i v s : lies h s -> lies (put h a i v) s.
Proof.
  unfold lies. intros (A & B & C). rewrite put_length. split; [exact A|]. split; [|exact C].
  destruct (Nat.eq_dec a (sl_arr s)) as [->|N]; [rewrite put_same by exact A; rewrite update_nth_length; exact B|rewrite put_other by exact N; exact B].
Qed.
Lemma elems_length h s : lies h s -> length (elems h s) = sl_len s.
Proof. intros (A & B & C). unfold elems. rewrite firstn_length, skipn_length. lia. Qed.

Lemma firstn_grow {A} (x : A) l : forall n m, n + m < length l ->
  firstn (S m) (skipn n (update_nth (n + m) x l)) = firstn m (skipn n l) ++ [x].
Proof.
  induction l as [|y l IH]; intros n m H; [cbn in H; lia|]. destruct n as [|n].
  - cbn [skipn Nat.add]. destruct m as [|m]; [reflexivity|]. cbn [update_nth]. cbn [firstn app]. f_equal. apply (IH 0 m). cbn in H. lia.
  - cbn [skipn Nat.add update_nth]. apply IH. cbn in H. lia.
Qed.
Lemma firstn_write {A} (v : A) l : forall n m i, i < m -> firstn m (skipn n (update_nth (n + i) v l)) = update_nth i v (firstn m (skipn n l)).
Proof.
  induction l as [|y l IH]; intros n m i H.
  - destruct n, i, m; cbn [Nat.add update_nth skipn firstn]; try lia; reflexivity.
  - destruct n as [|n]; [|cbn [skipn Nat.add update_nth]; apply IH, H]. cbn [skipn Nat.add]. destruct m as [|m]; [lia|].
    destruct i as [|i]; [reflexivity|]. cbn [update_nth firstn]. f_equal. apply (IH 0 m i). lia.
Qed.

Section Conn.
  Context (grow : nat -> nat) {T S : Type} (span : T -> S).

  Lemma append_elems h s x : lies h s -> let (h', s') := append1 grow h s x in elems h' s' = elems h s ++ [x] /\ lies h' s'.
  Proof.
    intros L. pose proof L as (A & B & C). unfold append1. destruct (sl_len s <? sl_cap s) eqn:E; [apply Nat.ltb_lt in E|apply Nat.ltb_ge in E].
    - split.
      + unfold elems. cbn [sl_len sl_off sl_arr]. rewrite put_same by exact A. apply firstn_grow. lia.
      + destruct (lies_put h (sl_arr s) (sl_off s + sl_len s) x s L) as (P & Q & _). repeat split; cbn [sl_arr sl_off sl_cap sl_len] in *; try assumption; lia.
    - pose proof (elems_length h s L) as N. split.
      + unfold elems at 1. cbn [sl_len sl_off sl_arr skipn]. rewrite app_nth2, Nat.sub_diag by lia. cbn [nth].
        generalize (repeat ""%string (grow (Datatypes.S (sl_len s)) - Datatypes.S (sl_len s))) as r. intro r. rewrite <- N. clear.
        induction (elems h s) as [|y l IH]; [reflexivity|]. cbn [length app firstn]. f_equal. exact IH.
      + unfold lies. cbn [sl_arr sl_off sl_cap sl_len]. rewrite app_length, app_nth2, Nat.sub_diag by lia. cbn [nth length].
        rewrite app_length, N. cbn [length]. rewrite repeat_length. lia.
  Qed.
  (** append writes into the array of the slice only, or into a new one *)
  Lemma append_frame h s x : let (h', s') := append1 grow h s x in
    length h <= length h' /\ (sl_arr s' = sl_arr s \/ sl_arr s' = length h) /\ (forall a, a < length h -> a <> sl_arr s -> nth a h' [] = nth a h []).
  Proof.
    unfold append1. destruct (sl_len s <? sl_cap s).
    - rewrite put_length. repeat split; [lia|left; reflexivity|]. intros a _ N. apply put_other. congruence.
    - rewrite app_length. repeat split; [lia|right; reflexivity|]. intros a L _. apply app_nth1, L.
  Qed.
  Lemma contains_in l x : scontains_elem l x = true <-> In x l.
  Proof. unfold scontains_elem. rewrite existsb_exists. split; [intros (y & I & E); apply String.eqb_eq in E; now subst|intro I; exists x; split; [exact I|apply String.eqb_refl]]. Qed.
  Lemma add_elems l : forall h s, lies h s -> let (h', s') := add_schemas grow h s l in elems h' s' = add_new (elems h s) l /\ lies h' s'.
  Proof.
    induction l as [|x l IH]; intros h s L; [split; [reflexivity|exact L]|]. cbn [add_schemas add_new].
    destruct (in_dec string_dec x (elems h s)) as [I|I].
    - rewrite (proj2 (contains_in _ _) I). apply IH, L.
    - destruct (scontains_elem (elems h s) x) eqn:E; [apply contains_in in E; contradiction|].
      pose proof (append_elems h s x L) as A. destruct (append1 grow h s x) as [h' s']. destruct A as (A & L'). rewrite <- A. apply IH, L'.
  Qed.
  Lemma add_frame l : forall h s, sl_arr s < length h -> let (h', s') := add_schemas grow h s l in
    length h <= length h' /\ (sl_arr s' = sl_arr s \/ length h <= sl_arr s') /\ (forall a, a < length h -> a <> sl_arr s -> nth a h' [] = nth a h []).
  Proof.
    induction l as [|x l IH]; intros h s L; [repeat split; [lia|left; reflexivity]|]. cbn [add_schemas].
    destruct (scontains_elem (elems h s) x); [apply IH, L|].
    pose proof (append_frame h s x) as F. assert (L2 : sl_arr (snd (append1 grow h s x)) < length (fst (append1 grow h s x))).
    { unfold append1. destruct (sl_len s <? sl_cap s); cbn [fst snd sl_arr]; [rewrite put_length; exact L|rewrite app_length; cbn; lia]. }
    destruct (append1 grow h s x) as [h1 s1]. cbn [fst snd] in L2. destruct F as (F1 & F2 & F3). specialize (IH h1 s1 L2).
    destruct (add_schemas grow h1 s1 l) as [h' s']. destruct IH as (G1 & G2 & G3). split; [lia|]. split; [lia|].
    intros a A N. rewrite G3; [apply F3; assumption|lia|destruct F2 as [-> | ->]; lia].
  Qed.

  (** ** The invariant *)
  Definition held_ok n (given : nat -> Prop) (st : @nstate T) : Prop :=
    let a := sl_arr (n_schemas (st_conn st)) in
    n <= length (st_heap st) /\ ((a < n /\ given a) \/ (n <= a /\ ~ In a (st_held st)))
    /\ Forall (fun b => n <= b < length (st_heap st)) (st_held st).
  Definition agrees (st : @nstate T) (v : seen) : Prop :=
    let c := st_conn st in
    n_user c = v_user (s_view v) /\ n_db c = v_db (s_view v) /\ elems (st_heap st) (n_schemas c) = v_schemas (s_view v) /\ lies (st_heap st) (n_schemas c)
    /\ n_ts c = s_ts v /\ n_uuid c = s_uuid v /\ n_id c = s_id v /\ n_tracer c = s_tracer v.

  Ltac parts := unfold agrees; cbn [st_heap st_conn fst snd s_view s_ts s_uuid s_id s_tracer n_user n_db n_schemas n_ts n_uuid n_id n_tracer v_user v_db v_schemas]; repeat match goal with |- _ /\ _ => split end.
  Lemma step_agrees n (given : nat -> Prop) st v o : held_ok n given st -> agrees st v ->
    (forall a i x, o = NWrite a i x -> a < n /\ ~ given a) ->
    held_ok n given (fst (ncall_step grow span st o)) /\ agrees (fst (ncall_step grow span st o)) (fst (expect span v o))
    /\ snd (ncall_step grow span st o) = snd (expect span v o).
  Proof.
    intros HK HA W. pose proof HK as (Ln & Ha & Hh). pose proof HA as (E1 & E2 & E3 & E4 & E5 & E6 & E7 & E8). pose proof E4 as (L1 & _).
    destruct o; cbn [ncall_step expect fst snd].
    - split; [exact HK|]. split; [|reflexivity]. parts; try assumption; reflexivity.
    - cbn. split; [|split; [|reflexivity]].
      + unfold held_ok. cbn [st_heap st_conn st_held n_schemas sl_arr]. rewrite app_length. cbn [length]. split; [lia|]. split.
        * right. split; [exact Ln|]. intro I. rewrite Forall_forall in Hh. specialize (Hh _ I). lia.
        * eapply Forall_impl; [|exact Hh]. cbn. lia.
      + unfold agrees. cbn. parts; try assumption; try reflexivity.
        unfold lies. cbn. rewrite app_length. cbn. lia.
    - pose proof (add_elems l (st_heap st) _ E4) as A. pose proof (add_frame l (st_heap st) _ L1) as F.
      destruct (add_schemas grow (st_heap st) (n_schemas (st_conn st)) l) as [h' s']. destruct A as (A & L'). destruct F as (F1 & F2 & _).
      cbn [fst snd]. split; [|split; [|reflexivity]].
      + unfold held_ok. cbn [st_heap st_conn st_held n_schemas]. split; [lia|]. split; [|eapply Forall_impl; [|exact Hh]; cbn; lia].
        destruct F2 as [-> |F2]; [exact Ha|]. right. split; [lia|]. intro I. rewrite Forall_forall in Hh. specialize (Hh _ I). lia.
      + unfold agrees. cbn. rewrite A, E3. parts; try assumption; reflexivity.
    - split; [exact HK|]. split; [|reflexivity]. parts; try assumption; reflexivity.
    - parts; try assumption; try reflexivity. rewrite E1. reflexivity.
    - parts; try assumption; try reflexivity. rewrite E2. reflexivity.
    - cbn. split; [|split].
      + unfold held_ok. cbn [st_heap st_conn st_held]. rewrite app_length. cbn [length]. split; [lia|]. split.
        * destruct Ha as [Ha|(H1 & H2)]; [left; exact Ha|right]. split; [exact H1|]. rewrite in_app_iff. intros [I|[I|[]]]; [apply H2, I|lia].
        * apply Forall_app. split; [eapply Forall_impl; [|exact Hh]; cbn; lia|]. repeat constructor; lia.
      + unfold agrees. cbn [st_heap st_conn]. rewrite elems_more by exact L1. parts; try assumption; apply (lies_more _ _ _ E4).
      + f_equal. unfold elems at 1. cbn [sl_arr sl_off sl_len skipn]. rewrite app_nth2, Nat.sub_diag by lia. cbn [nth]. rewrite firstn_all. exact E3.
    - parts; try assumption; try reflexivity. rewrite E5. reflexivity.
    - parts; try assumption; try reflexivity. rewrite E6. reflexivity.
    - parts; try assumption; try reflexivity. rewrite E7. reflexivity.
    - parts; try assumption; try reflexivity. rewrite E8. reflexivity.
    - parts; try assumption; try reflexivity. rewrite E8. reflexivity.
    - destruct (W _ _ _ eq_refl) as (W1 & W2). assert (N : a <> sl_arr (n_schemas (st_conn st))) by (intros ->; destruct Ha as [(_ & Ha)|(Ha & _)]; [contradiction|lia]).
      split; [|split; [|reflexivity]].
      + unfold held_ok. cbn [st_heap st_conn st_held]. rewrite put_length. exact HK.
      + unfold agrees. cbn [st_heap st_conn]. rewrite (elems_same _ _ _ (put_other _ _ i v0 _ N)). parts; try assumption; apply (lies_put _ _ _ _ _ E4).
    - destruct (nth_error (st_held st) k) as [a|] eqn:K; [|split; [exact HK|split; [exact HA|reflexivity]]].
      assert (I : In a (st_held st)) by (apply (nth_error_In _ _ K)).
      assert (N : a <> sl_arr (n_schemas (st_conn st))).
      { intros ->. destruct Ha as [(Ha & _)|(_ & Ha)]; [|contradiction]. rewrite Forall_forall in Hh. specialize (Hh _ I). lia. }
      split; [|split; [|reflexivity]].
      + unfold held_ok. cbn [st_heap st_conn st_held]. rewrite put_length. exact HK.
      + unfold agrees. cbn [st_heap st_conn]. rewrite (elems_same _ _ _ (put_other _ _ i v0 _ N)). parts; try assumption; apply (lies_put _ _ _ _ _ E4).
  Qed.
  Lemma run_agrees n (given : nat -> Prop) l : forall st v, held_ok n given st -> agrees st v ->
    Forall (fun o => forall a i x, o = NWrite a i x -> a < n /\ ~ given a) l -> snd (ncalls grow span st l) = expects span v l.
  Proof.
    induction l as [|o l IH]; intros st v HK HA F; [reflexivity|]. inversion F as [|? ? W F']; subst.
    destruct (step_agrees n given st v o HK HA W) as (HK' & HA' & R). cbn [ncalls expects].
    destruct (ncall_step grow span st o) as [st' r], (expect span v o) as [v' r']. cbn [fst snd] in *. subst r'.
    specialize (IH st' v' HK' HA' F'). destruct (ncalls grow span st' l) as [st'' rs]. cbn [snd] in *. rewrite IH. reflexivity.
  Qed.
End Conn.
