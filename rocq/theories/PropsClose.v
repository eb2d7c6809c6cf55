(** C90: Close called by several goroutines. *)
From Verif Require Import GoBase ModelClose.

Definition finished (s : cstate) : Prop := forall p, In p (routines s) -> exists r, p = Returned r.
Definition pending (p : pc) : nat := match p with Testing | Calling => 1 | _ => 0 end.
Definition pendings (l : list pc) : nat := list_sum (map pending l).
Lemma pendings_app a b : pendings (a ++ b) = pendings a + pendings b.
Proof. unfold pendings. rewrite map_app. apply list_sum_app. Qed.
Lemma pendings_cons p l : pendings (p :: l) = pending p + pendings l. Proof. reflexivity. Qed.

Record inv (n : nat) (s : cstate) : Prop := {
  inv_n : length (routines s) = n;
  inv_count : length (outcomes s) + pendings (routines s) <= n;
  inv_true : closed s = true \/ In Setting (routines s) \/ In (Returned true) (routines s) -> In true (outcomes s);
  inv_flag : In true (outcomes s) -> closed s = true \/ In Setting (routines s);
  inv_false : In (Returned false) (routines s) -> In false (outcomes s) }.
Lemma inv_start n : inv n (callers n).
Proof.
  unfold callers. split; cbn.
  - apply repeat_length.
  - unfold pendings. induction n as [|n IH]; cbn; [lia|]. lia.
  - intros [H|[H|H]]; [discriminate|apply repeat_spec in H; discriminate|apply repeat_spec in H; discriminate].
  - intros [].
  - intro H. apply repeat_spec in H. discriminate.
Qed.
Ltac members := repeat rewrite ?in_app_iff in *; cbn [In] in *.
Lemma inv_step n s t : cstep s t -> inv n s -> inv n t.
Proof.
  intros H [I1 I2 I3 I4 I5]. destruct H as [f log a b|f log a b ok|f log a b]; cbn [closed outcomes routines] in *;
    rewrite app_length in I1; cbn [length] in I1; rewrite pendings_app, pendings_cons in I2; cbn [pending] in I2.
  - destruct f; split; cbn [closed outcomes routines]; rewrite ?app_length, ?pendings_app, ?pendings_cons; cbn [length pending]; try lia; members; intuition (try discriminate; auto).
  - destruct ok; split; cbn [closed outcomes routines]; rewrite ?app_length, ?pendings_app, ?pendings_cons; cbn [length pending]; try lia; members; intuition (try discriminate; auto).
  - split; cbn [closed outcomes routines]; rewrite ?app_length, ?pendings_app, ?pendings_cons; cbn [length pending]; try lia; members; intuition (try discriminate; auto).
Qed.
Lemma inv_steps n s t : csteps s t -> inv n s -> inv n t.
Proof. induction 1 as [s|s t u H _ IH]; [auto|]. intro I. apply IH, (inv_step n s), I. exact H. Qed.

(** Whatever the schedule and the outcomes: n goroutines call the underlying Close at most n times;
    a goroutine that gets nil returns after a successful underlying call, one that gets an error after
    a failed one; and when all have returned the connection counts as closed iff some underlying call
    succeeded.  Missing: at most one successful underlying call, refuted below. *)
Theorem C90_close_partial : forall n s, csteps (callers n) s ->
  length (outcomes s) <= n
  /\ (In (Returned true) (routines s) -> In true (outcomes s)) /\ (In (Returned false) (routines s) -> In false (outcomes s))
  /\ (finished s -> (closed s = true <-> In true (outcomes s))).
Proof.
  intros n s H. destruct (inv_steps n _ _ H (inv_start n)) as [I1 I2 I3 I4 I5]. split; [lia|]. split; [auto|]. split; [exact I5|].
  intro F. split; [auto|]. intro T. destruct (I4 T) as [C|S]; [exact C|]. destruct (F _ S) as (r & E). discriminate E.
Qed.
Print Assumptions C90_close_partial.

(** Once the connection counts as closed and no goroutine is inside Close, no later call touches the
    underlying connection, and all get nil. *)
Theorem C90_closed_for_good_partial : forall log n s, csteps (mkCstate true log (repeat Testing n)) s ->
  closed s = true /\ outcomes s = log /\ forall r, In (Returned r) (routines s) -> r = true.
Proof.
  intros log n s H.
  assert (G : forall s t, csteps s t -> closed s = true /\ outcomes s = log /\ (forall p, In p (routines s) -> p = Testing \/ p = Returned true) ->
    closed t = true /\ outcomes t = log /\ (forall p, In p (routines t) -> p = Testing \/ p = Returned true)).
  { clear. induction 1 as [s|s t u H _ IH]; [auto|]. intros (C & O & P). apply IH. clear IH. destruct H as [f l a b|f l a b ok|f l a b]; cbn [closed outcomes routines] in *.
    - subst f. split; [reflexivity|]. split; [exact O|]. intros p I. apply in_app_iff in I as [I|[<-|I]]; [apply P, in_app_iff; auto|auto|apply P, in_app_iff; cbn; auto].
    - destruct (P Calling (in_elt _ _ _)); discriminate.
    - destruct (P Setting (in_elt _ _ _)); discriminate. }
  destruct (G _ _ H) as (A & B & C).
  - split; [reflexivity|]. split; [reflexivity|]. intros p I. left. exact (repeat_spec _ _ _ I).
  - split; [exact A|]. split; [exact B|]. intros r I. destruct (C _ I) as [E|E]; [discriminate E|injection E as ->; reflexivity].
Qed.
Print Assumptions C90_closed_for_good_partial.

(** n goroutines can close the underlying connection n times, all with success. *)
Theorem C90_closed_once_refuted : forall n, exists s, csteps (callers n) s /\ outcomes s = repeat true n /\ routines s = repeat (Returned true) n.
Proof.
  assert (Tr : forall s t u, csteps s t -> csteps t u -> csteps s u) by (intros s t u H; induction H; [auto|]; intro K; econstructor; eauto).
  assert (Rep : forall (p : pc) m k, repeat p m ++ p :: repeat p k = repeat p (m + S k)).
  { intros p m k. change (p :: repeat p k) with (repeat p (S k)). symmetry. apply repeat_app. }
  assert (T : forall k m, csteps (mkCstate false [] (repeat Calling m ++ repeat Testing k)) (mkCstate false [] (repeat Calling (m + k)))).
  { induction k as [|k IH]; intro m; [cbn; rewrite app_nil_r, Nat.add_0_r; constructor|]. cbn [repeat].
    eapply cs_more; [apply cs_test|]. cbn match. replace (m + S k) with (S m + k) by lia. specialize (IH (S m)).
    replace (repeat Calling m ++ Calling :: repeat Testing k) with (repeat Calling (S m) ++ repeat Testing k); [exact IH|].
    replace (S m) with (m + 1) by lia. rewrite repeat_app, <- app_assoc. reflexivity. }
  assert (C : forall k m, csteps (mkCstate false (repeat true m) (repeat Setting m ++ repeat Calling k)) (mkCstate false (repeat true (m + k)) (repeat Setting (m + k)))).
  { induction k as [|k IH]; intro m; [cbn; rewrite app_nil_r, Nat.add_0_r; constructor|]. cbn [repeat].
    eapply cs_more; [apply (cs_call false (repeat true m) _ _ true)|]. cbn match. replace (m + S k) with (S m + k) by lia. specialize (IH (S m)).
    replace (repeat Setting m ++ Setting :: repeat Calling k) with (repeat Setting (S m) ++ repeat Calling k) by (replace (S m) with (m + 1) by lia; rewrite repeat_app, <- app_assoc; reflexivity).
    replace (repeat true m ++ [true]) with (repeat true (S m)) by (replace (S m) with (m + 1) by lia; rewrite repeat_app; reflexivity). exact IH. }
  assert (S_ : forall k m f log, exists f', csteps (mkCstate f log (repeat (Returned true) m ++ repeat Setting k)) (mkCstate f' log (repeat (Returned true) (m + k)))).
  { induction k as [|k IH]; intros m f log; [exists f; cbn; rewrite app_nil_r, Nat.add_0_r; constructor|]. destruct (IH (S m) true log) as (f' & H). exists f'. cbn [repeat].
    eapply cs_more; [apply cs_set|]. replace (m + S k) with (S m + k) by lia.
    replace (repeat (Returned true) m ++ Returned true :: repeat Setting k) with (repeat (Returned true) (S m) ++ repeat Setting k) by (replace (S m) with (m + 1) by lia; rewrite repeat_app, <- app_assoc; reflexivity). exact H. }
  intro n. destruct (S_ n 0 false (repeat true n)) as (f & H). exists (mkCstate f (repeat true n) (repeat (Returned true) n)).
  split; [|split; reflexivity]. eapply Tr; [exact (T n 0)|]. eapply Tr; [exact (C n 0)|]. exact H.
Qed.
Print Assumptions C90_closed_once_refuted.

(** two goroutines, the first underlying call fails *)
Example C90_example : exists s, csteps (callers 2) s /\ finished s /\ outcomes s = [false; true] /\ closed s = true.
Proof.
  exists (mkCstate true [false; true] [Returned false; Returned true]). split; [|split; [|split; reflexivity]].
  - unfold callers. cbn [repeat]. eapply cs_more; [apply (cs_test false [] [] [Testing])|]. cbn. eapply cs_more; [apply (cs_call false [] [] [Testing] false)|]. cbn.
    eapply cs_more; [apply (cs_test false [false] [Returned false] [])|]. cbn. eapply cs_more; [apply (cs_call false [false] [Returned false] [] true)|]. cbn.
    eapply cs_more; [apply (cs_set false [false; true] [Returned false] [])|]. cbn. constructor.
  - intros p [<-|[<-|[]]]; eexists; reflexivity.
Qed.
