(** Property theorems C01-C07: stack, connection manager, connections. *)
From Verif Require Import GoBase ModelUtil ModelNet SpecNet ProofNet.

(** C01. Every history of calls on a new Stack answers like a LIFO list. *)
Theorem C01_stack_is_lifo :
  forall (A : Type) (ops : list (stack_op A)),
    snd (stack_run new_stack ops) = lifo_run [] ops.
Proof. intros A ops. exact (stack_run_lifo new_stack ops). Qed.
Print Assumptions C01_stack_is_lifo.
Example C01_example :
  snd (stack_run new_stack [OpPush (Some 1); OpPush (Some 2); OpPop; OpPeek; OpPop; OpPop; OpSize])
  = [OutUnit; OutUnit; OutObj (Some 2); OutObj (Some 1); OutObj (Some 1); OutObj None; OutSize 0].
Proof. reflexivity. Qed.

(** C02. AddConn in any state of the manager, reachable or not: it fails iff one of the two keys is
    taken, then nothing changes; otherwise both lookups of the new keys give [c] and every other
    lookup is unchanged. *)
Theorem C02_add_conn :
  forall (s : mgr) (c : conn),
    (snd (add_conn s c) = Err ErrExist /\ fst (add_conn s c) = s /\
     (lookup_by_uuid s (conn_uuid c) <> None \/ lookup_by_uid s (conn_id c) <> None)) \/
    (snd (add_conn s c) = Ok tt /\
     lookup_by_uuid s (conn_uuid c) = None /\ lookup_by_uid s (conn_id c) = None /\
     (forall n, lookup_by_uid (fst (add_conn s c)) n =
                if N.eqb n (conn_id c) then Some c else lookup_by_uid s n) /\
     (forall u, lookup_by_uuid (fst (add_conn s c)) u =
                if N.eqb u (conn_uuid c) then Some c else lookup_by_uuid s u)).
Proof. exact add_conn_spec. Qed.
Print Assumptions C02_add_conn.
Example C02_example :
  let a := mkConn 1 10 5 in let b := mkConn 2 11 5 in
  snd (add_conn new_mgr a) = Ok tt /\ snd (add_conn (fst (add_conn new_mgr a)) b) = Err ErrExist.
Proof. split; reflexivity. Qed.

(** C03. Every history in which removed and updated connections never share exactly one key with a
    registered one answers call by call like a plain set of connections, and the two lookups and
    Conns() all show that set. *)
Theorem C03_manager_is_a_registry :
  forall ops s xs,
    fitting_run new_mgr ops s xs ->
    exists r, registry_run [] ops r xs /\
      (forall n, lookup_by_uid s n = find_id r n) /\
      (forall u, lookup_by_uuid s u = find_uuid r u) /\
      Permutation (conns s) r.
Proof. exact manager_refines. Qed.
Print Assumptions C03_manager_is_a_registry.

Theorem C03_indexes_agree :
  forall ops s xs, fitting_run new_mgr ops s xs -> indexes_agree s.
Proof. exact manager_agree. Qed.
Print Assumptions C03_indexes_agree.

(** A client that gives every connection its own ID is within the discipline. *)
Theorem C03_unique_ids_suffice :
  forall ops s xs, disciplined ops -> mgr_run new_mgr ops s xs -> fitting_run new_mgr ops s xs.
Proof. exact disciplined_run_fits. Qed.
Print Assumptions C03_unique_ids_suffice.

(** The discipline is needed: two connections left at the default ID 0; the second is refused, and
    removing the refused one damages the registration of the first. *)
Definition first_conn := mkConn 1 10 0.
Definition refused_conn := mkConn 2 11 0.
Theorem C03_undisciplined_refuted :
  exists ops s xs, mgr_run new_mgr ops s xs /\ ~ indexes_agree s /\
    ops = [MAdd first_conn; MAdd refused_conn; MRemove refused_conn].
Proof.
  eexists _, _, _. split; [|split; [|reflexivity]].
  - econstructor; [exact I|reflexivity|]. econstructor; [exact I|reflexivity|].
    econstructor; [exact I|reflexivity|]. constructor.
  - cbn. intros (H & _). specialize (H first_conn). cbn in H. destruct H as [_ H].
    specialize (H eq_refl). discriminate.
Qed.
Print Assumptions C03_undisciplined_refuted.

Example C03_example :
  fitting_run new_mgr
    [MAdd (mkConn 1 10 1); MAdd (mkConn 2 11 2); MUpdate (mkConn 1 10 1) (mkConn 3 10 1);
     MRemoveUID 2; MAdd (mkConn 4 12 2); MRemove (mkConn 4 12 2)]
    (mkMgr [(1, mkConn 3 10 1)] [(10, mkConn 3 10 1)])%N
    [MRes (Ok tt); MRes (Ok tt); MRes (Ok tt); MUnit; MRes (Ok tt); MRes (Ok tt)].
Proof.
  repeat (econstructor; [cbn; try exact I| exact I|reflexivity|]); [| |constructor].
  - split; [|split; reflexivity]. intros d Hd. cbn in Hd.
    destruct Hd as [<-|[<-|[]]]; cbn; split; intros E; reflexivity || discriminate E.
  - intros d Hd. cbn in Hd. destruct Hd as [<-|[<-|[]]]; cbn; split; intros E; reflexivity || discriminate E.
Qed.

(** C04. Any number of goroutines, any interleaving of their lock regions. *)
Theorem C04_concurrent_indexes_agree :
  forall (progs : list (list mop)) s ts,
    disciplined (concat progs) ->
    sys_steps (new_mgr, map thread_of progs) (s, ts) -> indexes_agree s.
Proof. exact concurrent_agree. Qed.
Print Assumptions C04_concurrent_indexes_agree.

(** Reusing an ID for a new connection is harmless sequentially (C03) but not concurrently: one
    goroutine removes connection ID 7 by ID; another closes that connection and registers a new one
    under the same ID between the first one's lookup and its removal. *)
Definition old7 := mkConn 1 10 7.
Definition new7 := mkConn 2 11 7.
Definition race_progs := [[MAdd old7; MRemoveUID 7]; [MRemove old7; MAdd new7]].
Theorem C04_id_reuse_race_refuted :
  exists s ts, sys_steps (new_mgr, map thread_of race_progs) (s, ts) /\
    Forall (fun t => todo t = []) ts /\ ~ indexes_agree s.
Proof.
  eexists _, _. split; [|split].
  - eapply sys_trans; [eapply (sys_one _ _ [] _ _ [_]); apply as_add|].
    eapply sys_trans; [eapply (sys_one _ _ [] _ _ [_]); apply as_uid|].
    eapply sys_trans; [eapply (sys_one _ _ [_] _ _ []); apply as_remove|].
    eapply sys_trans; [eapply (sys_one _ _ [_] _ _ []); apply as_add|].
    eapply sys_trans; [eapply (sys_one _ _ [] _ _ [_]); apply as_found|].
    apply sys_refl.
  - repeat constructor.
  - cbn. intros (H & _). specialize (H new7). cbn in H. destruct H as [_ H].
    specialize (H eq_refl). discriminate.
Qed.
Print Assumptions C04_id_reuse_race_refuted.
Example C04_example : disciplined (concat
  [[MAdd (mkConn 1 10 1); MRemoveUID 1]; [MAdd (mkConn 2 11 2); MUpdate (mkConn 1 10 1) (mkConn 3 10 1)]]).
Proof.
  split.
  - intros c d Hc Hd. cbn in Hc, Hd.
    destruct Hc as [<-|[<-|[<-|[<-|[]]]]], Hd as [<-|[<-|[<-|[<-|[]]]]]; cbn;
      split; intros E; reflexivity || discriminate E.
  - repeat constructor.
Qed.

(** C05. Close/Stop closes every registered connection exactly once, keeps exactly those whose
    Close failed, and reports an error iff one failed - whatever order the Go map yields. *)
Theorem C05_manager_close :
  forall ops s xs (closes : conn -> bool) snap,
    fitting_run new_mgr ops s xs -> Permutation snap (conns s) ->
    let '(s', log, failed) := mgr_close closes snap s in
    Permutation log (conns s) /\
    (failed = false <-> forall c, In c (conns s) -> closes c = true) /\
    (forall c, In c (conns s') <-> In c (conns s) /\ closes c = false) /\
    indexes_agree s'.
Proof. exact manager_close. Qed.
Print Assumptions C05_manager_close.
Example C05_example :
  let s := mkMgr [(1, mkConn 1 10 1); (2, mkConn 2 11 2)]%N [(10, mkConn 1 10 1); (11, mkConn 2 11 2)]%N in
  mgr_close (fun c => N.eqb (conn_id c) 1) [mkConn 2 11 2; mkConn 1 10 1] s =
  (mkMgr [(2, mkConn 2 11 2)] [(11, mkConn 2 11 2)], [mkConn 2 11 2; mkConn 1 10 1], true)%N.
Proof. reflexivity. Qed.

(** C06. If the first k underlying closes fail and the next one succeeds, then n calls of Close make
    min(n, k+1) underlying calls, fail min(n, k) times and then answer nil; if every underlying close
    fails, every call fails and is passed through. *)
Theorem C06_close_idempotent :
  forall (outcome : nat -> bool) (k n : nat),
    (forall i, i < k -> outcome i = false) -> outcome k = true ->
    close_n outcome n new_closer =
    (mkCloser (k <? n) (Nat.min n (S k)), repeat false (Nat.min n k) ++ repeat true (n - k)).
Proof. exact close_history. Qed.
Print Assumptions C06_close_idempotent.
Theorem C06_close_always_failing :
  forall (outcome : nat -> bool) (n : nat),
    (forall i, outcome i = false) ->
    close_n outcome n new_closer = (mkCloser false n, repeat false n).
Proof. exact close_never. Qed.
Print Assumptions C06_close_always_failing.
Example C06_example :
  close_n (fun i => 2 <=? i) 5 new_closer = (mkCloser true 3, [false; false; true; true; true]).
Proof. reflexivity. Qed.

(** C07. Every history of session calls, with callers scribbling into slices they were given. *)
Theorem C07_session_attributes :
  forall ops : list sop,
    session_run (new_session, []) ops = view_run (mkView "" "" []) ops.
Proof. exact session_run_spec. Qed.
Print Assumptions C07_session_attributes.
Example C07_example :
  session_run (new_session, [])
    [SSetDatabase "d"; SSetSchemas ["a"; "b"; "a"]; SSchemas; SScribble 0 0 "x"; SSchemas;
     SSetSchemas ["b"; "c"]; SSchemas; SSetDatabase "e"; SSchemas; SDatabase]
  = [SUnit; SUnit; SList ["a"; "b"]; SUnit; SList ["a"; "b"]; SUnit; SList ["a"; "b"; "c"];
     SUnit; SList []; SStr "e"].
Proof. reflexivity. Qed.
