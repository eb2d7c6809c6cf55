(** C89: a connection is what its options say. *)
From Verif Require Import GoBase ModelNet SpecNet ModelFunc SpecFunc ProofFunc ModelConn SpecConn ProofConn.

Section Conn.
Context (grow : nat -> nat) {T S : Type} (span : T -> S).
Notation conn_calls := (conn_calls grow span).

Lemma made h ts id opts : let c := snd (new_conn (T := T) h ts id opts) in
  is_last gives_db opts "" (n_db c) /\ is_last gives_user opts "" (n_user c) /\ is_last gives_id opts 0%N (n_id c)
  /\ is_last gives_tracer opts None (n_tracer c) /\ n_ts c = ts /\ n_uuid c = id
  /\ is_last (fun o : @nopt T => match o with NoSchemas s => Some s | _ => None end) opts (mkSlice (length h) 0 0 0) (n_schemas c).
Proof.
  unfold new_conn, fresh. cbn [snd]. set (c0 := mkNetconn _ _ _ _ _ _ _).
  split; [exact (is_last_fold apply_nopt (fun c => n_db c) gives_db ltac:(intros c []; reflexivity) opts c0)|].
  split; [exact (is_last_fold apply_nopt (fun c => n_user c) gives_user ltac:(intros c []; reflexivity) opts c0)|].
  split; [exact (is_last_fold apply_nopt (fun c => n_id c) gives_id ltac:(intros c []; reflexivity) opts c0)|].
  split; [exact (is_last_fold apply_nopt (fun c => n_tracer c) gives_tracer ltac:(intros c []; reflexivity) opts c0)|].
  assert (F : forall l c, n_ts (fold_left apply_nopt l c) = n_ts (T := T) c /\ n_uuid (fold_left apply_nopt l c) = n_uuid c).
  { induction l as [|o l IH]; intro c; [split; reflexivity|]. cbn [fold_left]. destruct (IH (apply_nopt c o)) as (-> & ->). destruct o; split; reflexivity. }
  destruct (F opts c0) as (F1 & F2). split; [exact F1|]. split; [exact F2|].
  exact (is_last_fold apply_nopt (fun c => n_schemas c) (fun o : @nopt T => match o with NoSchemas s => Some s | _ => None end) ltac:(intros c []; reflexivity) opts c0).
Qed.

(** Whatever is called: user, database, schemas, ID and tracer context are those of the last option
    of each kind until they are set, the time and the UUID those of the creation for ever; SetSchemas
    adds what is not there, SetDatabase clears the schemas; a list returned by Schemas is the
    caller's own.  Missing: callers that go on writing into the slice they gave to the connection,
    and Span without a tracer context; both refuted below. *)
Theorem C89_connection_partial : forall h ts id opts calls v,
  is_last gives_db opts "" (v_db (s_view v)) -> is_last gives_user opts "" (v_user (s_view v)) -> is_last gives_id opts 0%N (s_id v) ->
  is_last gives_tracer opts None (s_tracer v) -> is_last (gives_schemas h) opts [] (v_schemas (s_view v)) -> s_ts v = ts -> s_uuid v = id ->
  (forall s, In (NoSchemas s) opts -> lies h s) -> Forall (keeps_off h opts) calls ->
  snd (conn_calls h ts id opts calls) = expects span v calls.
Proof.
  intros h ts id opts calls v D U I R S0 Ts Id L W. unfold ModelConn.conn_calls. pose proof (made h ts id opts) as M.
  assert (Eh : fst (new_conn (T := T) h ts id opts) = h ++ [[]]) by reflexivity.
  destruct (new_conn h ts id opts) as [h' c]. cbn [fst snd] in M, Eh. subst h'. destruct M as (M1 & M2 & M3 & M4 & M5 & M6 & M7).
  apply (run_agrees grow span (length h) (fun a => Exists (fun o => given_array o a) opts)).
  - unfold held_ok. cbn [st_heap st_conn st_held]. rewrite app_length. cbn [length]. split; [lia|]. split; [|constructor].
    destruct M7 as [(b & o & a & E & P & _)|(_ & ->)]; [left|right; split; [cbn; lia|intros []]].
    destruct o as [|s| | |]; try discriminate P. injection P as <-. assert (In (NoSchemas s) opts) by (rewrite E; apply in_elt).
    split; [apply L; assumption|]. apply Exists_exists. exists (NoSchemas s). split; [assumption|]. exists s. split; reflexivity.
  - unfold agrees. cbn [st_heap st_conn]. rewrite M5, M6, Ts, Id, (is_last_fun _ _ _ _ _ M1 D), (is_last_fun _ _ _ _ _ M2 U), (is_last_fun _ _ _ _ _ M3 I), (is_last_fun _ _ _ _ _ M4 R).
    assert (Q : elems (h ++ [[]]) (n_schemas c) = v_schemas (s_view v) /\ lies (h ++ [[]]) (n_schemas c)).
    { destruct M7 as [(b & o & a & E & P & N)|(N & E)].
      - destruct o as [|s| | |]; try discriminate P. injection P as P. assert (Ls : lies h s) by (apply L; rewrite E; apply in_elt).
        rewrite <- P. split; [|apply lies_more, Ls]. rewrite elems_more by apply Ls.
        refine (is_last_fun (gives_schemas h) opts [] _ _ _ S0). left. exists b, (NoSchemas s), a. split; [exact E|]. split; [reflexivity|].
        eapply Forall_impl; [|exact N]. intros []; cbn; congruence.
      - rewrite E. split; [|unfold lies; cbn; rewrite app_length; cbn; lia]. cbn.
        refine (is_last_fun (gives_schemas h) opts [] _ _ _ S0). right. split; [|reflexivity]. eapply Forall_impl; [|exact N]. intros []; cbn; congruence. }
    destruct Q as (Q1 & Q2). repeat match goal with |- _ /\ _ => split end; try reflexivity; assumption.
  - eapply Forall_impl; [|exact W]. intros o K a i x ->. destruct K as (K1 & K2). split; [exact K1|]. intro X. apply Exists_exists in X as (p & Ip & G).
    rewrite Forall_forall in K2. exact (K2 p Ip G).
Qed.

(** The slice given to WithConnSchemas is not copied: what the caller writes into it later changes
    the schemas of the connection, *)
Theorem C89_shared_refuted : forall h ts id s i x, lies h s -> i < sl_len s ->
  snd (conn_calls h ts id [NoSchemas s] [NWrite (sl_arr s) (sl_off s + i) x; NSchemas]) = [NUnit; NList (update_nth i x (elems h s))].
Proof.
  intros h ts id s i x L I. destruct L as (L1 & L2 & L3). cbn -[put elems app]. unfold ModelConn.conn_calls. cbn -[put elems app].
  f_equal. f_equal. f_equal. unfold elems at 1. cbn [sl_arr sl_off sl_len skipn]. rewrite app_nth2, Nat.sub_diag by lia. cbn [nth].
  rewrite firstn_all. unfold elems. rewrite put_same by (rewrite app_length; cbn; lia). rewrite app_nth1 by exact L1. apply firstn_write, I.
Qed.
(** SetSchemas writes into the array of the caller behind the slice it gave, if that goes on, *)
Theorem C89_overwritten_refuted : forall h ts id s x, lies h s -> sl_len s < sl_cap s -> ~ In x (elems h s) ->
  nth (sl_off s + sl_len s) (nth (sl_arr s) (st_heap (fst (conn_calls h ts id [NoSchemas s] [NSetSchemas [x]]))) []) "" = x.
Proof.
  intros h ts id s x L C N. pose proof L as (L1 & L2 & L3). unfold ModelConn.conn_calls, new_conn, fresh. cbn [fold_left apply_nopt ncalls ncall_step st_heap st_conn n_schemas add_schemas].
  rewrite elems_more by exact L1. destruct (scontains_elem (elems h s) x) eqn:E; [apply contains_in in E; contradiction|].
  unfold append1. apply Nat.ltb_lt in C as C'. rewrite C'. cbn [fst st_heap]. rewrite put_same by (rewrite app_length; cbn; lia).
  rewrite app_nth1 by exact L1. apply nth_update_same. lia.
Qed.
(** and of two connections given such a slice each replaces what the other adds: the memory is that
    after the first connection got [x], the second one is made and gets [y]. *)
Theorem C89_two_connections_refuted : forall h ts id ts' id' s x y, lies h s -> sl_len s < sl_cap s -> ~ In x (elems h s) -> ~ In y (elems h s) ->
  let first := fst (conn_calls h ts id [NoSchemas s] [NSetSchemas [x]]) in
  let second := fst (conn_calls (st_heap first) ts' id' [NoSchemas s] [NSetSchemas [y]]) in
  snd (ncall_step grow span (mkNstate (st_heap second) (st_conn first) []) NSchemas) = NList (elems h s ++ [y]).
Proof.
  intros h ts id ts' id' s x y L C Nx Ny first second. pose proof L as (L1 & L2 & L3). apply Nat.ltb_lt in C as C'.
  assert (Add : forall g a t u, lies g s -> elems g s = elems h s -> ~ In a (elems h s) -> fst (conn_calls g t u [NoSchemas s] [NSetSchemas [a]])
    = mkNstate (put (g ++ [[]]) (sl_arr s) (sl_off s + sl_len s) a) (mkNetconn "" (mkSlice (sl_arr s) (sl_off s) (Datatypes.S (sl_len s)) (sl_cap s)) "" t u 0%N None) []).
  { intros g a t u G Eg Na. unfold ModelConn.conn_calls, new_conn, fresh. cbn [fold_left apply_nopt ncalls ncall_step st_heap st_conn n_schemas add_schemas].
    rewrite elems_more by apply G. rewrite Eg. destruct (scontains_elem (elems h s) a) eqn:E; [apply contains_in in E; contradiction|]. unfold append1. rewrite C'. reflexivity. }
  assert (F : first = _) by (apply (Add h x ts id L eq_refl Nx)). 
  set (g := put (h ++ [[]]) (sl_arr s) (sl_off s + sl_len s) x) in F.
  assert (Lg : lies g s) by (apply lies_put, lies_more, L).
  assert (Eg : elems g s = elems h s).
  { unfold elems, g. rewrite put_same by (rewrite app_length; lia). rewrite app_nth1 by exact L1.
    pose proof (firstn_grow x (nth (sl_arr s) h []) (sl_off s) (sl_len s) ltac:(lia)) as P. apply (f_equal (firstn (sl_len s))) in P.
    rewrite firstn_firstn, Nat.min_l in P by lia. rewrite P, firstn_app, firstn_firstn, Nat.min_id, firstn_length, skipn_length.
    replace (sl_len s - Nat.min (sl_len s) (length (nth (sl_arr s) h []) - sl_off s)) with 0 by lia. cbn [firstn]. apply app_nil_r. }
  assert (G : second = _) by (unfold second; rewrite F; cbn [st_heap]; apply (Add g y ts' id' Lg Eg Ny)).
  rewrite F, G. cbn [ncall_step st_heap st_conn n_schemas fresh]. cbn [snd]. f_equal.
  unfold elems at 1. cbn [sl_arr sl_off sl_len skipn]. rewrite app_nth2, Nat.sub_diag by lia. cbn [nth]. rewrite firstn_all.
  unfold elems. cbn [sl_arr sl_off sl_len]. destruct Lg as (G1 & G2 & _). rewrite put_same by (rewrite app_length; lia). rewrite app_nth1 by exact G1.
  rewrite firstn_grow by lia. fold (elems g s). rewrite Eg. reflexivity.
Qed.
(** When there is no room behind the slices given, as with names passed one by one, no call writes
    into an array that the caller had before. *)
Lemma quiet_add n l : forall h s, n <= length h -> (sl_arr s < n -> sl_len s = sl_cap s) ->
  let (h', s') := add_schemas grow h s l in
  n <= length h' /\ (sl_arr s' < n -> sl_len s' = sl_cap s') /\ forall a, a < n -> nth a h' [] = nth a h [].
Proof.
  induction l as [|x l IH]; intros h s N F; [split; [exact N|]; split; [exact F|]; reflexivity|]. cbn [add_schemas].
  destruct (scontains_elem (elems h s) x); [apply IH; assumption|].
  assert (A : let (h', s') := append1 grow h s x in n <= length h' /\ (sl_arr s' < n -> sl_len s' = sl_cap s') /\ forall a, a < n -> nth a h' [] = nth a h []).
  { unfold append1. destruct (sl_len s <? sl_cap s) eqn:C.
    - apply Nat.ltb_lt in C. cbn [sl_arr sl_len sl_cap]. rewrite put_length. split; [exact N|]. split; [intro K; specialize (F K); lia|].
      intros a L. apply put_other. intro E. rewrite E in F. specialize (F L). lia.
    - rewrite app_length. cbn [sl_arr]. split; [lia|]. split; [lia|]. intros a L. apply app_nth1. lia. }
  destruct (append1 grow h s x) as [h1 s1]. destruct A as (A1 & A2 & A3). specialize (IH h1 s1 A1 A2).
  destruct (add_schemas grow h1 s1 l) as [h' s']. destruct IH as (B1 & B2 & B3). split; [exact B1|]. split; [exact B2|]. intros a L. rewrite B3, A3 by exact L. reflexivity.
Qed.
Theorem C89_callers_partial : forall h ts id opts calls,
  (forall s, In (NoSchemas s) opts -> sl_len s = sl_cap s) -> (forall a i x, ~ In (NWrite a i x) calls) ->
  forall a, a < length h -> nth a (st_heap (fst (conn_calls h ts id opts calls))) [] = nth a h [].
Proof.
  intros h ts id opts calls F W a L. unfold ModelConn.conn_calls. pose proof (made h ts id opts) as M.
  assert (Eh : fst (new_conn (T := T) h ts id opts) = h ++ [[]]) by reflexivity.
  destruct (new_conn h ts id opts) as [h' c]. cbn [fst snd] in M, Eh. subst h'. destruct M as (_ & _ & _ & _ & _ & _ & M).
  assert (Q : sl_arr (n_schemas c) < length h -> sl_len (n_schemas c) = sl_cap (n_schemas c)).
  { destruct M as [(b & o & r & E & P & _)|(_ & ->)]; [|reflexivity]. destruct o as [|s| | |]; try discriminate P. injection P as <-. intros _. apply F. rewrite E. apply in_elt. }
  assert (G : forall l st, (forall a i x, ~ In (NWrite a i x) l) -> length h <= length (st_heap st) ->
    (sl_arr (n_schemas (st_conn st)) < length h -> sl_len (n_schemas (st_conn st)) = sl_cap (n_schemas (st_conn st))) ->
    Forall (fun b => length h <= b) (st_held st) -> nth a (st_heap (fst (ncalls grow span st l))) [] = nth a (st_heap st) []).
  { clear - L. induction l as [|o l IH]; intros st W N Q K; [reflexivity|]. cbn [ncalls].
    assert (A : let st' := fst (ncall_step grow span st o) in length h <= length (st_heap st') /\
      (sl_arr (n_schemas (st_conn st')) < length h -> sl_len (n_schemas (st_conn st')) = sl_cap (n_schemas (st_conn st')))
      /\ Forall (fun b => length h <= b) (st_held st') /\ nth a (st_heap st') [] = nth a (st_heap st) []).
    { destruct o; cbn [ncall_step fst]; cbn zeta; try (split; [exact N|]; split; [exact Q|]; split; [exact K|reflexivity]).
      - cbn. rewrite app_length. cbn. split; [lia|]. split; [reflexivity|]. split; [exact K|]. apply app_nth1. lia.
      - pose proof (quiet_add (length h) l0 (st_heap st) _ N Q) as A. destruct (add_schemas grow (st_heap st) (n_schemas (st_conn st)) l0) as [h' s'].
        destruct A as (A1 & A2 & A3). cbn. split; [exact A1|]. split; [exact A2|]. split; [exact K|apply A3, L].
      - cbn. rewrite app_length. cbn. split; [lia|]. split; [exact Q|]. split; [apply Forall_app; split; [exact K|repeat constructor; exact N]|]. apply app_nth1. lia.
      - destruct (W a0 i v). left. reflexivity.
      - destruct (nth_error (st_held st) k) as [b|] eqn:E; [|split; [exact N|]; split; [exact Q|]; split; [exact K|reflexivity]].
        rewrite Forall_forall in K. pose proof (K b (nth_error_In _ _ E)) as B. cbn. rewrite put_length. split; [exact N|]. split; [exact Q|]. split; [apply Forall_forall, K|].
        apply put_other. lia. }
    destruct (ncall_step grow span st o) as [st' r]. cbn [fst] in A. destruct A as (A1 & A2 & A3 & A4).
    specialize (IH st' ltac:(intros b i x I; apply (W b i x); right; exact I) A1 A2 A3). destruct (ncalls grow span st' l) as [st'' rs]. cbn [fst] in *. rewrite IH. exact A4. }
  rewrite G; cbn [st_heap st_conn st_held]; [apply app_nth1, L|exact W|rewrite app_length; lia|exact Q|constructor].
Qed.
(** Without a tracer context Span panics. *)
Theorem C89_span_refuted : forall h ts id opts, Forall (fun o => @gives_tracer T o = None) opts ->
  snd (conn_calls h ts id opts [NSpan]) = [NRes Panic].
Proof.
  intros h ts id opts N. unfold ModelConn.conn_calls. pose proof (made h ts id opts) as (_ & _ & _ & M & _). destruct (new_conn h ts id opts) as [h' c]. cbn [snd] in M.
  cbn. assert (E : n_tracer c = None) by (refine (is_last_fun _ _ _ _ _ M _); right; split; [exact N|reflexivity]). rewrite E. reflexivity.
Qed.
End Conn.
Print Assumptions C89_connection_partial.
Print Assumptions C89_shared_refuted.
Print Assumptions C89_overwritten_refuted.
Print Assumptions C89_two_connections_refuted.
Print Assumptions C89_callers_partial.
Print Assumptions C89_span_refuted.

(** the array a, b with room for two more; the slice of its first two elements *)
Example C89_example : let h := [["a"; "b"; ""; ""]; ["c"]]%string in let s := mkSlice 0 0 2 4 in let opts := [NoUser "u"; NoSchemas s; NoID 7; NoUser "w"] in
  let calls := [NUser; NWrite 1 0 "z"; NSetSchemas ["b"; "d"]; NSchemas; NScribble 0 0 "y"; NSchemas; NSetDatabase "e"; NSchemas; NID; NTimestamp; NSpanContext] in
  lies h s /\ Forall (keeps_off (T := nat) h opts) calls
  /\ snd (conn_calls (fun n => 2 * n) (fun t : nat => t) h 5 6 opts calls)
    = [NStr "w"; NUnit; NUnit; NList ["a"; "b"; "d"]; NUnit; NList ["a"; "b"; "d"]; NUnit; NList []; NNum 7; NNum 5; NCtx None]%string.
Proof.
  cbv zeta. split; [unfold lies; cbn; lia|]. split; [|reflexivity].
  repeat constructor; cbn; try lia; intros (s & E & A); try discriminate E. injection E as <-. discriminate A.
Qed.
(** the two connections of one slice: both end up with the schema the second one added *)
Example C89_two_example : let h := [["a"; ""]]%string in let s := mkSlice 0 0 1 2 in
  let run g t a := fst (conn_calls (T := nat) (fun n => n) (fun t => t) g t t [NoSchemas s] [NSetSchemas [a]]) in
  let p := run h 1%N "x"%string in let q := run (st_heap p) 2%N "y"%string in
  elems (st_heap q) (n_schemas (st_conn p)) = ["a"; "y"]%string /\ elems (st_heap q) (n_schemas (st_conn q)) = ["a"; "y"]%string.
Proof. split; reflexivity. Qed.
