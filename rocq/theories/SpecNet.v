(** Specification of the stack, the connection registry and the session, written without the
    model's helpers. *)
From Verif Require Import GoBase ModelUtil ModelNet.

(** ** A stack: a list whose head is the newest object. *)
Definition lifo_step {A} (l : list (option A)) (o : stack_op A) : list (option A) * stack_out A :=
  match o with
  | OpPush x => (x :: l, OutUnit)
  | OpPop => match l with [] => ([], OutObj None) | x :: l' => (l', OutObj x) end
  | OpPeek => (l, OutObj (match l with [] => None | x :: _ => x end))
  | OpSize => (l, OutSize (length l))
  end.
Fixpoint lifo_run {A} (l : list (option A)) (ops : list (stack_op A)) : list (stack_out A) :=
  match ops with
  | [] => []
  | o :: ops' => let (l', r) := lifo_step l o in r :: lifo_run l' ops'
  end.

(** ** A registry of connections: just the registered connections. *)
Definition registry := list conn.
Definition find_id (r : registry) (n : N) : option conn := find (fun c => N.eqb (conn_id c) n) r.
Definition find_uuid (r : registry) (u : N) : option conn := find (fun c => N.eqb (conn_uuid c) u) r.

(** What each call should do to the registry and answer. *)
Inductive registry_step : registry -> mop -> registry -> mout -> Prop :=
| rs_add_dup r c :
    (exists d, In d r /\ (conn_uuid d = conn_uuid c \/ conn_id d = conn_id c)) ->
    registry_step r (MAdd c) r (MRes (Err ErrExist))
| rs_add r c :
    (forall d, In d r -> conn_uuid d <> conn_uuid c /\ conn_id d <> conn_id c) ->
    registry_step r (MAdd c) (c :: r) (MRes (Ok tt))
| rs_update_missing r f t :
    (forall d, In d r -> conn_id d <> conn_id f) ->
    registry_step r (MUpdate f t) r (MRes (Err ErrNotExist))
| rs_update r1 d r2 f t :
    conn_id d = conn_id f ->
    registry_step (r1 ++ d :: r2) (MUpdate f t) (t :: r1 ++ r2) (MRes (Ok tt))
| rs_remove r c :
    registry_step r (MRemove c) (filter (fun d => negb (N.eqb (conn_id d) (conn_id c))) r) (MRes (Ok tt))
| rs_remove_uid r n :
    registry_step r (MRemoveUID n) (filter (fun d => negb (N.eqb (conn_id d) n)) r) MUnit
| rs_remove_uuid r u :
    registry_step r (MRemoveUUID u) (filter (fun d => negb (N.eqb (conn_uuid d) u)) r) MUnit
| rs_close r closes snap :
    Permutation snap r ->
    registry_step r (MClose closes snap) (filter (fun d => negb (closes d)) r)
                  (MClosed snap (existsb (fun d => negb (closes d)) r)).
(** The order in which a registry lists its connections is immaterial. *)
Inductive registry_run : registry -> list mop -> registry -> list mout -> Prop :=
| rr_nil r r' : Permutation r r' -> registry_run r [] r' []
| rr_cons r r0 o r' x ops r'' xs :
    Permutation r r0 -> registry_step r0 o r' x -> registry_run r' ops r'' xs ->
    registry_run r (o :: ops) r'' (x :: xs).

(** The connections a call mentions. *)
Definition mentions (o : mop) : list conn :=
  match o with
  | MAdd c | MRemove c => [c]
  | MUpdate f t => [f; t]
  | _ => []
  end.

(** Client discipline for one call: a connection passed to RemoveConn or as the [from] of
    UpdateConn never shares just one of its two keys with a registered connection, and UpdateConn
    keeps the keys.  AddConn, the removals by key and Close are unrestricted. *)
Definition no_half_match (s : mgr) (c : conn) : Prop :=
  forall d, In d (conns s) -> (conn_id d = conn_id c <-> conn_uuid d = conn_uuid c).
Definition fits (s : mgr) (o : mop) : Prop :=
  match o with
  | MRemove c => no_half_match s c
  | MUpdate f t => no_half_match s f /\ conn_id f = conn_id t /\ conn_uuid f = conn_uuid t
  | _ => True
  end.
Inductive fitting_run : mgr -> list mop -> mgr -> list mout -> Prop :=
| fit_nil s : fitting_run s [] s []
| fit_cons s o s' r ops s'' rs :
    fits s o -> mop_enabled s o -> mgr_step s o = (s', r) -> fitting_run s' ops s'' rs ->
    fitting_run s (o :: ops) s'' (r :: rs).

(** Client discipline for a whole program (used for concurrent calls): over everything the program
    mentions, a connection ID and a UUID identify each other, and UpdateConn replaces a connection
    by one with the same ID. *)
Definition keys_consistent (cs : list conn) : Prop :=
  forall c d, In c cs -> In d cs -> (conn_id c = conn_id d <-> conn_uuid c = conn_uuid d).
Definition update_keeps_id (o : mop) : Prop :=
  match o with MUpdate f t => conn_id f = conn_id t | _ => True end.
Definition disciplined (ops : list mop) : Prop :=
  keys_consistent (flat_map mentions ops) /\ Forall update_keeps_id ops.

(** The two indexes of a manager agree and hold one set of connections. *)
Definition indexes_agree (s : mgr) : Prop :=
  (forall c, lookup_by_uid s (conn_id c) = Some c <-> lookup_by_uuid s (conn_uuid c) = Some c) /\
  (forall c, In c (conns s) <-> lookup_by_uid s (conn_id c) = Some c) /\
  NoDup (conns s).

(** ** Session attributes: what the calls should answer. *)
Record view := mkView { v_user : string; v_db : string; v_schemas : list string }.
Fixpoint add_new (l : list string) (xs : list string) : list string :=
  match xs with
  | [] => l
  | x :: xs' => add_new (if in_dec string_dec x l then l else l ++ [x]) xs'
  end.
Definition view_step (v : view) (o : sop) : view * sout :=
  match o with
  | SSetUser u => (mkView u (v_db v) (v_schemas v), SUnit)
  | SSetDatabase db => (mkView (v_user v) db [], SUnit)
  | SSetSchemas l => (mkView (v_user v) (v_db v) (add_new (v_schemas v) l), SUnit)
  | SUser => (v, SStr (v_user v))
  | SDatabase => (v, SStr (v_db v))
  | SSchemas => (v, SList (v_schemas v))
  | SScribble _ _ _ => (v, SUnit)            (* a caller's own slice: no effect *)
  end.
Fixpoint view_run (v : view) (ops : list sop) : list sout :=
  match ops with
  | [] => []
  | o :: ops' => let (v', r) := view_step v o in r :: view_run v' ops'
  end.
