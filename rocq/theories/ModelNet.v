(** Model of sql/net/conn_impl.go and sql/net/conn_manager_impl.go. *)
From Verif Require Import GoBase.

(** ** Connections as the manager sees them *)

(** conn_impl.go:32-43.  The manager only uses the identity of the object and its two
    immutable keys: [UUID()] (conn_impl.go:170-172) and [ID()] (175-177).
    UUIDs and IDs are numbers. *)
Record conn := mkConn { conn_obj : nat; conn_uuid : N; conn_id : N }.

(** conn_manager_impl.go:26-30: two maps; the mutex is the atomicity of each step below. *)
Record mgr := mkMgr { uid_map : list (N * conn); uuid_map : list (N * conn) }.

(** conn_manager_impl.go:33-39 *)
Definition new_mgr : mgr := mkMgr [] [].

(** conn_manager_impl.go:93-98 *)
Definition lookup_by_uid (cm : mgr) (cid : N) : option conn := mget N.eqb cid (uid_map cm).
(** conn_manager_impl.go:101-106 *)
Definition lookup_by_uuid (cm : mgr) (u : N) : option conn := mget N.eqb u (uuid_map cm).

(** conn_manager_impl.go:42-59 *)
Definition add_conn (cm : mgr) (c : conn) : mgr * result unit :=
  match lookup_by_uuid cm (conn_uuid c) with
  | Some _ => (cm, Err ErrExist)
  | None =>
      match lookup_by_uid cm (conn_id c) with
      | Some _ => (cm, Err ErrExist)
      | None =>
          (mkMgr (mset N.eqb (conn_id c) c (uid_map cm))
                 (mset N.eqb (conn_uuid c) c (uuid_map cm)), Ok tt)
      end
  end.

(** conn_manager_impl.go:62-79: both maps are written under the keys of [from]. *)
Definition update_conn (cm : mgr) (from to : conn) : mgr * result unit :=
  match lookup_by_uuid cm (conn_uuid from) with
  | None => (cm, Err ErrNotExist)
  | Some _ =>
      match lookup_by_uid cm (conn_id from) with
      | None => (cm, Err ErrNotExist)
      | Some _ =>
          (mkMgr (mset N.eqb (conn_id from) to (uid_map cm))
                 (mset N.eqb (conn_uuid from) to (uuid_map cm)), Ok tt)
      end
  end.

(** conn_manager_impl.go:82-90: the values of the UUID map; Go's iteration order is any
    permutation of this list. *)
Definition conns (cm : mgr) : list conn := map snd (uuid_map cm).

(** conn_manager_impl.go:109-115 *)
Definition remove_conn (cm : mgr) (c : conn) : mgr :=
  mkMgr (mdel N.eqb (conn_id c) (uid_map cm)) (mdel N.eqb (conn_uuid c) (uuid_map cm)).

(** conn_manager_impl.go:118-124 *)
Definition remove_conn_by_uid (cm : mgr) (cid : N) : mgr :=
  match lookup_by_uid cm cid with None => cm | Some c => remove_conn cm c end.
(** conn_manager_impl.go:127-133 *)
Definition remove_conn_by_uuid (cm : mgr) (u : N) : mgr :=
  match lookup_by_uuid cm u with None => cm | Some c => remove_conn cm c end.

(** conn_manager_impl.go:141-155.  [snapshot] is what [Conns()] returned, [closes c] is whether
    [c.Close()] returned nil.  Result: final state, the log of Close calls, and whether an error
    is returned. *)
Fixpoint close_each (closes : conn -> bool) (cm : mgr) (snapshot : list conn)
  : mgr * list conn * bool :=
  match snapshot with
  | [] => (cm, [], false)
  | c :: rest =>
      let cm' := if closes c then remove_conn cm c else cm in
      let '(cm'', log, failed) := close_each closes cm' rest in
      (cm'', c :: log, (negb (closes c) || failed)%bool)
  end.

(** conn_manager_impl.go:141-163 Close and Stop *)
Definition mgr_close (closes : conn -> bool) (snapshot : list conn) (cm : mgr) :=
  close_each closes cm snapshot.

(** *** Sequential histories *)
Inductive mop :=
| MAdd (c : conn) | MUpdate (from to : conn) | MRemove (c : conn)
| MRemoveUID (cid : N) | MRemoveUUID (u : N)
| MClose (closes : conn -> bool) (snapshot : list conn).

Inductive mout := MUnit | MRes (r : result unit) | MClosed (log : list conn) (failed : bool).

Definition mgr_step (cm : mgr) (o : mop) : mgr * mout :=
  match o with
  | MAdd c => let (s, r) := add_conn cm c in (s, MRes r)
  | MUpdate f t => let (s, r) := update_conn cm f t in (s, MRes r)
  | MRemove c => (remove_conn cm c, MRes (Ok tt))
  | MRemoveUID n => (remove_conn_by_uid cm n, MUnit)
  | MRemoveUUID u => (remove_conn_by_uuid cm u, MUnit)
  | MClose f snap => let '(s, log, failed) := mgr_close f snap cm in (s, MClosed log failed)
  end.

(** The snapshot taken by Close is some enumeration of the registered connections. *)
Definition mop_enabled (cm : mgr) (o : mop) : Prop :=
  match o with MClose _ snap => Permutation snap (conns cm) | _ => True end.

Inductive mgr_run : mgr -> list mop -> mgr -> list mout -> Prop :=
| run_nil s : mgr_run s [] s []
| run_cons s o s' r ops s'' rs :
    mop_enabled s o -> mgr_step s o = (s', r) -> mgr_run s' ops s'' rs ->
    mgr_run s (o :: ops) s'' (r :: rs).

(** *** Concurrent executions: one action per lock region *)
Inductive action :=
| AAdd (c : conn)                       (* AddConn: one region, 42-59 *)
| AUpdate (from to : conn)              (* UpdateConn: one region, 62-79 *)
| ARemove (c : conn)                    (* RemoveConn: one region, 109-115 *)
| ALookupUID (cid : N)                  (* RemoveConnByUID, first region, 119 *)
| ALookupUUID (u : N)                   (* RemoveConnByUUID, first region, 128 *)
| ARemoveFound                          (* their second region, 123 / 132 *)
| ASnapshot (closes : conn -> bool)     (* Close: the Conns() region, 143 *)
| ACloseOne (c : conn) (ok : bool).     (* Close: one loop round, 145-152 *)

Record thread := mkThread { found : option conn; todo : list action }.

(** The calls a goroutine makes, as lock regions. *)
Definition actions_of (o : mop) : list action :=
  match o with
  | MAdd c => [AAdd c]
  | MUpdate f t => [AUpdate f t]
  | MRemove c => [ARemove c]
  | MRemoveUID n => [ALookupUID n; ARemoveFound]
  | MRemoveUUID u => [ALookupUUID u; ARemoveFound]
  | MClose f _ => [ASnapshot f]
  end.
Definition thread_of (prog : list mop) : thread := mkThread None (flat_map actions_of prog).

(** One lock region executed by one goroutine. *)
Inductive act_step : mgr -> thread -> mgr -> thread -> Prop :=
| as_add s f c rest : act_step s (mkThread f (AAdd c :: rest)) (fst (add_conn s c)) (mkThread f rest)
| as_update s f a b rest :
    act_step s (mkThread f (AUpdate a b :: rest)) (fst (update_conn s a b)) (mkThread f rest)
| as_remove s f c rest :
    act_step s (mkThread f (ARemove c :: rest)) (remove_conn s c) (mkThread f rest)
| as_uid s f n rest :
    act_step s (mkThread f (ALookupUID n :: rest)) s (mkThread (lookup_by_uid s n) rest)
| as_uuid s f u rest :
    act_step s (mkThread f (ALookupUUID u :: rest)) s (mkThread (lookup_by_uuid s u) rest)
| as_found s f rest :
    act_step s (mkThread f (ARemoveFound :: rest))
             (match f with Some c => remove_conn s c | None => s end) (mkThread None rest)
| as_snap s f closes snap rest :
    Permutation snap (conns s) ->
    act_step s (mkThread f (ASnapshot closes :: rest)) s
             (mkThread f (map (fun c => ACloseOne c (closes c)) snap ++ rest))
| as_close s f c ok rest :
    act_step s (mkThread f (ACloseOne c ok :: rest))
             (if ok then remove_conn s c else s) (mkThread f rest).

(** A scheduler step runs one region of one goroutine. *)
Inductive sys_step : mgr * list thread -> mgr * list thread -> Prop :=
| sys_one s s' pre t t' post :
    act_step s t s' t' -> sys_step (s, pre ++ t :: post) (s', pre ++ t' :: post).
Inductive sys_steps : mgr * list thread -> mgr * list thread -> Prop :=
| sys_refl x : sys_steps x x
| sys_trans x y z : sys_step x y -> sys_steps y z -> sys_steps x z.

(** ** A single connection *)

(** conn_impl.go:101-110.  [outcome n] is whether the n-th call of the underlying
    net.Conn.Close returns nil; [calls] counts those calls. *)
Record closer := mkCloser { is_closed : bool; calls : nat }.
Definition new_closer : closer := mkCloser false 0.   (* conn_impl.go:50 *)
Definition conn_close (outcome : nat -> bool) (c : closer) : closer * bool (* nil error? *) :=
  if is_closed c then (c, true)
  else if outcome (calls c) then (mkCloser true (S (calls c)), true)
  else (mkCloser false (S (calls c)), false).
Fixpoint close_n (outcome : nat -> bool) (n : nat) (c : closer) : closer * list bool :=
  match n with
  | O => (c, [])
  | S n' => let (c', r) := conn_close outcome c in
            let (c'', rs) := close_n outcome n' c' in (c'', r :: rs)
  end.

(** *** Session attributes, with the slices a caller can hold.
    [cells] is the memory of string slices; [c_schemas] is the address held by the connection.
    Simplification: append grows the connection's own array in place; Go may also move it to a
    new array, which no caller can observe since only [Schemas] hands out addresses. *)
Record session := mkSession {
  c_user : string; c_db : string; c_schemas : nat; cells : list (list string) }.

(** conn_impl.go:46-63 without options: schemas = []string{} *)
Definition new_session : session := mkSession "" "" 0 [[]].

Definition read_cell (s : session) (a : nat) : list string := nth a (cells s) [].
Fixpoint update_nth {A} (n : nat) (x : A) (l : list A) : list A :=
  match n, l with
  | _, [] => []
  | O, _ :: l' => x :: l'
  | S n', y :: l' => y :: update_nth n' x l'
  end.
Definition write_cell (s : session) (a : nat) (v : list string) : session :=
  mkSession (c_user s) (c_db s) (c_schemas s) (update_nth a v (cells s)).
Definition alloc (s : session) (v : list string) : session * nat :=
  (mkSession (c_user s) (c_db s) (c_schemas s) (cells s ++ [v]), length (cells s)).

(** conn_impl.go:113-117 *)
Definition set_user (s : session) (u : string) : session :=
  mkSession u (c_db s) (c_schemas s) (cells s).
(** conn_impl.go:128-133: db = db; schemas = []string{} (a fresh slice) *)
Definition set_database (s : session) (db : string) : session :=
  let (s1, a) := alloc s [] in mkSession (c_user s1) db a (cells s1).
(** slices.Contains *)
Definition scontains_elem (l : list string) (x : string) : bool := existsb (String.eqb x) l.
(** conn_impl.go:144-153 *)
Fixpoint set_schemas (s : session) (schemas : list string) : session :=
  match schemas with
  | [] => s
  | x :: rest =>
      let cur := read_cell s (c_schemas s) in
      let s' := if scontains_elem cur x then s else write_cell s (c_schemas s) (cur ++ [x]) in
      set_schemas s' rest
  end.
(** conn_impl.go:156-162: make + copy, the address of a new slice *)
Definition schemas (s : session) : session * nat := alloc s (read_cell s (c_schemas s)).

(** Calls, plus a caller writing [v] into element [i] of a slice it was given by the
    [k]-th earlier call of Schemas. *)
Inductive sop :=
| SSetUser (u : string) | SSetDatabase (db : string) | SSetSchemas (l : list string)
| SUser | SDatabase | SSchemas | SScribble (k i : nat) (v : string).
Inductive sout := SUnit | SStr (s : string) | SList (l : list string).

(** State: the session and the addresses handed out so far. *)
Definition session_step (st : session * list nat) (o : sop) : session * list nat * sout :=
  let (s, held) := st in
  match o with
  | SSetUser u => (set_user s u, held, SUnit)
  | SSetDatabase db => (set_database s db, held, SUnit)
  | SSetSchemas l => (set_schemas s l, held, SUnit)
  | SUser => (s, held, SStr (c_user s))                (* conn_impl.go:120-125 *)
  | SDatabase => (s, held, SStr (c_db s))              (* conn_impl.go:136-141 *)
  | SSchemas => let (s', a) := schemas s in (s', held ++ [a], SList (read_cell s' a))
  | SScribble k i v =>
      match nth_error held k with
      | Some a => (write_cell s a (update_nth i v (read_cell s a)), held, SUnit)
      | None => (s, held, SUnit)
      end
  end.
Fixpoint session_run (st : session * list nat) (ops : list sop) : list sout :=
  match ops with
  | [] => []
  | o :: ops' => let '(s', h', r) := session_step st o in r :: session_run (s', h') ops'
  end.
