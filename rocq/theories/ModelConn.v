(** sql/net/conn_impl.go with its options, its tracer and the slices that callers share with it. *)
From Verif Require Import GoBase ModelNet.

(** A slice of strings: the array it points into, its offset there, its length and its capacity.
    The memory is the list of all arrays; an array never changes its size. *)
Record slice := mkSlice { sl_arr : nat; sl_off : nat; sl_len : nat; sl_cap : nat }.
Definition elems (h : list (list string)) (s : slice) : list string := firstn (sl_len s) (skipn (sl_off s) (nth (sl_arr s) h [])).
Definition put (h : list (list string)) (a i : nat) (v : string) : list (list string) := update_nth a (update_nth i v (nth a h [])) h.
(** a slice made for some elements: []string{...} or make and copy *)
Definition fresh (h : list (list string)) (l : list string) : list (list string) * slice := (h ++ [l], mkSlice (length h) 0 (length l) (length l)).

Section Conn.
  (** the capacity the Go runtime chooses for an array that must hold n elements, [grow n] or n;
      tracer contexts and their spans are abstract *)
  Context (grow : nat -> nat) {T S : Type} (span : T -> S).

  (** the builtin append for one element *)
  Definition append1 (h : list (list string)) (s : slice) (x : string) : list (list string) * slice :=
    if sl_len s <? sl_cap s
    then (put h (sl_arr s) (sl_off s + sl_len s) x, mkSlice (sl_arr s) (sl_off s) (Datatypes.S (sl_len s)) (sl_cap s))
    else let n := Datatypes.S (sl_len s) in
         (h ++ [elems h s ++ x :: repeat ""%string (grow n - n)], mkSlice (length h) 0 n (n + (grow n - n))).

  (** conn_impl.go:32-43; the embedded net.Conn and the closed flag are in ModelNet *)
  Record netconn := mkNetconn { n_db : string; n_schemas : slice; n_user : string; n_ts : N; n_uuid : N; n_id : N; n_tracer : option T }.

  (** conn_impl.go:67-99; a nil tracer context is None *)
  Inductive nopt := NoDatabase (name : string) | NoSchemas (l : slice) | NoTracer (t : option T) | NoID (id : N) | NoUser (u : string).
  Definition apply_nopt (c : netconn) (o : nopt) : netconn :=
    match o with
    | NoDatabase name => mkNetconn name (n_schemas c) (n_user c) (n_ts c) (n_uuid c) (n_id c) (n_tracer c)
    | NoSchemas l => mkNetconn (n_db c) l (n_user c) (n_ts c) (n_uuid c) (n_id c) (n_tracer c)
    | NoTracer t => mkNetconn (n_db c) (n_schemas c) (n_user c) (n_ts c) (n_uuid c) (n_id c) t
    | NoID i => mkNetconn (n_db c) (n_schemas c) (n_user c) (n_ts c) (n_uuid c) i (n_tracer c)
    | NoUser u => mkNetconn (n_db c) (n_schemas c) u (n_ts c) (n_uuid c) (n_id c) (n_tracer c)
    end.
  (** conn_impl.go:46-64; [ts] and [id] are the results of time.Now and uuid.New *)
  Definition new_conn (h : list (list string)) (ts id : N) (opts : list nopt) : list (list string) * netconn :=
    let (h', s) := fresh h [] in (h', fold_left apply_nopt opts (mkNetconn "" s "" ts id 0 None)).

  (** conn_impl.go:144-153 *)
  Fixpoint add_schemas (h : list (list string)) (s : slice) (l : list string) : list (list string) * slice :=
    match l with
    | [] => (h, s)
    | x :: l' => if scontains_elem (elems h s) x then add_schemas h s l' else let (h', s') := append1 h s x in add_schemas h' s' l'
    end.

  (** The calls; the caller can also write into an array it holds: one that was there when the
      connection was made, or the [k]-th slice that Schemas returned. *)
  Inductive ncall :=
  | NSetUser (u : string) | NSetDatabase (d : string) | NSetSchemas (l : list string) | NSetSpanContext (t : option T)
  | NUser | NDatabase | NSchemas | NTimestamp | NUUID | NID | NSpanContext | NSpan
  | NWrite (a i : nat) (v : string) | NScribble (k i : nat) (v : string).
  Inductive nout := NUnit | NStr (s : string) | NList (l : list string) | NNum (n : N) | NCtx (t : option T) | NRes (r : result S).
  Record nstate := mkNstate { st_heap : list (list string); st_conn : netconn; st_held : list nat }.

  Definition ncall_step (st : nstate) (o : ncall) : nstate * nout :=
    let h := st_heap st in let c := st_conn st in let held := st_held st in
    match o with
    (* 113-117 *)
    | NSetUser u => (mkNstate h (mkNetconn (n_db c) (n_schemas c) u (n_ts c) (n_uuid c) (n_id c) (n_tracer c)) held, NUnit)
    (* 128-133 *)
    | NSetDatabase d => let (h', s) := fresh h [] in (mkNstate h' (mkNetconn d s (n_user c) (n_ts c) (n_uuid c) (n_id c) (n_tracer c)) held, NUnit)
    | NSetSchemas l => let (h', s) := add_schemas h (n_schemas c) l in (mkNstate h' (mkNetconn (n_db c) s (n_user c) (n_ts c) (n_uuid c) (n_id c) (n_tracer c)) held, NUnit)
    (* 185-187 *)
    | NSetSpanContext t => (mkNstate h (mkNetconn (n_db c) (n_schemas c) (n_user c) (n_ts c) (n_uuid c) (n_id c) t) held, NUnit)
    (* 120-125, 136-141 *)
    | NUser => (st, NStr (n_user c))
    | NDatabase => (st, NStr (n_db c))
    (* 156-162 *)
    | NSchemas => let (h', s) := fresh h (elems h (n_schemas c)) in (mkNstate h' c (held ++ [sl_arr s]), NList (elems h' s))
    (* 165-167, 170-172, 175-177 *)
    | NTimestamp => (st, NNum (n_ts c))
    | NUUID => (st, NNum (n_uuid c))
    | NID => (st, NNum (n_id c))
    (* 190-192 *)
    | NSpanContext => (st, NCtx (n_tracer c))
    (* 195-197; StartSpan and FinishSpan (200-207) call the tracer context in the same way *)
    | NSpan => (st, NRes (match n_tracer c with Some t => Ok (span t) | None => Panic end))
    | NWrite a i v => (mkNstate (put h a i v) c held, NUnit)
    | NScribble k i v => (match nth_error held k with Some a => mkNstate (put h a i v) c held | None => st end, NUnit)
    end.
  Fixpoint ncalls (st : nstate) (l : list ncall) : nstate * list nout :=
    match l with
    | [] => (st, [])
    | o :: l' => let (st', r) := ncall_step st o in let (st'', rs) := ncalls st' l' in (st'', r :: rs)
    end.
  (** a connection made in the memory [h], and calls on it *)
  Definition conn_calls (h : list (list string)) (ts id : N) (opts : list nopt) (l : list ncall) : nstate * list nout :=
    let (h', c) := new_conn h ts id opts in ncalls (mkNstate h' c []) l.
End Conn.
