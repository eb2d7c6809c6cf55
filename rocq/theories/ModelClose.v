(** Close of a connection called by several goroutines (sql/net/conn_impl.go:101-110).  Close takes no
    lock, so each of its accesses is a step of its own.  Simplification: the accesses to the flag are
    taken to be sequentially consistent; Go promises less for unsynchronised accesses. *)
From Verif Require Import GoBase.

(** where a goroutine is: before the test of the flag (conn_impl.go:102), before the call of the underlying Close
    (105), before the flag is set (108), or returned (true: nil) *)
Inductive pc := Testing | Calling | Setting | Returned (ok : bool).
(** conn_impl.go:32-43: the flag, the outcomes of the underlying calls so far (true: nil) and the goroutines *)
Record cstate := mkCstate { closed : bool; outcomes : list bool; routines : list pc }.

(** conn_impl.go:102-104, 105-107 and 108-109; any goroutine may take the next step, and whether the
    underlying Close succeeds is free *)
Inductive cstep : cstate -> cstate -> Prop :=
| cs_test f log a b : cstep (mkCstate f log (a ++ Testing :: b)) (mkCstate f log (a ++ (if f then Returned true else Calling) :: b))
| cs_call f log a b ok : cstep (mkCstate f log (a ++ Calling :: b)) (mkCstate f (log ++ [ok]) (a ++ (if ok then Setting else Returned false) :: b))
| cs_set f log a b : cstep (mkCstate f log (a ++ Setting :: b)) (mkCstate true log (a ++ Returned true :: b)).
(** any number of steps of Close (conn_impl.go:101-110) *)
Inductive csteps : cstate -> cstate -> Prop :=
| cs_refl s : csteps s s
| cs_more s t u : cstep s t -> csteps t u -> csteps s u.
(** n goroutines that call Close (conn_impl.go:101) on an open connection *)
Definition callers (n : nat) : cstate := mkCstate false [] (repeat Testing n).
