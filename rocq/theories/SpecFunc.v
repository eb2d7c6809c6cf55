(** Specification of objects made from options, and of the arguments an executor's code is called with. *)
From Verif Require Import GoBase ModelAggr ModelFn ModelFunc.

(** [x] is what the last option that [pick] recognises gives, or the default *)
Definition is_last {O X} (pick : O -> option X) (opts : list O) (default x : X) : Prop :=
  (exists before o after, opts = before ++ o :: after /\ pick o = Some x /\ Forall (fun p => pick p = None) after)
  \/ (Forall (fun p => pick p = None) opts /\ x = default).

Section Spec.
  Context {V R A : Type} (of_text : string -> option V).
  Definition gives_name (o : xopt V R) : option string := match o with XoName s => Some s | _ => None end.
  Definition gives_args (o : xopt V R) : option (list string) := match o with XoArgs l => Some l | _ => None end.
  Definition gives_type (o : xopt V R) : option ftype := match o with XoType t => Some t | _ => None end.
  Definition gives_code (o : xopt V R) : option (list (option V) -> result R) := match o with XoFunc f => Some f | _ => None end.

  (** the value of argument [n] in the map [m] (no name occurs twice in a map): the entry, or else the name itself *)
  Inductive looked_up (m : list (string * option V)) (n : string) : option V -> Prop :=
  | lu_entry v : In (n, v) m -> looked_up m n v
  | lu_none : ~ In n (map fst m) -> looked_up m n (of_text n).

  (** Execute([a]) calls the code of an executor with argument names [names] with [l] *)
  Inductive called_with (names : list string) : @xarg V -> list (option V) -> Prop :=
  | cw_list l : called_with names (XList l) l
  | cw_one v : called_with names (XOne v) [Some v]
  | cw_nil : called_with names XNil []
  | cw_map m l : NoDup (map fst m) -> Forall2 (looked_up m) names l -> called_with names (XMap m) l.

  Definition gives_executor (o : fopt V R A) : option (executor V R) := match o with FoExec x => Some x | _ => None end.
  (** the name and type an option gives a function: a name in upper case and the type of the package's function of that name,
      those of an executor, or those of an aggregator *)
  Definition gives_fname (o : fopt V R A) : option string :=
    match o with FoName s => Some (to_upper s) | FoExec x => Some (x_name x) | FoAggr g => Some (g_name g) | _ => None end.
  Definition gives_ftype (o : fopt V R A) : option ftype :=
    match o with
    | FoName s => match type_for_name s with Ok t => Some t | _ => None end
    | FoType t => Some t | FoExec x => Some (x_type x) | FoAggr _ => Some AggregateFunction | FoArgs _ => None
    end.
  Definition gives_fargs (o : fopt V R A) : option (list string) := match o with FoArgs l => Some l | _ => None end.
  Definition renames (o : fopt V R A) : bool := match o with FoName _ | FoExec _ | FoAggr _ => true | _ => false end.
  Definition retypes (o : fopt V R A) : bool := match o with FoName _ | FoExec _ | FoAggr _ | FoType _ => true | _ => false end.
End Spec.
