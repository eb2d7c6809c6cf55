(** Model of executors and functions made from options: sql/fn/executor_impl.go, cast.go, executor_func.go and func_impl.go. *)
From Verif Require Import GoBase ModelAggr ModelFn.

Section Func.
  (** [V]: non-nil Go values, [None] being nil.  [R]: results.  [builtin]: what the function made by NewAbs etc. does with its
      arguments (math.go, arith.go, string.go, time.go; ModelFn.execute_args). *)
  Context {V R : Type} (builtin : exe -> list (option V) -> result R) (of_text : string -> option V).

  (** executor_impl.go:28-33 *)
  Record executor := mkExecutor { x_name : string; x_args : list string; x_type : ftype; x_fn : list (option V) -> result R }.

  (** executor_impl.go:36-61 *)
  Inductive xopt := XoName (s : string) | XoArgs (l : list string) | XoType (t : ftype) | XoFunc (f : list (option V) -> result R).
  Definition apply_xopt (x : executor) (o : xopt) : executor :=
    match o with
    | XoName s => mkExecutor s (x_args x) (x_type x) (x_fn x)
    | XoArgs l => mkExecutor (x_name x) l (x_type x) (x_fn x)
    | XoType t => mkExecutor (x_name x) (x_args x) t (x_fn x)
    | XoFunc f => mkExecutor (x_name x) (x_args x) (x_type x) f
    end.

  (** executor_impl.go:64-77 *)
  Definition make_executor (opts : list xopt) : executor :=
    fold_left apply_xopt opts (mkExecutor "" [] UnknownFunctionType (fun _ => Err ErrOther)).

  (** cast.go:28-47 *)
  Definition cast_executor (name : string) (cast : option V -> result R) : executor :=
    make_executor [XoName name; XoType CastFunction;
                   XoFunc (fun args => match args with [v] => cast v | _ => Err ErrInvalid end)].

  (** math.go:34-49, arith.go:32-47, string.go:30-45, time.go:30-45 with the functions of math_func.go, arith_func.go, string_func.go
      and time_func.go: the options given come after those of the function itself *)
  Definition builtin_executor (e : exe) (opts : list xopt) : executor :=
    fold_left apply_xopt opts (make_executor [XoName (exe_name e); XoType (exe_type e); XoFunc (builtin e)]).

  (** executor_func.go:22-84 *)
  Definition executor_for_name (name : string) (opts : list xopt) : result executor :=
    rbind (new_executor name) (fun e => Ok (builtin_executor e opts)).

  (** executor_impl.go:94-126 *)
  Definition x_execute (x : executor) (a : @xarg V) : result R :=
    match a with
    | XList l => x_fn x l
    | XMap m => x_fn x (map (fun n => match mget String.eqb n m with Some v => v | None => of_text n end) (x_args x))
    | XNil => x_fn x []
    | XOne v => x_fn x [Some v]
    end.

  (** ** func_impl.go *)

  (** An aggregator as far as functions know it: one of the package, or one of the user's ([A]) with its Name(). *)
  Context {A : Type}.
  Inductive aggregator := OwnAggr (k : kind) (args : list string) | GivenAggr (name : string) (a : A).
  Definition g_name (g : aggregator) : string := match g with OwnAggr k _ => kind_name k | GivenAggr n _ => n end.

  (** func_impl.go:22-28 *)
  Record function := mkFunction {
    fu_type : ftype; fu_name : string; fu_exec : option executor; fu_aggr : option aggregator; fu_args : list string }.

  (** func_impl.go:48-90.  WithFunctionExecutor(nil) and WithFunctionAggregator(nil), which panic, are left out. *)
  Inductive fopt := FoName (s : string) | FoType (t : ftype) | FoExec (x : executor) | FoAggr (a : aggregator) | FoArgs (l : list string).
  Definition apply_fopt (f : function) (o : fopt) : function :=
    match o with
    | FoName s => mkFunction (match type_for_name s with Ok t => t | _ => fu_type f end) (to_upper s) (fu_exec f) (fu_aggr f) (fu_args f)
    | FoType t => mkFunction t (fu_name f) (fu_exec f) (fu_aggr f) (fu_args f)
    | FoExec x => mkFunction (x_type x) (x_name x) (Some x) (fu_aggr f) (fu_args f)
    | FoAggr a => mkFunction AggregateFunction (g_name a) (fu_exec f) (fu_aggr f) (fu_args f)
    | FoArgs l => mkFunction (fu_type f) (fu_name f) (fu_exec f) (fu_aggr f) l
    end.
  (** func_impl.go:34-46 *)
  Definition make_function (opts : list fopt) : function :=
    fold_left apply_fopt opts (mkFunction UnknownFunctionType "" None None []).

  (** func_impl.go:141-153 *)
  Definition function_executor (f : function) (opts : list xopt) : function * result executor :=
    match fu_exec f with
    | Some x => (f, Ok x)
    | None =>
        match executor_for_name (fu_name f) (opts ++ [XoArgs (fu_args f)]) with
        | Ok x => (mkFunction (x_type x) (fu_name f) (Some x) (fu_aggr f) (fu_args f), Ok x)
        | Err e => (f, Err e)
        | Panic => (f, Panic)
        end
    end.

  (** func_impl.go:156-168 with the caller's group options [groups], aggr_func.go:41-56; the aggregators' own names are those of
      sum.go:37, avg.go:37, min.go:41, max.go:41 and count.go:37 *)
  Definition function_aggregator (f : function) (groups : list string) : function * result aggregator :=
    match fu_aggr f with
    | Some a => (f, Ok a)
    | None =>
        match new_aggregator_kind (fu_name f) with
        | Ok k =>
            match new_aggr k [OptGroups groups; OptArgs (fu_args f)] with
            | Ok _ => let a := OwnAggr k (fu_args f) in
                      (mkFunction AggregateFunction (fu_name f) (fu_exec f) (Some a) (fu_args f), Ok a)
            | Err e => (f, Err e)
            | Panic => (f, Panic)
            end
        | Err e => (f, Err e)
        | Panic => (f, Panic)
        end
    end.

  (** The calls a user may make. *)
  Inductive fcall := CallExecutor (opts : list xopt) | CallAggregator (groups : list string).
  Definition fstep (f : function) (c : fcall) : function :=
    match c with CallExecutor o => fst (function_executor f o) | CallAggregator g => fst (function_aggregator f g) end.
  Definition fcalls (f : function) (l : list fcall) : function := fold_left fstep l f.
End Func.
Arguments executor : clear implicits. Arguments xopt : clear implicits. Arguments function : clear implicits.
Arguments fopt : clear implicits. Arguments fcall : clear implicits. Arguments aggregator : clear implicits.

(** args.go:45-55 *)
Definition args_is_asterisk (args : list string) : bool :=
  match args with [a] => String.eqb a "*" | [] => true | _ => false end.
