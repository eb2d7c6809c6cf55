(** Property C76: executors and functions made from options. *)
From Verif Require Import GoBase FactsBase ModelAggr ModelFn ModelFunc SpecFunc ProofFunc.

Section C76.
Context {V R A : Type} (builtin : exe -> list (option V) -> result R) (of_text : string -> option V).

(** An executor has the name, argument names, type and code of the last option of each kind ... *)
Theorem C76_executor : forall opts : list (xopt V R), let x := make_executor opts in
  is_last gives_name opts "" (x_name x) /\ is_last gives_args opts [] (x_args x)
  /\ is_last gives_type opts UnknownFunctionType (x_type x) /\ is_last gives_code opts (fun _ => Err ErrOther) (x_fn x).
Proof. intro opts. exact (executor_last opts (mkExecutor "" [] UnknownFunctionType (fun _ => Err ErrOther))). Qed.
(** ... and so has one of the package's own functions, which has its own name, type and code where no option gives others. *)
Theorem C76_for_name : forall name opts e, new_executor name = Ok e -> exists x, executor_for_name builtin name opts = Ok x
  /\ is_last gives_name opts (exe_name e) (x_name x) /\ is_last gives_args opts [] (x_args x)
  /\ is_last gives_type opts (exe_type e) (x_type x) /\ is_last gives_code opts (builtin e) (x_fn x).
Proof.
  intros name opts e E. unfold executor_for_name. rewrite E. exists (builtin_executor builtin e opts). split; [reflexivity|].
  exact (executor_last opts (mkExecutor (exe_name e) [] (exe_type e) (builtin e))).
Qed.
(** Execute calls the code with the values of a list, the one value it is given, nothing for nil, or a map's values of the
    executor's arguments. *)
Theorem C76_execute : forall (x : executor V R) a, match a with XMap m => NoDup (map fst m) | _ => True end ->
  exists l, called_with of_text (x_args x) a l /\ x_execute of_text x a = x_fn x l.
Proof.
  intros x a N. destruct (called_total of_text (x_args x) a N) as (l & C). exists l. split; [exact C|]. exact (execute_called of_text x a l C).
Qed.
(** A cast function converts its one argument, and rejects any other number of them. *)
Theorem C76_cast_partial : forall name cast, let x := cast_executor (V := V) (R := R) name cast in
  x_name x = name /\ x_type x = CastFunction /\
  (forall v, x_execute of_text x (XOne v) = cast (Some v)) /\ (forall v, x_execute of_text x (XList [v]) = cast v) /\
  (forall l, List.length l <> 1 -> x_execute of_text x (XList l) = Err ErrInvalid).
Proof.
  intros name cast x. subst x. repeat split. intros [|a [|b l]] N; [reflexivity|destruct (N eq_refl)|reflexivity].
Qed.
(** A function has the name, type and arguments of the last option that gives them. *)
Theorem C76_function : forall opts : list (fopt V R A), let f := make_function opts in
  is_last gives_fname opts "" (fu_name f) /\ is_last gives_ftype opts UnknownFunctionType (fu_type f) /\ is_last gives_fargs opts [] (fu_args f).
Proof.
  intro opts. set (f0 := mkFunction UnknownFunctionType "" None None [] : function V R A). split; [|split].
  - apply (is_last_fold apply_fopt (@fu_name V R A) gives_fname) with (c := f0). intros c []; reflexivity.
  - apply (is_last_fold apply_fopt (@fu_type V R A) gives_ftype) with (c := f0). intros c []; try reflexivity. cbn. destruct (type_for_name s); reflexivity.
  - apply (is_last_fold apply_fopt (@fu_args V R A) gives_fargs) with (c := f0). intros c []; reflexivity.
Qed.
(** A name that is not in upper case gives no type: the function is ABS but not a mathematical one. *)
Theorem C76_type_refuted : let f := make_function (V := V) (R := R) (A := A) [FoName "abs"] in
  fu_name f = "ABS"%string /\ fu_type f = UnknownFunctionType /\ fu_type (make_function (V := V) (R := R) (A := A) [FoName "ABS"]) = MathFunction.
Proof. repeat split. Qed.
(** A function made with an executor, or several, uses the last, whatever else it is told and asked, ... *)
Theorem C76_given : forall before x after (calls : list (fcall V R)) opts,
  Forall (fun o => gives_executor (A := A) o = None) after ->
  let f := make_function (before ++ FoExec x :: after) in
  snd (function_executor builtin (fcalls builtin f calls) opts) = Ok x
  /\ (Forall (fun o => renames o = false) after -> fu_name f = x_name x)
  /\ (Forall (fun o => retypes o = false) after -> fu_type f = x_type x).
Proof.
  intros before x after calls opts F f. unfold f, make_function. rewrite fold_left_app. cbn [fold_left].
  set (g := fold_left apply_fopt before _). split; [|split].
  - pose proof (after_exec after (apply_fopt g (FoExec x)) F) as E. cbn [apply_fopt fu_exec] in E.
    pose proof (fcalls_exec builtin _ calls x E) as E'. unfold function_executor. cbn [apply_fopt]. rewrite E'. reflexivity.
  - intro N. rewrite after_name by exact N. reflexivity.
  - intro N. rewrite after_type by exact N. reflexivity.
Qed.
(** ... one without gets the package's function of its name, with the function's arguments ... *)
Theorem C76_by_name : forall (f : function V R A) opts e, fu_exec f = None -> new_executor (fu_name f) = Ok e ->
  exists x, snd (function_executor builtin f opts) = Ok x /\ x_args x = fu_args f
    /\ is_last gives_name opts (exe_name e) (x_name x) /\ is_last gives_type opts (exe_type e) (x_type x)
    /\ is_last gives_code opts (builtin e) (x_fn x).
Proof.
  intros f opts e N E. unfold function_executor. rewrite N. unfold executor_for_name. rewrite E. cbn [rbind snd].
  exists (builtin_executor builtin e (opts ++ [XoArgs (fu_args f)])). split; [reflexivity|]. unfold builtin_executor. rewrite fold_left_app. cbn [fold_left apply_xopt].
  split; [reflexivity|]. cbn [x_name x_type x_fn]. destruct (executor_last opts (mkExecutor (exe_name e) [] (exe_type e) (builtin e))) as (L1 & _ & L3 & L4).
  split; [exact L1|]. split; [exact L3|exact L4].
Qed.
(** ... and keeps it, as it keeps its aggregator. *)
Theorem C76_kept : forall (f : function V R A) opts opts' groups groups' calls,
  (forall x, snd (function_executor builtin f opts) = Ok x ->
     snd (function_executor builtin (fcalls builtin (fst (function_executor builtin f opts)) calls) opts') = Ok x) /\
  (forall a, snd (function_aggregator f groups) = Ok a ->
     snd (function_aggregator (fcalls builtin (fst (function_aggregator f groups)) calls) groups') = Ok a).
Proof.
  intros f opts opts' groups groups' calls. split.
  - intros x E. apply executor_kept in E. apply (fcalls_exec builtin _ calls) in E. unfold function_executor at 1. rewrite E. reflexivity.
  - intros a E. apply aggregator_kept in E. apply (fcalls_aggr builtin _ calls) in E. unfold function_aggregator at 1. rewrite E. reflexivity.
Qed.

(** The aggregator a function is made with is never used: it gets one of the package's, or none. *)
Theorem C76_aggregator_refuted : forall (opts : list (fopt V R A)) (calls : list (fcall V R)) groups name a,
  snd (function_aggregator (fcalls builtin (make_function opts) calls) groups) <> Ok (GivenAggr name a).
Proof.
  intros opts calls groups. apply never_given. apply no_given. intros name a. unfold make_function. rewrite no_given_opts; [discriminate|reflexivity].
Qed.
(** The one it gets is the package's aggregator of the name given last, with the arguments given last. *)
Theorem C76_own_aggregator : forall (opts : list (fopt V R A)) (calls : list (fcall V R)) groups a,
  snd (function_aggregator (fcalls builtin (make_function opts) calls) groups) = Ok a ->
  exists name k args, a = OwnAggr k args /\ new_aggregator_kind name = Ok k
    /\ is_last gives_fname opts "" name /\ is_last gives_fargs opts [] args.
Proof.
  intros opts calls groups a H. destruct (C76_function opts) as (N & _ & L). set (f0 := make_function opts) in *.
  assert (N0 : fu_aggr f0 = None) by (unfold f0, make_function; rewrite no_given_opts; reflexivity).
  set (own := fun f : function V R A => fu_name f = fu_name f0 /\ fu_args f = fu_args f0
    /\ forall x, fu_aggr f = Some x -> exists k, x = OwnAggr k (fu_args f0) /\ new_aggregator_kind (fu_name f0) = Ok k).
  assert (G : forall f g, own f -> own (fst (function_aggregator f g)) /\ forall x, snd (function_aggregator f g) = Ok x -> exists k, x = OwnAggr k (fu_args f0) /\ new_aggregator_kind (fu_name f0) = Ok k).
  { intros f g O. pose proof O as (O1 & O2 & O3). unfold function_aggregator. destruct (fu_aggr f) as [y|] eqn:E; cbn [fst snd].
    - split; [exact O|]. intros x [= <-]. apply O3. reflexivity.
    - destruct (new_aggregator_kind (fu_name f)) as [k| |] eqn:K; cbn [fst snd]; try (split; [exact O|discriminate]).
      destruct (new_aggr k _) as [z| |]; cbn [fst snd]; try (split; [exact O|discriminate]).
      rewrite O1 in K. rewrite O2. split; [|intros x [= <-]; eauto]. split; [exact O1|]. split; [reflexivity|]. cbn [fu_aggr]. intros x [= <-]. eauto. }
  assert (C : forall l f, own f -> own (fcalls builtin f l)).
  { induction l as [|c l IH]; intros f O; [exact O|]. apply IH. destruct c as [o|g]; cbn [fstep]; [|apply G; exact O].
    destruct O as (O1 & O2 & O3). unfold function_executor. destruct (fu_exec f); cbn [fst]; [repeat split; assumption|].
    destruct (executor_for_name _ _ _); cbn [fst]; repeat split; assumption. }
  assert (O0 : own f0) by (split; [reflexivity|]; split; [reflexivity|]; rewrite N0; discriminate).
  destruct (proj2 (G _ groups (C calls f0 O0)) a H) as (k & -> & K). exists (fu_name f0), k, (fu_args f0). repeat split; assumption.
Qed.
(** NULL cannot be cast, nor the value in a row given as a map. *)
Theorem C76_cast_refuted : forall name cast m,
  x_execute of_text (cast_executor (R := R) name cast) XNil = Err ErrInvalid /\ x_execute of_text (cast_executor name cast) (XMap m) = Err ErrInvalid.
Proof. intros. split; reflexivity. Qed.
End C76.
Print Assumptions C76_executor.
Print Assumptions C76_for_name.
Print Assumptions C76_execute.
Print Assumptions C76_cast_partial.
Print Assumptions C76_function.
Print Assumptions C76_type_refuted.
Print Assumptions C76_given.
Print Assumptions C76_by_name.
Print Assumptions C76_kept.
Print Assumptions C76_aggregator_refuted.
Print Assumptions C76_own_aggregator.
Print Assumptions C76_cast_refuted.

(** No arguments at all are an asterisk to Arguments.IsAsterisk, besides the asterisk itself. *)
Theorem C76_asterisk : forall args, args_is_asterisk args = true <-> args = [] \/ args = ["*"%string].
Proof.
  intros [|a [|b l]]; cbn; split; intro H; try discriminate; try tauto.
  - right. apply String.eqb_eq in H. subst. reflexivity.
  - destruct H as [H|[= ->]]; [discriminate H|reflexivity].
  - destruct H as [H|H]; discriminate H.
Qed.
Print Assumptions C76_asterisk.

Example C76_own_example : snd (function_aggregator (V := string) (R := string) (A := unit) (make_function [FoArgs ["a"]; FoName "sum"; FoArgs ["b"]]) ["g"]) = Ok (OwnAggr SUM ["b"%string]).
Proof. reflexivity. Qed.

(** A doubling function, found by its executor; an argument that is not in the map is passed as its name. *)
Definition twice : executor string string := make_executor [XoName "TWICE"; XoArgs ["a"; "b"]; XoFunc (fun l => match l with [Some a; Some b] => Ok (a ++ b)%string | _ => Err ErrInvalid end)].
Example C76_example : snd (function_executor (A := unit) (fun _ _ => Panic) (make_function [FoName "abs"; FoExec twice; FoArgs ["x"]]) [XoName "y"]) = Ok twice
  /\ x_execute Some twice (XMap [("a", Some "1")]) = Ok "1b"%string
  /\ called_with Some (x_args twice) (XMap [("a", Some "1")]) [Some "1"; Some "b"]%string
  /\ snd (function_aggregator (V := string) (R := string) (make_function [FoAggr (GivenAggr "MEDIAN" tt)]) []) = Err ErrNotSupported.
Proof.
  split; [reflexivity|]. split; [reflexivity|]. split; [|reflexivity]. constructor; [constructor; [intros []|constructor]|].
  constructor; [apply lu_entry; left; reflexivity|]. constructor; [|constructor]. apply lu_none. cbn. intros [H|[]]. discriminate H.
Qed.
