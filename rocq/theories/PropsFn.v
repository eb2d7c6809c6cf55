(** Properties C22-C24 and C48-C50: scalar functions. *)
From Coq Require Import Floats.SpecFloat.
From Verif Require Import GoBase ModelAggr ModelFn SpecAggr SpecFn FactsBase ProofFn ProofFloat ProofFloat2.

(** C22: function names.  The full statement, "every registered name, in any case, resolves to its
    own function, and other names are rejected", fails: LOG10 resolves to LOG, every name that starts
    with a registered one is accepted, and IsRegisteredFunction accepts whatever ends in a
    parenthesis.  What holds: *)
Theorem C22_own_executor_partial : forall name e,
  same_text name (exe_name e) -> e <> LOG10 -> new_executor name = Ok e.
Proof. exact own_executor. Qed.
Print Assumptions C22_own_executor_partial.

Example C22_own_executor_example :
  new_executor "Floor" = Ok FLOOR /\ new_executor "current_timestamp" = Ok CURRENT_TIMESTAMP /\ new_executor "%" = Ok MODOP.
Proof. repeat split. Qed.

Theorem C22_own_aggregator : forall name k,
  same_text name (kind_name k) -> new_aggregator_kind name = Ok k.
Proof. exact own_aggregator. Qed.
Print Assumptions C22_own_aggregator.

(** The name found is a prefix of the name asked for (the name itself for an operator), and a name is
    rejected only when no function name is a prefix of it. *)
Theorem C22_resolved_name_partial : forall name,
  match new_executor name with
  | Ok e => exists rest, to_upper name = (exe_name e ++ rest)%string /\ (exe_type e = ArithOperator -> rest = "")
  | Err er => er = ErrNotSupported /\
      (forall e rest, exe_type e <> ArithOperator -> to_upper name <> (exe_name e ++ rest)%string) /\
      (forall e, to_upper name <> exe_name e)
  | Panic => False
  end.
Proof. exact resolved_executor. Qed.
Print Assumptions C22_resolved_name_partial.

Theorem C22_resolved_aggregator_partial : forall name,
  match new_aggregator_kind name with
  | Ok k => exists rest, to_upper name = (kind_name k ++ rest)%string
  | Err er => er = ErrNotSupported /\ (forall k rest, to_upper name <> (kind_name k ++ rest)%string)
  | Panic => False
  end.
Proof. exact resolved_aggregator. Qed.
Print Assumptions C22_resolved_aggregator_partial.

Theorem C22_log10_refuted : new_executor "LOG10" = Ok LOG.
Proof. reflexivity. Qed.
Print Assumptions C22_log10_refuted.

(** LOG10 can never be obtained by name. *)
Theorem C22_log10_unreachable_refuted : forall name, new_executor name <> Ok LOG10.
Proof. exact log10_unreachable. Qed.
Print Assumptions C22_log10_unreachable_refuted.

Lemma upper_app a b : to_upper (a ++ b)%string = (to_upper a ++ to_upper b)%string.
Proof. induction a as [|c a IH]; [reflexivity|]. cbn. f_equal. exact IH. Qed.
(** Every text that begins with the name of a function is accepted as a name. *)
Theorem C22_longer_name_refuted : forall rest,
  (forall e, In (exe_name e) registered_names -> String.length (exe_name e) <> 1 -> exists e', new_executor (exe_name e ++ rest) = Ok e') /\
  (forall k, exists k', new_aggregator_kind (kind_name k ++ rest) = Ok k').
Proof.
  intro rest. split.
  - intros e I N. unfold new_executor. rewrite upper_app.
    assert (U : to_upper (exe_name e) = exe_name e) by (destruct e; reflexivity). rewrite U.
    destruct (find _ prefix_cases) as [e'|] eqn:F; [exists e'; reflexivity|]. exfalso.
    assert (P : has_prefix (exe_name e) (exe_name e ++ to_upper rest) = true) by (apply has_prefix_iff; eexists; reflexivity).
    assert (Q : In e prefix_cases).
    { destruct e; try (exfalso; apply N; reflexivity); try (cbn; tauto); exfalso; revert I; cbv; intuition discriminate. }
    rewrite (find_none _ _ F e Q) in P. discriminate P.
  - intro k. unfold new_aggregator_kind. rewrite upper_app.
    assert (U : to_upper (kind_name k) = kind_name k) by (destruct k; reflexivity). rewrite U.
    destruct (find _ _) as [k'|] eqn:F; [exists k'; reflexivity|]. exfalso.
    assert (P : has_prefix (kind_name k) (kind_name k ++ to_upper rest) = true) by (apply has_prefix_iff; eexists; reflexivity).
    assert (Q : In k [SUM; AVG; MIN; MAX; COUNT]) by (destruct k; cbn; tauto).
    rewrite (find_none _ _ F k Q) in P. discriminate P.
Qed.
Print Assumptions C22_longer_name_refuted.
Example C22_longer_name_example : In (exe_name ABS) registered_names /\ String.length (exe_name ABS) <> 1 /\
  new_executor "ABSENT" = Ok ABS /\ new_aggregator_kind "SUMMARY" = Ok SUM /\ is_registered "ABSENT" = false /\ is_registered "SUMMARY" = false.
Proof. split; [left; reflexivity|]. split; [discriminate|]. repeat split. Qed.

(** IsRegisteredFunction is exact on names that do not end in a parenthesis. *)
Theorem C22_registered_partial : forall name,
  (forall s, name <> (s ++ ")")%string) ->
  (is_registered name = true <->
   exists fn, In fn registered_names /\
     (to_upper name = fn \/ (String.length fn <> 1 /\ exists rest, to_upper name = (fn ++ "(" ++ rest)%string))).
Proof. exact registered_exact. Qed.
Print Assumptions C22_registered_partial.

Example C22_registered_example : is_registered "count" = true /\ is_registered "sum(x" = true /\ is_registered "sums" = false.
Proof. repeat split. Qed.

Theorem C22_closing_parenthesis_refuted : forall s, is_registered (s ++ ")") = true.
Proof. exact registered_paren. Qed.
Print Assumptions C22_closing_parenthesis_refuted.

(** Every registered name resolves as an executor or as an aggregator. *)
Theorem C22_registered_resolves : forall name fn,
  In fn registered_names -> same_text name fn ->
  is_registered name = true /\ (is_ok (new_executor name) = true \/ is_ok (new_aggregator_kind name) = true).
Proof. exact registered_resolves. Qed.
Print Assumptions C22_registered_resolves.

(** C23: number of arguments. *)
Theorem C23_wrong_count_partial :
  forall (V : Type) (to_float : option V -> option float) (to_str : option V -> option string) lib odd random e args,
    exe_type e <> TimeFunction -> arity e <> Some (length args) ->
    exists er, execute_args to_float to_str lib odd random e args = Err er.
Proof. exact @wrong_count. Qed.
Print Assumptions C23_wrong_count_partial.

Theorem C23_time_any_count_refuted :
  forall (V : Type) (to_float : option V -> option float) (to_str : option V -> option string) lib odd random e args,
    exe_type e = TimeFunction -> Forall (fun a => to_str a <> None) args ->
    execute_args to_float to_str lib odd random e args = Ok FvTime.
Proof. exact @time_any_count. Qed.
Print Assumptions C23_time_any_count_refuted.

(** A call panics exactly when it is the operator % with two numbers, the second of which is 0 as an
    integer. *)
Theorem C23_panics_partial :
  forall (V : Type) (to_float : option V -> option float) (to_str : option V -> option string) lib odd random e args,
    execute_args to_float to_str lib odd random e args = Panic <->
    e = MODOP /\ exists x y a b, args = [x; y] /\ to_float x = Some a /\ to_float y = Some b /\ go_int odd b = 0%Z.
Proof. exact @panics_iff. Qed.
Print Assumptions C23_panics_partial.

Inductive ex_v := VF (f : float) | VT (s : string).
Definition exv_float (v : option ex_v) : option float := match v with Some (VF f) => Some f | _ => None end.
Definition exv_str (v : option ex_v) : option string := match v with Some (VT s) => Some s | _ => None end.
Definition exv_text (s : string) : option ex_v := Some (VT s).
Definition ex_lib (e : exe) (l : list float) : float := fzero.
Definition ex_odd (f : float) : Z := (- 2 ^ 63)%Z.
Definition ex_exec := execute_args exv_float exv_str ex_lib ex_odd (Some 5%N).
Definition ex_half : float := S754_finite false 4503599627370496 (-53).
Definition ex_num (z : Z) : option ex_v := Some (VF (float_of_int z)).

(** 7 % 0.5 panics, and so does 7 % 0. *)
Theorem C23_modulo_panics_refuted :
  ex_exec MODOP [ex_num 7; Some (VF ex_half)] = Panic /\ ex_exec MODOP [ex_num 7; ex_num 0] = Panic.
Proof. split; vm_compute; reflexivity. Qed.
Print Assumptions C23_modulo_panics_refuted.

Example C23_example :
  ex_exec MODOP [ex_num (-7); ex_num 2] = Ok (FvFloat (float_of_int (-1))) /\
  ex_exec ABS [ex_num (-7); ex_num 2] = Err ErrInvalid /\
  ex_exec ABS [ex_num (-7)] = Ok (FvFloat (float_of_int 7)) /\
  ex_exec UPPER [Some (VT "aB1")] = Ok (FvStr "AB1") /\
  ex_exec TRIM [Some (VT "  a b ")] = Ok (FvStr "a b").
Proof. repeat split; vm_compute; reflexivity. Qed.

(** C24: Execute on a map. *)
Theorem C24_map_arguments :
  forall (V : Type) (to_float : option V -> option float) (to_str : option V -> option string) of_text lib odd random
    e names (m : list (string * option V)),
    NoDup (map fst m) ->
    exists values,
      execute to_float to_str of_text lib odd random e names (XMap m) =
      execute to_float to_str of_text lib odd random e names (XList values) /\
      length values = length names /\
      forall i name, nth_error names i = Some name ->
        (forall v, In (name, v) m -> nth_error values i = Some v) /\
        (~ In name (map fst m) -> nth_error values i = Some (of_text name)).
Proof. exact @map_arguments. Qed.
Print Assumptions C24_map_arguments.

Example C24_example :
  let m := [("b", ex_num 4); ("a", ex_num 7)] in
  NoDup (map fst m) /\
  execute exv_float exv_str exv_text ex_lib ex_odd None SUB ["a"; "b"] (XMap m) = Ok (FvFloat (float_of_int 3)) /\
  execute exv_float exv_str exv_text ex_lib ex_odd None UPPER ["zz"] (XMap m) = Ok (FvStr "ZZ").
Proof.
  split; [repeat constructor; cbn; intuition discriminate|]. split; vm_compute; reflexivity.
Qed.

(** C48: FLOOR, CEIL and ROUND are exact for every finite number whose result fits an int64. *)
Theorem C48_floor_ceil_round :
  forall (V : Type) (to_float : option V -> option float) (to_str : option V -> option string) lib odd random v x n,
    to_float v = Some x -> is_finite x = true -> in_int64 n = true ->
    (is_floor x n -> execute_args to_float to_str lib odd random FLOOR [v] = Ok (FvInt n)) /\
    (is_ceil x n -> execute_args to_float to_str lib odd random CEIL [v] = Ok (FvInt n)) /\
    (is_round x n -> execute_args to_float to_str lib odd random ROUND [v] = Ok (FvInt n)).
Proof. exact @floor_ceil_round. Qed.
Print Assumptions C48_floor_ceil_round.

(** every finite number has such a floor, ceiling and nearest integer *)
Theorem C48_exist : forall x, is_finite x = true ->
  (exists n, is_floor x n) /\ (exists n, is_ceil x n) /\ (exists n, is_round x n).
Proof. exact rounding_exist. Qed.
Print Assumptions C48_exist.

Example C48_example :
  is_floor (S754_finite true 5 (-1)) (-3) /\ is_ceil (S754_finite true 5 (-1)) (-2) /\
  is_round (S754_finite true 5 (-1)) (-3) /\
  ex_exec ROUND [Some (VF (S754_finite true 5 (-1)))] = Ok (FvInt (-3)).
Proof. repeat split; vm_compute; (reflexivity || (intro; discriminate)). Qed.

(** C49: the domains of the partial functions: SQRT, LOG and LOG10 are rejected exactly for numbers
    below or equal to zero, MOD exactly for a zero divisor; POWER only for a negative base; the
    other functions and the operators except % accept every finite number. *)
Theorem C49_domains :
  forall (V : Type) (to_float : option V -> option float) (to_str : option V -> option string) lib odd random v w x y,
    to_float v = Some x -> to_float w = Some y -> is_finite x = true -> is_finite y = true ->
    let run := execute_args to_float to_str lib odd random in
    (forall e, In e [SQRT; LOG; LOG10] -> (is_ok (run e [v]) = true <-> (0 < float_num x)%Z)) /\
    (is_ok (run MOD [v; w]) = true <-> float_num y <> 0%Z) /\
    ((0 <= float_num x)%Z -> is_ok (run POWER [v; w]) = true) /\
    (forall e, In e [ABS; FLOOR; CEIL; ROUND; EXP; SIN; COS; TAN] -> is_ok (run e [v]) = true) /\
    (forall e, In e [ADD; SUB; MUL; DIV] -> is_ok (run e [v; w]) = true).
Proof. exact @domains. Qed.
Print Assumptions C49_domains.

(** The square root of zero is an error. *)
Theorem C49_sqrt_zero_refuted : ex_exec SQRT [ex_num 0] = Err ErrNegativeValue.
Proof. vm_compute; reflexivity. Qed.
Print Assumptions C49_sqrt_zero_refuted.

(** C50: the type of a function created by name. *)
Theorem C50_type_partial : forall name args,
  (forall e, name = exe_name e -> f_type (new_func name args) = exe_type e) /\
  (forall k, name = kind_name k -> f_type (new_func name args) = AggregateFunction) /\
  (func_is_aggregator (new_func name args) = true <-> exists k, name = kind_name k).
Proof. exact func_types. Qed.
Print Assumptions C50_type_partial.

Theorem C50_lower_case_refuted :
  func_is_aggregator (new_func "sum" ["x"]) = false /\ f_name (new_func "sum" ["x"]) = "SUM" /\
  is_ok (snd (func_aggregator (new_func "sum" ["x"]) [])) = true.
Proof. repeat split. Qed.
Print Assumptions C50_lower_case_refuted.

(** C51: the arithmetic operators are exact on integers: whenever both operands are integers and the
    result is an integer below 2^53 in magnitude, it is that integer; % is the remainder of the
    division that truncates. *)
Theorem C51_integer_arithmetic :
  forall (V : Type) (to_float : option V -> option float) (to_str : option V -> option string) lib odd random v w x y a b,
    to_float v = Some x -> to_float w = Some y -> float_is x a -> float_is y b ->
    let run e := execute_args to_float to_str lib odd random e [v; w] in
    (small (a + b) -> exists r, run ADD = Ok (FvFloat r) /\ float_is r (a + b)) /\
    (small (a - b) -> exists r, run SUB = Ok (FvFloat r) /\ float_is r (a - b)) /\
    (small (a * b) -> exists r, run MUL = Ok (FvFloat r) /\ float_is r (a * b)) /\
    (forall c, small a -> b <> 0%Z -> a = (b * c)%Z -> exists r, run DIV = Ok (FvFloat r) /\ float_is r c) /\
    (small a -> small b -> b <> 0%Z -> exists r, run MODOP = Ok (FvFloat r) /\ float_is r (Z.rem a b)).
Proof.
  intros V to_float to_str lib odd random v w x y a b X Y A B run. unfold run, execute_args. cbn [exe_type].
  rewrite X, Y. split; [|split; [|split; [|split]]].
  - intros S. eexists. split; [reflexivity|]. now apply fadd_exact.
  - intros S. eexists. split; [reflexivity|]. now apply fsub_exact.
  - intros S. eexists. split; [reflexivity|]. now apply fmul_exact.
  - intros c S N ->. eexists. split; [reflexivity|]. now apply (fdiv_exact x y b c).
  - intros SA SB N. cbn [arith_fun]. rewrite (go_int_value odd x a A SA), (go_int_value odd y b B SB).
    destruct (Z.eqb_spec b 0) as [E|_]; [contradiction|]. eexists. split; [reflexivity|].
    apply float_of_int_value. now apply rem_bound.
Qed.
Print Assumptions C51_integer_arithmetic.

Example C51_example :
  float_is (float_of_int (-7)) (-7) /\ float_is (float_of_int 2) 2 /\ small (-7 - 2) /\
  ex_exec SUB [ex_num (-7); ex_num 2] = Ok (FvFloat (float_of_int (-9))) /\
  ex_exec DIV [ex_num (-8); ex_num 2] = Ok (FvFloat (float_of_int (-4))).
Proof. repeat split; vm_compute; reflexivity. Qed.

(** C13 on integers: SUM is exact as long as every partial sum is below 2^53 in magnitude. *)
Theorem C13_integer_sum : forall xs zs,
  Forall2 float_is xs zs -> (forall n, small (fold_right Z.add 0%Z (firstn n zs))) ->
  float_is (fold_left fadd xs fzero) (fold_right Z.add 0%Z zs).
Proof. intros xs zs F B. apply (sum_exact xs zs fzero 0%Z F); [split; reflexivity|exact B]. Qed.
Print Assumptions C13_integer_sum.

Example C13_integer_sum_example :
  Forall2 float_is [float_of_int 5; float_of_int (-8)] [5; -8]%Z /\
  fold_left fadd [float_of_int 5; float_of_int (-8)] fzero = float_of_int (-3).
Proof. split; [repeat constructor|vm_compute; reflexivity]. Qed.

(** C52: what UPPER, LOWER, TRIM and ABS return. *)
Theorem C52_string_functions :
  forall (V : Type) (to_float : option V -> option float) (to_str : option V -> option string) lib odd random v s,
    to_str v = Some s ->
    let run e := execute_args to_float to_str lib odd random e [v] in
    (exists r, run UPPER = Ok (FvStr r) /\ Forall2 upper_of (list_ascii_of_string s) (list_ascii_of_string r)) /\
    (exists r, run LOWER = Ok (FvStr r) /\ Forall2 lower_of (list_ascii_of_string s) (list_ascii_of_string r)) /\
    (exists r, run TRIM = Ok (FvStr r) /\ trimmed s r).
Proof.
  intros V to_float to_str lib odd random v s S run. unfold run, execute_args. cbn [exe_type all_some]. rewrite S.
  split; [|split]; eexists; (split; [reflexivity|]);
    [apply to_upper_spec|apply to_lower_spec|apply trim_spec].
Qed.
Print Assumptions C52_string_functions.

Theorem C52_abs :
  forall (V : Type) (to_float : option V -> option float) (to_str : option V -> option string) lib odd random v x,
    to_float v = Some x -> is_finite x = true ->
    exists r, execute_args to_float to_str lib odd random ABS [v] = Ok (FvFloat r) /\
      is_finite r = true /\ float_num r = Z.abs (float_num x) /\ float_den r = float_den x.
Proof.
  intros V to_float to_str lib odd random v x X F. unfold execute_args. cbn [exe_type all_some]. rewrite X.
  eexists. split; [reflexivity|]. now apply abs_spec.
Qed.
Print Assumptions C52_abs.

Example C52_example :
  ex_exec UPPER [Some (VT "a_1Z")] = Ok (FvStr "A_1Z") /\ ex_exec LOWER [Some (VT "a_1Z")] = Ok (FvStr "a_1z") /\
  ex_exec ABS [ex_num (-3)] = Ok (FvFloat (float_of_int 3)).
Proof. repeat split; vm_compute; reflexivity. Qed.
