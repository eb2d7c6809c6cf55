(** Model of the scalar functions of sql/fn: names.go, type.go, executor_func.go, executor_impl.go,
    arith.go, arith_func.go, math.go, math_func.go, string.go, string_func.go, time.go, time_func.go,
    aggr_func.go and func_impl.go. *)
From Coq Require Import Floats.SpecFloat.
From Verif Require Import GoBase ModelAggr.

(** The built-in executors. *)
Inductive exe :=
| ABS | FLOOR | CEIL | ROUND | SQRT | LOG | LOG10 | EXP | POWER | MOD | SIN | COS | TAN | RAND | PI
| UPPER | LOWER | TRIM | CURRENT_TIMESTAMP | NOW
| ADD | SUB | MUL | DIV | MODOP.

(** names.go:21-57 *)
Definition exe_name (e : exe) : string :=
  match e with
  | ABS => "ABS" | FLOOR => "FLOOR" | CEIL => "CEIL" | ROUND => "ROUND" | SQRT => "SQRT"
  | LOG => "LOG" | LOG10 => "LOG10" | EXP => "EXP" | POWER => "POWER" | MOD => "MOD" | SIN => "SIN"
  | COS => "COS" | TAN => "TAN" | RAND => "RAND" | PI => "PI"
  | UPPER => "UPPER" | LOWER => "LOWER" | TRIM => "TRIM"
  | CURRENT_TIMESTAMP => "CURRENT_TIMESTAMP" | NOW => "NOW"
  | ADD => "+" | SUB => "-" | MUL => "*" | DIV => "/" | MODOP => "%"
  end.

(** names.go:59-95 *)
Definition registered_names : list string :=
  map exe_name [ABS; CEIL; FLOOR; ROUND; SQRT; LOG; LOG10; EXP; POWER; MOD; SIN; COS; TAN; RAND; PI;
                UPPER; LOWER; TRIM; CURRENT_TIMESTAMP; NOW] ++
  ["MAX"; "MIN"; "SUM"; "AVG"; "COUNT"] ++
  map exe_name [ADD; SUB; MUL; DIV; MODOP].

(** names.go:103-126 *)
Definition is_registered (name : string) : bool :=
  if String.length name =? 0 then false
  else
    let u := to_upper name in
    existsb (fun fn =>
      if String.length fn =? 1 then String.eqb u fn
      else (String.length u =? String.length fn) && String.eqb u fn
           || has_prefix (fn ++ "(")%string u || has_suffix ")" u) registered_names.

(** executor_func.go:22-84: the cases in the order of the switch *)
Definition prefix_cases : list exe :=
  [ABS; FLOOR; CEIL; ROUND; SQRT; LOG; LOG10; EXP; POWER; MOD; SIN; COS; TAN; RAND; PI;
   UPPER; LOWER; TRIM; CURRENT_TIMESTAMP; NOW].
Definition operator_cases : list exe := [ADD; SUB; MUL; DIV; MODOP].
Definition new_executor (name : string) : result exe :=
  let u := to_upper name in
  match find (fun e => has_prefix (exe_name e) u) prefix_cases with
  | Some e => Ok e
  | None =>
      match find (fun e => equal_fold u (exe_name e)) operator_cases with
      | Some e => Ok e
      | None => Err ErrNotSupported
      end
  end.

(** arith_func.go:22-37 *)
Definition new_arith_operator (ope : string) : result exe :=
  match find (fun e => String.eqb ope (exe_name e)) operator_cases with
  | Some e => Ok e
  | None => Err ErrOther
  end.

(** aggr_func.go:41-56 *)
Definition new_aggregator_kind (name : string) : result kind :=
  let u := to_upper name in
  match find (fun k => has_prefix (kind_name k) u) [SUM; AVG; MIN; MAX; COUNT] with
  | Some k => Ok k
  | None => Err ErrNotSupported
  end.

(** type.go:22-34 *)
Inductive ftype :=
| UnknownFunctionType | MathFunction | AggregateFunction | CastFunction | ArithOperator
| TimeFunction | StringFunction | SessionFunction.
Definition ftype_eqb (a b : ftype) : bool :=
  match a, b with
  | UnknownFunctionType, UnknownFunctionType | MathFunction, MathFunction
  | AggregateFunction, AggregateFunction | CastFunction, CastFunction | ArithOperator, ArithOperator
  | TimeFunction, TimeFunction | StringFunction, StringFunction | SessionFunction, SessionFunction => true
  | _, _ => false
  end.

(** type.go:37-52 *)
Definition smember (s : string) (l : list string) : bool := existsb (String.eqb s) l.
Definition type_for_name (name : string) : result ftype :=
  if smember name (map exe_name [ABS; FLOOR; CEIL; ROUND; SQRT; LOG; LOG10; EXP; POWER; MOD; SIN; COS; TAN; RAND; PI])
  then Ok MathFunction
  else if smember name ["SUM"; "AVG"; "COUNT"; "MAX"; "MIN"] then Ok AggregateFunction
  else if smember name (map exe_name [ADD; SUB; MUL; DIV; MODOP]) then Ok ArithOperator
  else if smember name (map exe_name [CURRENT_TIMESTAMP; NOW]) then Ok TimeFunction
  else if smember name (map exe_name [UPPER; LOWER; TRIM]) then Ok StringFunction
  else Err ErrOther.

(** math.go:35-49, arith.go:33-47, string.go:30-44, time.go:30-44: the type given by the constructors *)
Definition exe_type (e : exe) : ftype :=
  match e with
  | ABS | FLOOR | CEIL | ROUND | SQRT | LOG | LOG10 | EXP | POWER | MOD | SIN | COS | TAN | RAND | PI => MathFunction
  | UPPER | LOWER | TRIM => StringFunction
  | CURRENT_TIMESTAMP | NOW => TimeFunction
  | ADD | SUB | MUL | DIV | MODOP => ArithOperator
  end.

(** ** float64 and int *)
Definition fsub : float -> float -> float := SFsub 53 1024.
Definition fmul : float -> float -> float := SFmul 53 1024.
Definition fsqrt : float -> float := SFsqrt 53 1024.
Definition feqb : float -> float -> bool := SFeqb.
Definition fleb : float -> float -> bool := SFleb.

Definition in_int64 (z : Z) : bool := ((- 2 ^ 63 <=? z) && (z <? 2 ^ 63))%Z.

(** signed mantissa *)
Definition smant (s : bool) (m : positive) : Z := if s then Z.neg m else Z.pos m.
(** x rounded towards zero, down, up, and to nearest with ties away from zero; None for NaN and Inf *)
Definition float_trunc (x : float) : option Z :=
  match x with
  | S754_zero _ => Some 0%Z
  | S754_finite s m e =>
      Some (if (0 <=? e)%Z then (smant s m * 2 ^ e)%Z else (Z.quot (smant s m) (2 ^ (- e)))%Z)
  | _ => None
  end.
Definition float_floor (x : float) : option Z :=
  match x with
  | S754_zero _ => Some 0%Z
  | S754_finite s m e =>
      Some (if (0 <=? e)%Z then (smant s m * 2 ^ e)%Z else (smant s m / 2 ^ (- e))%Z)
  | _ => None
  end.
Definition float_ceil (x : float) : option Z :=
  match x with
  | S754_zero _ => Some 0%Z
  | S754_finite s m e =>
      Some (if (0 <=? e)%Z then (smant s m * 2 ^ e)%Z else (- (- smant s m / 2 ^ (- e)))%Z)
  | _ => None
  end.
Definition float_round (x : float) : option Z :=
  match x with
  | S754_zero _ => Some 0%Z
  | S754_finite s m e =>
      let a := if (0 <=? e)%Z then (Z.pos m * 2 ^ e)%Z
               else ((2 * Z.pos m + 2 ^ (- e)) / (2 * 2 ^ (- e)))%Z in
      Some (if s then (- a)%Z else a)
  | _ => None
  end.

(** Results of functions. *)
Inductive fval := FvFloat (f : float) | FvInt (z : Z) | FvStr (s : string) | FvTime.

Section Exec.
  (** [V]: non-nil Go values.  [to_float], [to_str]: safecast.ToFloat64 and ToString ([None]: an
      error).  [of_text]: a Go string as a value.  [lib]: math.Log, Log10, Exp, Pow, Mod, Sin, Cos and
      Tan.  [odd]: the result of int(x) when x is NaN or out of range, which Go leaves to the
      implementation.  [random]: what crypto/rand yields as a uint64, [None] being an error. *)
  Context {V : Type} (to_float : option V -> option float) (to_str : option V -> option string)
          (of_text : string -> option V) (lib : exe -> list float -> float) (odd : float -> Z)
          (random : option N).

  (** int(x), given the integer x is rounded to *)
  Definition to_int (x : float) (n : option Z) : Z :=
    match n with Some z => if in_int64 z then z else odd x | None => odd x end.
  Definition go_int (x : float) : Z := to_int x (float_trunc x).

  (** math_func.go: all functions, after the conversion of the arguments.
      int(math.Floor(x)) etc. are modelled as one step, by the documented meaning of math.Floor. *)
  Definition math_fun (e : exe) (args : list float) : result fval :=
    match e, args with
    | ABS, [x] => Ok (FvFloat (SFabs x))                                        (* 24-36 *)
    | FLOOR, [x] => Ok (FvInt (to_int x (float_floor x)))                       (* 39-50 *)
    | CEIL, [x] => Ok (FvInt (to_int x (float_ceil x)))                         (* 53-64 *)
    | ROUND, [x] => Ok (FvInt (to_int x (float_round x)))                       (* 67-78 *)
    | SQRT, [x] => if fleb x fzero then Err ErrNegativeValue else Ok (FvFloat (fsqrt x)) (* 81-96 *)
    | LOG, [x] | LOG10, [x] =>                                                  (* 99-132 *)
        if fleb x fzero then Err ErrNegativeValue else Ok (FvFloat (lib e [x]))
    | EXP, [x] | SIN, [x] | COS, [x] | TAN, [x] => Ok (FvFloat (lib e [x]))     (* 135-146, 187-226 *)
    | POWER, [b; x] =>                                                          (* 149-165 *)
        if fltb b fzero && negb (feqb x (float_of_int (go_int x))) then Err ErrNegativeValue
        else Ok (FvFloat (lib POWER [b; x]))
    | MOD, [a; b] =>                                                            (* 168-184 *)
        if feqb b fzero then Err ErrInvalid else Ok (FvFloat (lib MOD [a; b]))
    | RAND, [] =>                                                               (* 229-248 *)
        match random with
        | None => Err ErrOther
        | Some n => Ok (FvFloat (fdiv (float_of_int (Z.of_N (N.land n 9223372036854775807)))
                                      (float_of_int 9223372036854775807)))
        end
    | PI, [] => Ok (FvFloat (S754_finite false 7074237752028440 (-51)))         (* 251-262 *)
    | _, _ => Err ErrInvalid
    end.

  (** strings.TrimSpace, on ASCII white space *)
  Definition white : string := String " " (String "009" (String "010" (String "011" (String "012" (String "013" ""))))).

  (** string_func.go:22-61 *)
  Definition string_fun (e : exe) (args : list string) : result fval :=
    match e, args with
    | UPPER, [s] => Ok (FvStr (to_upper s))
    | LOWER, [s] => Ok (FvStr (to_lower s))
    | TRIM, [s] => Ok (FvStr (trim white s))
    | _, _ => Err ErrInvalid
    end.

  (** arith_func.go:40-92; the remainder of a division by 0 panics *)
  Definition arith_fun (e : exe) (a b : float) : result fval :=
    match e with
    | ADD => Ok (FvFloat (fadd a b))
    | SUB => Ok (FvFloat (fsub a b))
    | MUL => Ok (FvFloat (fmul a b))
    | DIV => Ok (FvFloat (fdiv a b))
    | MODOP => if (go_int b =? 0)%Z then Panic
               else Ok (FvFloat (float_of_int (Z.rem (go_int a) (go_int b))))
    | _ => Err ErrInvalid
    end.

  (** executor_impl.go:94-96 with the execute methods math.go:52-63, string.go:47-58, time.go:47-58
      (time functions ignore their arguments, time_func.go:24-43), arith.go:50-65 *)
  Definition execute_args (e : exe) (args : list (option V)) : result fval :=
    match exe_type e with
    | MathFunction =>
        match all_some to_float args with Some fs => math_fun e fs | None => Err ErrInvalid end
    | StringFunction =>
        match all_some to_str args with Some ss => string_fun e ss | None => Err ErrInvalid end
    | TimeFunction =>
        match all_some to_str args with Some _ => Ok FvTime | None => Err ErrInvalid end
    | _ =>
        match args with
        | [x; y] =>
            match to_float x with
            | None => Err ErrCast
            | Some a => match to_float y with None => Err ErrCast | Some b => arith_fun e a b end
            end
        | _ => Err ErrInvalid
        end
    end.

  (** executor_impl.go:98-108; [names] are the executor's argument names *)
  Definition execute_map (e : exe) (names : list string) (m : list (string * option V)) : result fval :=
    execute_args e (map (fun a => match mget String.eqb a m with Some v => v | None => of_text a end) names).

  (** executor_impl.go:111-126 *)
  Inductive xarg := XList (l : list (option V)) | XMap (m : list (string * option V)) | XNil | XOne (v : V).
  Definition execute (e : exe) (names : list string) (x : xarg) : result fval :=
    match x with
    | XList l => execute_args e l
    | XMap m => execute_map e names m
    | XNil => execute_args e []
    | XOne v => execute_args e [Some v]
    end.

  (** executor_func.go:87-93: no argument names are given *)
  Definition execute_function (name : string) (x : xarg) : result fval :=
    rbind (new_executor name) (fun e => execute e [] x).
End Exec.
Arguments XList {V}. Arguments XMap {V}. Arguments XNil {V}. Arguments XOne {V}.

(** ** func_impl.go *)

(** func_impl.go:22-28.  The cached aggregator is kept as its kind and argument names. *)
Record func := mkFunc {
  f_type : ftype; f_name : string; f_exec : option (exe * list string);
  f_aggr : option (kind * list string); f_args : list string }.

(** func_impl.go:34-57, 84-93: NewFunction(WithFunctionName(name), WithFunctionArguments(args)) *)
Definition new_func (name : string) (args : list string) : func :=
  mkFunc (match type_for_name name with Ok t => t | _ => UnknownFunctionType end)
         (to_upper name) None None args.

(** func_impl.go:101-138 *)
Definition func_is_name (f : func) (name : string) : bool := String.eqb (f_name f) name.
Definition func_is_aggregator (f : func) : bool := ftype_eqb (f_type f) AggregateFunction.

(** func_impl.go:141-153 *)
Definition func_executor (f : func) : func * result (exe * list string) :=
  match f_exec f with
  | Some x => (f, Ok x)
  | None =>
      match new_executor (f_name f) with
      | Ok e => (mkFunc (exe_type e) (f_name f) (Some (e, f_args f)) (f_aggr f) (f_args f), Ok (e, f_args f))
      | Err e => (f, Err e)
      | Panic => (f, Panic)
      end
  end.

(** func_impl.go:156-168.  The aggregator is built with the function's arguments and then Reset, so it
    is rejected when it has no column: no arguments and no groups ([groups]: from the caller's
    options, which come before the arguments). *)
Definition func_aggregator (f : func) (groups : list string) : func * result (kind * list string) :=
  match f_aggr f with
  | Some x => (f, Ok x)
  | None =>
      match new_aggregator_kind (f_name f) with
      | Ok k =>
          match new_aggr k [OptGroups groups; OptArgs (f_args f)] with
          | Ok _ => (mkFunc AggregateFunction (f_name f) (f_exec f) (Some (k, f_args f)) (f_args f), Ok (k, f_args f))
          | Err e => (f, Err e)
          | Panic => (f, Panic)
          end
      | Err e => (f, Err e)
      | Panic => (f, Panic)
      end
  end.

(** func_impl.go:171-173, args.go:63-69; JoinWithComma is Join with ", " (strings.go) *)
Definition func_string (f : func) : string := (f_name f ++ "(" ++ join ", " (f_args f) ++ ")")%string.
