(** What the function properties C22-C24 and C48-C51 mean, without reference to the executors. *)
From Coq Require Import Floats.SpecFloat.
From Verif Require Import GoBase ModelAggr ModelFn.

(** Two texts are the same up to ASCII letter case. *)
Definition same_text (a b : string) : Prop := to_upper a = to_upper b.

(** The number of arguments a function takes; None: any number. *)
Definition arity (e : exe) : option nat :=
  match e with
  | RAND | PI => Some 0
  | ABS | FLOOR | CEIL | ROUND | SQRT | LOG | LOG10 | EXP | SIN | COS | TAN | UPPER | LOWER | TRIM => Some 1
  | POWER | MOD | ADD | SUB | MUL | DIV | MODOP => Some 2
  | CURRENT_TIMESTAMP | NOW => Some 0
  end.

(** The rational number a finite float64 stands for, as numerator and denominator. *)
Definition float_num (x : float) : Z :=
  match x with
  | S754_finite s m e => ((if s then Z.neg m else Z.pos m) * 2 ^ Z.max e 0)%Z
  | _ => 0%Z
  end.
Definition float_den (x : float) : Z :=
  match x with S754_finite _ _ e => (2 ^ Z.max (- e) 0)%Z | _ => 1%Z end.
Definition is_finite (x : float) : bool :=
  match x with S754_zero _ | S754_finite _ _ _ => true | _ => false end.

(** n is the largest integer not above x, the smallest not below x, the nearest with ties away
    from zero. *)
Definition is_floor (x : float) (n : Z) : Prop :=
  (n * float_den x <= float_num x < (n + 1) * float_den x)%Z.
Definition is_ceil (x : float) (n : Z) : Prop :=
  ((n - 1) * float_den x < float_num x <= n * float_den x)%Z.
Definition is_round (x : float) (n : Z) : Prop :=
  if (0 <=? float_num x)%Z
  then ((2 * n - 1) * float_den x <= 2 * float_num x < (2 * n + 1) * float_den x)%Z
  else ((2 * n - 1) * float_den x < 2 * float_num x <= (2 * n + 1) * float_den x)%Z.

(** a <= b as rationals *)
Definition float_le (a b : float) : Prop := (float_num a * float_den b <= float_num b * float_den a)%Z.

(** the value of the float is the integer z *)
Definition float_is (x : float) (z : Z) : Prop := is_finite x = true /\ float_num x = (z * float_den x)%Z.
(** integers whose magnitude float64 holds exactly *)
Definition small (z : Z) : Prop := (- 2 ^ 53 < z < 2 ^ 53)%Z.

(** d is c in upper case, in lower case (ASCII) *)
Definition upper_of (c d : ascii) : Prop :=
  let n := N_of_ascii c in
  if ((97 <=? n) && (n <=? 122))%N then N_of_ascii d = (n - 32)%N else d = c.
Definition lower_of (c d : ascii) : Prop :=
  let n := N_of_ascii c in
  if ((65 <=? n) && (n <=? 90))%N then N_of_ascii d = (n + 32)%N else d = c.
(** space, tab, new line, vertical tab, form feed, carriage return *)
Definition is_white (c : ascii) : Prop := In (N_of_ascii c) [32; 9; 10; 11; 12; 13]%N.
(** r is s without its leading and trailing white space *)
Definition trimmed (s r : string) : Prop :=
  exists l t, list_ascii_of_string s = l ++ list_ascii_of_string r ++ t /\
    Forall is_white l /\ Forall is_white t /\
    (forall c, hd_error (list_ascii_of_string r) = Some c -> ~ is_white c) /\
    (forall c, hd_error (rev (list_ascii_of_string r)) = Some c -> ~ is_white c).
