(** Decimal numerals as Go's fmt and strconv write and read them. *)
From Coq Require Import DecimalString DecimalN Decimal.
From Verif Require Import GoBase.

(** fmt.Sprintf of a uint with the verb d *)
Definition show_N (n : N) : string := NilZero.string_of_uint (N.to_uint n).

(** fmt.Sprintf of an int with the verb d *)
Definition show_Z (z : Z) : string :=
  match z with
  | Zneg p => ("-" ++ show_N (Npos p))%string
  | Zpos p => show_N (Npos p)
  | Z0 => show_N 0
  end.

(** one or more decimal digits *)
Definition read_digits (s : string) : option N :=
  match NilZero.uint_of_string s with
  | Some u => Some (N.of_uint u)
  | None => None
  end.

(** the values of a 64-bit int *)
Definition is_int64 (z : Z) : bool := ((- 2 ^ 63 <=? z) && (z <? 2 ^ 63))%Z.

(** strconv.Atoi: an optional sign and decimal digits, within the range of a 64-bit int *)
Definition atoi (s : string) : option Z :=
  let in_range z := if is_int64 z then Some z else None in
  match s with
  | String "+" r => match read_digits r with Some n => in_range (Z.of_N n) | None => None end
  | String "-" r => match read_digits r with Some n => in_range (- Z.of_N n)%Z | None => None end
  | _ => match read_digits s with Some n => in_range (Z.of_N n) | None => None end
  end.

(** safecast.ToUint of a decimal text: digits only, within the range of a 64-bit uint.  go-safecast is
    a dependency and not part of /repo; only its behaviour on digit strings is used. *)
Definition to_uint (s : string) : option N :=
  match read_digits s with
  | Some n => if (n <? 2 ^ 64)%N then Some n else None
  | None => None
  end.
