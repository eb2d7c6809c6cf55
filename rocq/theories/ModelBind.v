(** Bound parameters: sql/stmt. *)
From Verif Require Import GoBase ModelNum ModelQuery ModelLex ModelVisitor.

(** A number with leading zeros up to the width (time.Format). *)
Definition pad (width : nat) (n : N) : string :=
  let s := show_N n in (String.concat "" (repeat "0"%string (width - String.length s)) ++ s)%string.

(** What NewBindParam is given (bind_param_impl.go:24-31).  [BOther] is a value whose text (or error) is
    up to strconv.FormatFloat or go-safecast: floats, booleans, nil and so on.  A time has a year from 0
    on; its zone does not matter. *)
Inductive param :=
| BText (s : string)
| BInt (z : Z)
| BTime (year month day hour minute second nanosecond : N)
| BOther (r : result string).
(** v.Format("2006-01-02 15:04:05"), followed by .000000 if there are nanoseconds (bind_param_impl.go:38-42) *)
Definition time_text (year month day hour minute second nanosecond : N) : string :=
  (pad 4 year ++ "-" ++ pad 2 month ++ "-" ++ pad 2 day ++ " " ++ pad 2 hour ++ ":" ++ pad 2 minute ++ ":" ++ pad 2 second
   ++ (if (nanosecond =? 0)%N then "" else "." ++ pad 6 (nanosecond / 1000)))%string.
(** bind_param_impl.go:34-51; the text of an int is that of go-safecast's ToString *)
Definition param_string (p : param) : result string :=
  match p with
  | BText s => Ok ("'" ++ s ++ "'")%string
  | BInt z => Ok (show_Z z)
  | BTime y mo d h mi s ns => Ok ("'" ++ time_text y mo d h mi s ns ++ "'")%string
  | BOther r => r
  end.

(** bind_impl.go:71 and 76: 0 < strings.Index(q, p) *)
Definition found (p q : string) : bool := match sindex p q with Some n => 0 <? n | None => false end.
(** bind_impl.go:65-82: the text after the parameters from the n-th on *)
Fixpoint bind_from (n : nat) (params : list param) (q : string) : result string :=
  match params with
  | [] => Ok q
  | p :: ps =>
      rbind (param_string p) (fun s =>
        if found "?" q then bind_from (S n) ps (replace1 "?" s q)
        else
          let place := ("$" ++ show_N (N.of_nat (n + 1)))%string in
          if found place q then bind_from (S n) ps (replace1 place s q)
          else Err ErrNotFound)
  end.
(** bind_impl.go:64-87 *)
Definition bound_text (q : string) (params : list param) : result string := bind_from 0 params q.
Definition bound_statements (entries : list (dtype * string)) (q : string) (params : list param) : result (list stmt) :=
  rbind (bound_text q params) (parse entries).
