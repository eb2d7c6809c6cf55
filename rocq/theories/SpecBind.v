(** Query texts with numbered gaps. *)
From Verif Require Import GoBase ModelNum ModelQuery ModelBind SpecQuery SpecRound.

(** x, then for each hole of the list its text and the piece that follows it *)
Fixpoint spread (f : nat -> string) (x : string) (holes : list (nat * string)) : string :=
  match holes with [] => x | (k, y) :: r => (x ++ f k ++ spread f y r)%string end.
(** the holes are written as ? or as $1, $2, ... (hole 0 is $1) *)
Definition question (_ : nat) : string := "?".
Definition dollar (k : nat) : string := ("$" ++ show_N (N.of_nat (k + 1)))%string.
(** the k-th of the values *)
Definition value (vals : list string) (k : nat) : string := nth k vals ""%string.

(** none of the characters is in the text *)
Definition free (cs : list ascii) (s : string) : Prop := forall c, In c cs -> ~ In c (list_ascii_of_string s).
(** the texts the parameters are rendered to *)
Definition rendered (params : list param) (vals : list string) : Prop := Forall2 (fun p v => param_string p = Ok v) params vals.
(** the pieces of the query and the values have none of the characters *)
Definition clear_of (cs : list ascii) (x : string) (holes : list (nat * string)) (vals : list string) : Prop :=
  free cs x /\ Forall (fun h => free cs (snd h)) holes /\ Forall (free cs) vals.

(** the literal a parameter stands for: a text, an integer, a time, a number or word of another type *)
Inductive stands : param -> literal -> Prop :=
| st_text s : plain_text s -> stands (BText s) (mkLit (VStr s) StringLiteral)
| st_int z : stands (BInt z) (mkLit (VStr (show_Z z)) UnknownLiteral)
| st_time y mo d h mi s ns : stands (BTime y mo d h mi s ns) (mkLit (VStr (time_text y mo d h mi s ns)) StringLiteral)
| st_number n : number n -> stands (BOther (Ok n)) (mkLit (VStr n) UnknownLiteral)
| st_word w : literal_word w -> stands (BOther (Ok w)) (mkLit (VStr w) UnknownLiteral).

(** n written with w digits *)
Definition field (w : nat) (n : N) (s : string) : Prop :=
  String.length s = w /\ numeral n s.
(** a moment as a calendar and a clock show it *)
Definition moment (y mo d h mi s ns : N) : Prop :=
  (y < 10000 /\ mo < 100 /\ d < 100 /\ h < 100 /\ mi < 100 /\ s < 100 /\ ns < 1000000000)%N.

(** w is v without the quotes (single or double) at its ends *)
Definition unquoted (v w : string) : Prop :=
  exists a b, v = (a ++ w ++ b)%string /\ chars quote_char a /\ chars quote_char b
    /\ (forall c r, w = String c r -> ~ quote_char c) /\ (forall c r, w = (r ++ String c "")%string -> ~ quote_char c).
