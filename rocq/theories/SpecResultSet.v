(** Specification of result-set iteration and rows. *)
From Verif Require Import GoBase ModelResultSet.

(** The LIMIT/OFFSET window of a list of rows; limit 0 means no limit. *)
Definition window {R} (rows : list R) (offset limit : N) : list R :=
  let rest := skipn (N.to_nat offset) rows in
  if (limit =? 0)%N then rest else firstn (N.to_nat limit) rest.

(** What a caller sees after [n] calls of Next: whether the last call succeeded and what Row gives. *)
Definition nth_next {R} (rs : rset R) (n : nat) : bool := snd (rs_next (rs_advance (n - 1) rs)).

(** The answers of a row that names its values by [lookup] and lists them as [values]. *)
Definition row_answer {A} (lookup : string -> option (option A)) (values : list (option A)) (o : rop)
  : rout A :=
  match o with
  | RObject n => ROLookup (lookup n)
  | RValues => ROValues values
  | RValueAt i =>
      RORes (if (i <? 0)%Z then Panic
             else match nth_error values (Z.to_nat i) with Some v => Ok v | None => Err ErrNotExist end)
  | RValueBy n => RORes (match lookup n with Some v => Ok v | None => Err ErrNotExist end)
  end.

(** Column [i] and value [i] belong together, and no other name is known. *)
Definition names_values {A} (cols : list string) (values : list (option A))
  (lookup : string -> option (option A)) : Prop :=
  length cols = length values /\
  (forall i c v, nth_error cols i = Some c -> nth_error values i = Some v -> lookup c = Some v) /\
  (forall c, ~ In c cols -> lookup c = None).

(** The value a projected row should have in one output column: the executor's result for a scalar
    function, the stored value for a plain column, nil when there is none. *)
Definition column_value {A} (c : rcolumn A) (obj : object A) : result (option A) :=
  match rc_exec c with
  | Some ex => ex obj
  | None => Ok (match mget String.eqb (rc_name c) obj with Some v => v | None => None end)
  end.

(** All results, or the first failure. *)
Fixpoint all_ok {B} (l : list (result B)) : result (list B) :=
  match l with
  | [] => Ok []
  | r :: l' => rbind r (fun v => rbind (all_ok l') (fun vs => Ok (v :: vs)))
  end.

(** Ascending in byte order: a text that is the beginning of another is not after it, and otherwise the first bytes that differ decide. *)
Inductive at_most : string -> string -> Prop :=
| am_prefix b : at_most "" b
| am_same x a b : at_most a b -> at_most (String x a) (String x b)
| am_less x y a b : nat_of_ascii x < nat_of_ascii y -> at_most (String x a) (String y b).
Fixpoint ssorted (l : list string) : Prop :=
  match l with [] => True | x :: l' => (forall y, In y l' -> at_most x y) /\ ssorted l' end.
