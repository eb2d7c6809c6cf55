(** What a condition says, and what its text says when it is read as SQL is: AND binds tighter than OR. *)
From Verif Require Import GoBase ModelQuery SpecRound.

(** the truth of a condition, from that of its comparisons *)
Fixpoint holds (v : expr -> bool) (e : expr) : bool :=
  match e with
  | ECmp _ _ _ => v e
  | EAnd a b => holds v a && holds v b
  | EOr a b => holds v a || holds v b
  end.

(** the comparisons in the order they are written: groups separated by OR, AND between those of a group *)
Fixpoint join_groups (a b : list (list expr)) : list (list expr) :=
  match a with
  | [] => b
  | [g] => match b with h :: r => (g ++ h) :: r | [] => [g] end
  | g :: r => g :: join_groups r b
  end.
Fixpoint groups (e : expr) : list (list expr) :=
  match e with
  | ECmp _ _ _ => [[e]]
  | EOr a b => groups a ++ groups b
  | EAnd a b => join_groups (groups a) (groups b)
  end.
(** the truth of the text: some group whose comparisons are all true *)
Definition text_holds (v : expr -> bool) (gs : list (list expr)) : bool := existsb (forallb v) gs.

(** all comparisons are between a name and a literal *)
Inductive plain_expr : expr -> Prop :=
| pe_cmp a : comparison_ok a -> plain_expr a
| pe_and a b : plain_expr a -> plain_expr b -> plain_expr (EAnd a b)
| pe_or a b : plain_expr a -> plain_expr b -> plain_expr (EOr a b).

(** no OR below an AND *)
Fixpoint no_or (e : expr) : Prop :=
  match e with ECmp _ _ _ => True | EAnd a b => no_or a /\ no_or b | EOr _ _ => False end.
Fixpoint or_of_ands (e : expr) : Prop :=
  match e with ECmp _ _ _ => True | EAnd a b => no_or a /\ no_or b | EOr a b => or_of_ands a /\ or_of_ands b end.
