(** The values of INSERT and the assignments of UPDATE as users write them. *)
From Verif Require Import GoBase ModelFn ModelQuery SpecRound SpecSelect.
Local Open Scope string_scope.

Inductive argument := Column (c : string) | Number (n : string).
Inductive operator := Plus | Minus | Times | Over | Modulo.
(** a literal, a column, a column and an operator with a column or number, a function, a number in parentheses *)
Inductive given :=
| Literal (l : literal) | OfColumn (c : string) | Arithmetic (c : string) (o : operator) (a : argument)
| Call (f : string) (args : list argument) | InParentheses (n : string).

(** ** Text *)

Definition argument_text (a : argument) : string := match a with Column c => c | Number n => n end.
Definition operator_sign (o : operator) : string := match o with Plus => "+" | Minus => "-" | Times => "*" | Over => "/" | Modulo => "%" end.
Definition given_text (v : given) : string :=
  match v with
  | Literal l => literal_text l
  | OfColumn c => c
  | Arithmetic c o a => c ++ " " ++ operator_sign o ++ " " ++ argument_text a
  | Call f args => f ++ "(" ++ join ", " (map argument_text args) ++ ")"
  | InParentheses n => "(" ++ n ++ ")"
  end.
Definition given_row_text (vs : list given) : string := "(" ++ join ", " (map given_text vs) ++ ")".
Definition columns_text (cols : list string) : string := match cols with [] => "" | _ => "(" ++ join ", " cols ++ ") " end.
Definition insert_text (t : string) (cols : list string) (rows : list (list given)) : string :=
  "INSERT INTO " ++ t ++ " " ++ columns_text cols ++ "VALUES " ++ join ", " (map given_row_text rows).
Definition assignment_text (a : string * given) : string := fst a ++ " = " ++ given_text (snd a).
Definition update_text (t : string) (sets : list (string * given)) (w : condition) : string :=
  "UPDATE " ++ t ++ " SET " ++ join ", " (map assignment_text sets) ++ clause "WHERE" (conditions w).

(** ** The values meant *)

Definition argument_ok (a : argument) : Prop := match a with Column c => any_name c | Number n => number n end.
Definition given_ok (v : given) : Prop :=
  match v with
  | Literal l => literal_ok l
  | OfColumn c => any_name c
  | Arithmetic c _ a => any_name c /\ argument_ok a
  | Call f args => any_name f /\ Forall argument_ok args
  | InParentheses n => number n
  end.
Definition assignment_ok (a : string * given) : Prop := any_name (fst a) /\ given_ok (snd a).

(** ** What they ask for *)

Definition operation (o : operator) : exe := match o with Plus => ADD | Minus => SUB | Times => MUL | Over => DIV | Modulo => MODOP end.
(** a column of that name which holds the literal, or executes the operator on its operands *)
Inductive holds : string * given -> column -> Prop :=
| ho_literal n l : holds (n, Literal l) (new_value_column n l)
| ho_arithmetic n c o a : holds (n, Arithmetic c o a) (new_function_column n (operation o) [c; argument_text a]).
(** the values for which the model of a column has room in INSERT, and in UPDATE *)
Definition is_literal (v : given) : Prop := exists l, v = Literal l.
Definition is_arithmetic (v : given) : Prop := exists c o a, v = Arithmetic c o a.

Definition literals_of (vs : list given) : list literal := flat_map (fun v => match v with Literal l => [l] | _ => [] end) vs.
Definition only_literals (vs : list given) : list given := map Literal (literals_of vs).
