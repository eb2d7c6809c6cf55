(** Conditions that no statement can hold. *)
From Verif Require Import GoBase ModelFn ModelQuery SpecRound SpecSelect SpecValue SpecTest.
Local Open Scope string_scope.

Definition signs : list string := ["="; "!="; "<>"; "<"; ">"; "<="; ">="].
Definition arithmetic : list string := ["+"; "-"; "*"; "/"; "%"].
(** a test of one column that is no comparison *)
Definition of_one_column (t : test) : Prop := match t with Related _ _ _ | Nullness _ _ | Within _ _ _ _ | Among _ _ _ _ => True | _ => False end.
(** neither comparisons nor the negation of comparisons *)
Definition no_comparisons (t : test) : Prop := match t with Condition _ | Negated _ => False | _ => True end.

(** Beginnings of a condition: a column of a table compared, a column compared with a column, with a call, with something in
    parentheses, a number compared, a call compared, a column and a number added or multiplied and compared, a comparison with
    arithmetic or another sign after its value, a test that is no comparison before AND or OR, and after a comparison. *)
Inductive no_condition : string -> Prop :=
| nc_qualified s c o : any_name s -> any_name c -> In o signs -> no_condition (s ++ "." ++ c ++ " " ++ o)
| nc_columns c o d : any_name c -> In o signs -> any_name d -> no_condition (c ++ " " ++ o ++ " " ++ d)
| nc_with_call c o f : any_name c -> In o signs -> any_name f -> no_condition (c ++ " " ++ o ++ " " ++ f ++ "(")
| nc_with_group c o : any_name c -> In o signs -> no_condition (c ++ " " ++ o ++ " (")
| nc_number n o : number n -> In o signs -> no_condition (n ++ " " ++ o)
| nc_call f c o : any_name f -> any_name c -> In o signs -> no_condition (f ++ "(" ++ c ++ ") " ++ o)
| nc_computed c a n o : any_name c -> In a arithmetic -> number n -> In o signs -> no_condition (c ++ " " ++ a ++ " " ++ n ++ " " ++ o)
| nc_more e o : comparison_ok e -> In o (signs ++ arithmetic)%list -> no_condition (condition_text e ++ " " ++ o)
| nc_joined t j : test_ok t -> no_comparisons t -> no_condition (test_text t ++ " " ++ joint j)
| nc_second e j t : comparison_ok e -> test_ok t -> of_one_column t -> no_condition (condition_text e ++ " " ++ joint j ++ " " ++ test_text t).
