(** What users test in a WHERE clause. *)
From Verif Require Import GoBase ModelFn ModelQuery SpecRound SpecSelect SpecValue.
Local Open Scope string_scope.

(** the words between a column and a value that are not the signs of a comparison *)
Inductive relation := EqualsEquals | Is | IsNot | Like | NotLike | Glob | NotGlob | Regexp | NotRegexp | Matches | NotMatches.
Inductive nullness := Isnull | Notnull | NotNull.
(** a condition of comparisons, a column by itself, a column related to a value, a test for NULL, a
    range, a list of values, the negation of a condition, a test in parentheses *)
Inductive test :=
| Condition (e : expr) | Named (c : string) | Related (c : string) (r : relation) (l : literal) | Nullness (c : string) (n : nullness)
| Within (negated : bool) (c : string) (low high : literal) | Among (negated : bool) (c : string) (l : literal) (ls : list literal)
| Negated (e : expr) | Enclosed (t : test).

Definition relation_text (r : relation) : string :=
  match r with
  | EqualsEquals => "==" | Is => "IS" | IsNot => "IS NOT" | Like => "LIKE" | NotLike => "NOT LIKE" | Glob => "GLOB" | NotGlob => "NOT GLOB"
  | Regexp => "REGEXP" | NotRegexp => "NOT REGEXP" | Matches => "MATCH" | NotMatches => "NOT MATCH"
  end.
Definition nullness_text (n : nullness) : string := match n with Isnull => "ISNULL" | Notnull => "NOTNULL" | NotNull => "NOT NULL" end.
Fixpoint test_text (t : test) : string :=
  match t with
  | Condition e => condition_text e
  | Named c => c
  | Related c r l => c ++ " " ++ relation_text r ++ " " ++ literal_text l
  | Nullness c n => c ++ " " ++ nullness_text n
  | Within n c a b => c ++ " " ++ (if n then "NOT " else "") ++ "BETWEEN " ++ literal_text a ++ " AND " ++ literal_text b
  | Among n c l ls => c ++ " " ++ (if n then "NOT " else "") ++ "IN (" ++ join ", " (map literal_text (l :: ls)) ++ ")"
  | Negated e => "NOT " ++ condition_text e
  | Enclosed t => "(" ++ test_text t ++ ")"
  end.
Fixpoint test_ok (t : test) : Prop :=
  match t with
  | Condition e | Negated e => condition_ok (Some e)
  | Named c | Nullness c _ => any_name c
  | Related c _ l => any_name c /\ literal_ok l
  | Within _ c a b => any_name c /\ literal_ok a /\ literal_ok b
  | Among _ c l ls => any_name c /\ Forall literal_ok (l :: ls)
  | Enclosed t => test_ok t /\ match t with Enclosed _ => False | _ => True end
  end.
(** it consists of comparisons *)
Definition of_comparisons (t : test) : Prop := exists e, t = Condition e.

(** the statements; no test, no WHERE clause *)
Definition where_text (w : option test) : string := match w with Some t => " WHERE " ++ test_text t | None => "" end.
Definition delete_where (t : string) (w : option test) : string := "DELETE FROM " ++ t ++ where_text w.
Definition update_where (t : string) (sets : list (string * given)) (w : option test) : string :=
  "UPDATE " ++ t ++ " SET " ++ join ", " (map assignment_text sets) ++ where_text w.
Definition select_where (cols : list selector) (t : string) (w : option test) : string :=
  "SELECT " ++ join ", " (map selector_text cols) ++ " FROM " ++ t ++ where_text w.
Definition test_given (w : option test) : Prop := match w with Some t => test_ok t | None => True end.

(** comparisons joined by AND (true) or OR (false), then some more text *)
Definition joint (b : bool) : string := if b then "AND" else "OR".
Definition chain_text (a : expr) (j : bool) (b : expr) (j' : bool) (rest : string) : string :=
  condition_text a ++ " " ++ joint j ++ " " ++ condition_text b ++ " " ++ joint j' ++ " " ++ rest.
