(** Queries over more than a list of tables, and names with an alias. *)
From Verif Require Import GoBase ModelFn ModelQuery SpecRound SpecSelect SpecSpell SpecNone.
Local Open Scope string_scope.

(** a word after an opening parenthesis, before a closing one, and before a comma *)
Definition opened (x : string) : string := "(" ++ x.
Definition closed (x : string) : string := x ++ ")".
Definition listed_name (x : string) : string := x ++ ",".
Local Open Scope list_scope.
(** a table that is the result of another query *)
Definition subquery (b u : string) : list string := [opened "SELECT"; b; "FROM"; closed u].

(** what can stand between two tables *)
Definition joins : list (list string) :=
  [["JOIN"]; ["INNER"; "JOIN"]; ["LEFT"; "JOIN"]; ["LEFT"; "OUTER"; "JOIN"]; ["CROSS"; "JOIN"]; ["NATURAL"; "JOIN"]].
(** what can stand between two queries *)
Definition set_operations : list (list string) := [["UNION"]; ["UNION"; "ALL"]; ["INTERSECT"]; ["EXCEPT"]].

(** the words of a query *)
Inductive sourceless : list string -> Prop :=
| sl_join j c t u : In j joins -> any_name c -> any_name t -> any_name u -> sourceless (["SELECT"; c; "FROM"; t] ++ j ++ [u])
| sl_using j c t u x : In j joins -> any_name c -> any_name t -> any_name u -> any_name x ->
    sourceless (["SELECT"; c; "FROM"; t] ++ j ++ [u; "USING"; in_parentheses x])
| sl_subquery c b u : any_name c -> any_name b -> any_name u -> sourceless (["SELECT"; c; "FROM"] ++ subquery b u)
| sl_subquery_as c b u v : any_name c -> any_name b -> any_name u -> any_name v -> sourceless (["SELECT"; c; "FROM"] ++ subquery b u ++ ["AS"; v]).

(** a test of whether a query has rows, or a row with some value *)
Inductive query_test : list string -> Prop :=
| qt_in n x b u : any_name x -> any_name b -> any_name u -> query_test (x :: given n "NOT" ++ "IN" :: subquery b u)
| qt_exists n b u : any_name b -> any_name u -> query_test (given n "NOT" ++ "EXISTS" :: subquery b u).
(** a statement that reads or writes a table *)
Inductive about : string -> list string -> Prop :=
| ab_select t c : any_name c -> about t ["SELECT"; c; "FROM"; t]
| ab_delete t : about t ["DELETE"; "FROM"; t]
| ab_update t c v : any_name c -> number v -> about t ["UPDATE"; t; "SET"; c; "="; v].

(** the words of a statement, and those of one which is about less, or about other rows *)
Inductive narrowed : list string -> list string -> Prop :=
| na_test t ws q : any_name t -> about t ws -> query_test q -> narrowed (ws ++ "WHERE" :: q) ws
| na_with w a t ws : any_name w -> any_name a -> any_name t -> about w ws -> narrowed (["WITH"; w; "AS"] ++ subquery a t ++ ws) ws
| na_set o a t x n b u : In o set_operations -> any_name a -> any_name t -> any_name x -> number n -> any_name b -> any_name u ->
    narrowed (["SELECT"; a; "FROM"; t; "WHERE"; x; "="; n] ++ o ++ ["SELECT"; b; "FROM"; u]) ["SELECT"; a; "FROM"; t; "WHERE"; x; "="; n]
| na_all a t b u : any_name a -> any_name t -> any_name b -> any_name u ->
    narrowed (["SELECT"; a; "FROM"; t] ++ ["UNION"; "ALL"] ++ ["SELECT"; b; "FROM"; u]) ["SELECT"; a; "FROM"; t]
| na_also c t b u : any_name c -> any_name t -> any_name b -> any_name u ->
    narrowed (["SELECT"; c; "FROM"; listed_name t] ++ subquery b u) ["SELECT"; c; "FROM"; t].

(** a second name: with AS or without *)
Inductive alias := Unnamed | Named (b : string) | As (b : string).
Definition alias_words (a : alias) : list string := match a with Unnamed => [] | Named b => [b] | As b => ["AS"; b] end.
Definition alias_ok (a : alias) : Prop := match a with Unnamed => True | Named b | As b => any_name b end.
Definition glued (x : string) (a : alias) : string := String.concat "" (x :: alias_words a).

(** what can follow the values of an INSERT *)
Inductive after_insert : list string -> Prop :=
| ai_nothing : after_insert ["ON"; "CONFLICT"; "DO"; "NOTHING"]
| ai_nothing_at d : any_name d -> after_insert ["ON"; "CONFLICT"; in_parentheses d; "DO"; "NOTHING"]
| ai_update e m : any_name e -> number m -> after_insert ["ON"; "CONFLICT"; "DO"; "UPDATE"; "SET"; e; "="; m]
| ai_update_at d e m : any_name d -> any_name e -> number m -> after_insert ["ON"; "CONFLICT"; in_parentheses d; "DO"; "UPDATE"; "SET"; e; "="; m]
| ai_returning r : any_name r -> after_insert ["RETURNING"; r].
Definition insert_one (t c v : string) (a : alias) : list string := ["INSERT"; "INTO"; t] ++ alias_words a ++ [in_parentheses c; "VALUES"; in_parentheses v].
Definition restricted (o : option (string * string)) : list string := match o with Some (x, n) => ["WHERE"; x; "="; n] | None => [] end.
Definition restricted_ok (o : option (string * string)) : Prop := match o with Some (x, n) => any_name x /\ number n | None => True end.
(** the words of a statement that changes data, and those of another one, which does something else or does not return the rows asked for *)
Inductive unheeded : list string -> list string -> Prop :=
| uh_insert t c v ws : any_name t -> any_name c -> number v -> after_insert ws -> unheeded (insert_one t c v Unnamed ++ ws) (insert_one t c v Unnamed)
| uh_insert_as t u c v : any_name t -> any_name u -> any_name c -> number v -> unheeded (insert_one t c v (As u)) (insert_one t c v Unnamed)
| uh_update_or k t c v : In k ["REPLACE"; "ROLLBACK"; "ABORT"; "FAIL"; "IGNORE"] -> any_name t -> any_name c -> number v ->
    unheeded ["UPDATE"; "OR"; k; t; "SET"; c; "="; v] ["UPDATE"; t; "SET"; c; "="; v]
| uh_update_from t c v u w : any_name t -> any_name c -> number v -> any_name u -> restricted_ok w ->
    unheeded (["UPDATE"; t; "SET"; c; "="; v; "FROM"; u] ++ restricted w) (["UPDATE"; t; "SET"; c; "="; v] ++ restricted w)
| uh_update t c v w r : any_name t -> any_name c -> number v -> restricted_ok w -> any_name r ->
    unheeded (["UPDATE"; t; "SET"; c; "="; v] ++ restricted w ++ ["RETURNING"; r]) (["UPDATE"; t; "SET"; c; "="; v] ++ restricted w)
| uh_delete t w r : any_name t -> restricted_ok w -> any_name r ->
    unheeded (["DELETE"; "FROM"; t] ++ restricted w ++ ["RETURNING"; r]) (["DELETE"; "FROM"; t] ++ restricted w).

(** an expression over columns that is no column and no call *)
Inductive computed : list string -> Prop :=
| cm_not a : any_name a -> computed ["NOT"; a]
| cm_collate a x : any_name a -> any_name x -> computed [a; "COLLATE"; x]
| cm_like a n o b : any_name a -> In o ["LIKE"; "GLOB"; "REGEXP"; "MATCH"] -> any_name b -> computed (a :: given n "NOT" ++ [o; b])
| cm_is a n b : any_name a -> any_name b -> computed (a :: "IS" :: given n "NOT" ++ [b])
| cm_null a ws : any_name a -> In ws [["IS"; "NULL"]; ["IS"; "NOT"; "NULL"]; ["ISNULL"]; ["NOTNULL"]; ["NOT"; "NULL"]] -> computed (a :: ws)
| cm_between a b c : any_name a -> any_name b -> any_name c -> computed [a; "BETWEEN"; b; "AND"; c]
| cm_cast a d : any_name a -> any_name d -> computed ["CAST"; opened a; "AS"; closed d]
| cm_case a b c d : any_name a -> any_name b -> any_name c -> any_name d -> computed ["CASE"; a; "WHEN"; b; "THEN"; c; "ELSE"; d; "END"].

(** the words of a query, and those of another one, with other results *)
Inductive overlooked : list string -> list string -> Prop :=
| ol_distinct f a t : any_name f -> any_name a -> any_name t -> overlooked ["SELECT"; f; opened "DISTINCT"; closed a; "FROM"; t] ["SELECT"; f; in_parentheses a; "FROM"; t]
| ol_filter f a x n t : any_name f -> any_name a -> any_name x -> number n -> any_name t ->
    overlooked ["SELECT"; f; in_parentheses a; "FILTER"; opened "WHERE"; x; "="; closed n; "FROM"; t] ["SELECT"; f; in_parentheses a; "FROM"; t]
| ol_over f a w t : any_name f -> any_name a -> any_name w -> any_name t -> overlooked ["SELECT"; f; in_parentheses a; "OVER"; w; "FROM"; t] ["SELECT"; f; in_parentheses a; "FROM"; t]
| ol_as f a b t : any_name f -> any_name a -> any_name b -> any_name t -> overlooked ["SELECT"; f; in_parentheses a; "AS"; b; "FROM"; t] ["SELECT"; f; in_parentheses a; "FROM"; t]
| ol_nulls a t o d n : any_name a -> any_name t -> any_name o -> In d ["ASC"; "DESC"] -> In n ["FIRST"; "LAST"] ->
    overlooked (["SELECT"; a; "FROM"; t; "ORDER"; "BY"; o; d] ++ ["NULLS"; n]) ["SELECT"; a; "FROM"; t; "ORDER"; "BY"; o; d].

(** what can follow the name of a table *)
Inductive hint : list string -> Prop :=
| hi_index i : any_name i -> hint ["INDEXED"; "BY"; i]
| hi_none : hint ["NOT"; "INDEXED"].
