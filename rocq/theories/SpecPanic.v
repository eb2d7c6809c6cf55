(** The places of a parse tree that the visitor cannot cope with, in terms of the grammar alone. *)
From Verif Require Import GoBase ModelEbnf.

(** [below path t x]: x is reached from t by going to a child node of the first rule of the path, from
    there to a child node of the second rule, and so on. *)
Inductive below : list string -> tree -> tree -> Prop :=
| below_here t : below [] t t
| below_down r path n cs l ds x :
    In (l, Node r ds) cs -> below path (Node r ds) x -> below (r :: path) (Node n cs) x.
(** no child of t is a node of the rule *)
Definition without (r : string) (t : tree) : Prop := forall x, ~ below [r] t x.

(** An INSERT that takes its rows from a query or from DEFAULT VALUES. *)
Definition insert_without_values (t : tree) : Prop :=
  exists x, below ["sql_stmt_list"; "sql_stmt"; "insert_stmt"] t x /\ without "values_clause" x.
(** An index or a primary key over something that is not just a column. *)
Definition index_on_expression (t : tree) : Prop :=
  exists x, (below ["sql_stmt_list"; "sql_stmt"; "create_index_stmt"; "indexed_column"] t x
             \/ below ["sql_stmt_list"; "sql_stmt"; "create_table_stmt"; "table_constraint"; "primary_key_def";
                       "indexed_column"] t x)
            /\ without "column_name" x.
(** An UPDATE that assigns to a list of columns. *)
Definition update_of_a_list (t : tree) : Prop :=
  exists x, below ["sql_stmt_list"; "sql_stmt"; "update_stmt"; "update_column_set"] t x /\ without "column_name" x.
Definition unreadable (t : tree) : Prop :=
  insert_without_values t \/ index_on_expression t \/ update_of_a_list t.
