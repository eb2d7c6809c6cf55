(** Texts that differ in the case of letters, and the words of a parse tree whose spelling counts. *)
From Verif Require Import GoBase ModelEbnf.

(** two texts with the same letters, but for upper and lower case *)
Definition same_letters (a b : string) : Prop := to_upper a = to_upper b.

(** two parse trees that are the same but for upper and lower case in the texts of the tokens *)
Inductive respelt : tree -> tree -> Prop :=
| respelt_leaf a b : tk a = tk b -> same_letters (tx a) (tx b) -> respelt (Leaf a) (Leaf b)
| respelt_node r cs ds : Forall2 (fun c d => fst c = fst d /\ respelt (snd c) (snd d)) cs ds ->
    respelt (Node r cs) (Node r ds).

(** The parts of a statement that hold the user's own words: names of all kinds, types, literals,
    parameters, the columns of a query, the tables after FROM, arithmetic. *)
Definition own_rules : list string :=
  ["database_name"; "schema_name"; "table_name"; "qualified_table_name"; "from_table"; "column_name";
   "drop_table_column"; "index_name"; "source_name"; "name"; "signed_number"; "literal_value"; "bind_param";
   "result_column"; "arithmetic_expr"]%string.
(** by their label: the names and the GROUP BY expressions; and the expressions of ORDER BY and LIMIT *)
Definition own_labels : list string :=
  ["new_database_name"; "target_table_name"; "old_column_name"; "new_column_name"; "table"; "groupByExpr"]%string.
Definition own_part (parent label : string) (t : tree) : bool :=
  existsb (String.eqb label) own_labels
  || (existsb (String.eqb parent) ["ordering_term"; "limit_stmt"]%string && is_rule "expr" t).

(** the texts of those parts, from left to right; keywords anywhere else are not among them *)
Fixpoint own_words (t : tree) : list string :=
  match t with
  | Leaf _ => []
  | Node r cs =>
      if existsb (String.eqb r) own_rules then [text t]
      else (fix go (cs : children) : list string :=
              match cs with
              | [] => []
              | (l, c) :: rest => (if own_part r l c then [text c] else own_words c) ++ go rest
              end) cs
  end.
