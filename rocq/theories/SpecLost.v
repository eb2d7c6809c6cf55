(** Which statement of a parse tree a reported statement stands for, and where the tree has a condition
    that can be reported. *)
From Verif Require Import GoBase ModelEbnf ModelQuery SpecPanic.

(** the rule of the grammar for a statement of the kind *)
Definition kind (s : stmt) : string :=
  match s with
  | SCreateDatabase _ _ => "create_database_stmt"
  | SCreateTable _ _ => "create_table_stmt"
  | SCreateIndex _ _ => "create_index_stmt"
  | SAlterDatabase _ _ => "alter_database_stmt"
  | SAlterTable _ => "alter_table_stmt"
  | SDropDatabase _ _ => "drop_database_stmt"
  | SDropTable _ _ => "drop_table_stmt"
  | SDropIndex _ _ _ => "drop_index_stmt"
  | SInsert _ _ => "insert_stmt"
  | SSelect _ => "select_stmt"
  | SUpdate _ _ _ => "update_stmt"
  | SDelete _ _ => "delete_stmt"
  | SBegin => "begin_stmt"
  | SCommit => "commit_stmt"
  | SRollback => "rollback_stmt"
  | SUse _ => "use_stmt"
  | SCopy _ _ _ _ => "copy_stmt"
  | STruncate _ => "truncate_stmt"
  | SVacuum _ => "vacuum_stmt"
  end.
Definition kinds : list string :=
  ["create_database_stmt"; "create_table_stmt"; "create_index_stmt"; "alter_database_stmt"; "alter_table_stmt";
   "drop_database_stmt"; "drop_table_stmt"; "drop_index_stmt"; "insert_stmt"; "select_stmt"; "update_stmt";
   "delete_stmt"; "begin_stmt"; "commit_stmt"; "rollback_stmt"; "use_stmt"; "copy_stmt"; "truncate_stmt";
   "vacuum_stmt"]%string.

(** the condition of a statement *)
Definition where_of (s : stmt) : condition :=
  match s with
  | SSelect q => sel_where q
  | SUpdate _ _ w | SDelete _ w => w
  | _ => None
  end.
(** [condition_at t w]: w is the node of the condition of the statement t (of the first query, for a SELECT) *)
Inductive condition_at : tree -> tree -> Prop :=
| condition_here n cs w : (n = "update_stmt" \/ n = "delete_stmt")%string ->
    In ("whereExpr"%string, w) cs -> condition_at (Node n cs) w
| condition_select cs q ds w :
    In ("parentQuery"%string, Node q ds) cs -> In ("whereExpr"%string, w) ds -> condition_at (Node "select_stmt" cs) w.
(** a comparison, or two of them joined by AND or by OR *)
Definition simple_condition (w : tree) : Prop :=
  exists r x, In r ["comparison_expr"; "and_expr"; "or_expr"]%string /\ below [r] w x.

(** the statement s is what is reported for the node t *)
Definition stands_for (s : stmt) (t : tree) : Prop :=
  exists x, below [kind s] t x /\
    (where_of s <> None <-> exists w, condition_at x w /\ simple_condition w).
(** the node is a statement of a kind that is never reported *)
Definition passed_over (t : tree) : Prop := forall r, In r kinds -> without r t.

(** [report ss ts]: the statements ss are those of the nodes ts, in order, but for the kinds never reported *)
Inductive report : list stmt -> list tree -> Prop :=
| report_nil : report [] []
| report_stmt s ss t ts : stands_for s t -> report ss ts -> report (s :: ss) (t :: ts)
| report_skip ss t ts : passed_over t -> report ss ts -> report ss (t :: ts).
(** the statement nodes of a parse tree, in order *)
Definition statements (t : tree) : list tree := concat (map (subs "sql_stmt") (subs "sql_stmt_list" t)).
