(** What the properties of sql/system (C38, C39) mean, in plain terms. *)
From Verif Require Import GoBase ModelNum ModelFn ModelQuery ModelSystem SpecFn SpecQuery.

(** The condition is a conjunction of equations of a column and a text, in this order. *)
Inductive equations : expr -> list (string * string) -> Prop :=
| eq_one c t v : equations (ECmp OpEQ c (Some (mkLit (VStr v) t))) [(c_name c, v)]
| eq_and a b p q : equations a p -> equations b q -> equations (EAnd a b) (p ++ q).

(** the tables the equations name, in order *)
Inductive tables_in : list (string * string) -> list string -> Prop :=
| ti_nil : tables_in [] []
| ti_here c t p l : same_text c "TABLE_NAME" -> tables_in p l -> tables_in ((c, t) :: p) (t :: l)
| ti_other c t p l : ~ same_text c "TABLE_NAME" -> tables_in p l -> tables_in ((c, t) :: p) l.
(** the database they name: the last one, or the one that was set before *)
Inductive database_in (before : string) : list (string * string) -> string -> Prop :=
| di_before p : (forall c d, In (c, d) p -> ~ same_text c "TABLE_SCHEMA") -> database_in before p before
| di_last p c d q : same_text c "TABLE_SCHEMA" -> (forall c' d', In (c', d') q -> ~ same_text c' "TABLE_SCHEMA") ->
    database_in before (p ++ (c, d) :: q) d.

(** a comparison in the condition has nothing on its right *)
Inductive lacks_literal : expr -> Prop :=
| la_cmp op c : lacks_literal (ECmp op c None)
| la_and_l a b : lacks_literal a -> lacks_literal (EAnd a b)
| la_and_r a b : lacks_literal b -> lacks_literal (EAnd a b)
| la_or_l a b : lacks_literal a -> lacks_literal (EOr a b)
| la_or_r a b : lacks_literal b -> lacks_literal (EOr a b).

(** [c] is the description of a column of a table *)
Definition describes (d : sys_column) (c : column) : Prop :=
  sc_name d = c_name c /\ exists df, c_def c = Some df /\ d_type df = sc_type d.
(** every column of the schema has one of the types with a name *)
Definition typed_schema (s : schema) : Prop :=
  forall c, In c (s_columns s) -> exists df n, c_def c = Some df /\ named_type (d_type df) n.
