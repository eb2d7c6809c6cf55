(** CREATE TABLE as users write it. *)
From Verif Require Import GoBase ModelNum ModelQuery SpecFn SpecQuery SpecRound SpecSelect.
Local Open Scope string_scope.

Inductive column_constraint := PrimaryKey (autoincrement : bool) | NotNull | Nullable | Unique | Default (l : literal).
(** none, a length, a precision and a scale *)
Inductive size := NoSize | Length (n : N) | Precision (n m : N).
Record column_decl := mkDecl { cl_name : string; cl_type : string; cl_size : size; cl_constraints : list column_constraint }.
Inductive key := PrimaryOver (columns : list string) | UniqueOver (columns : list string).
Record table_decl := mkTable { tb_name : string; tb_if_not_exists : bool; tb_columns : list column_decl; tb_keys : list key }.

(** ** Text *)

Definition constraint_text (c : column_constraint) : string :=
  match c with
  | PrimaryKey false => "PRIMARY KEY" | PrimaryKey true => "PRIMARY KEY AUTOINCREMENT"
  | NotNull => "NOT NULL" | Nullable => "NULL" | Unique => "UNIQUE" | Default l => "DEFAULT " ++ literal_text l
  end.
Definition size_text (s : size) : string :=
  match s with NoSize => "" | Length n => "(" ++ show_N n ++ ")" | Precision n m => "(" ++ show_N n ++ ", " ++ show_N m ++ ")" end.
Definition decl_text (c : column_decl) : string :=
  cl_name c ++ " " ++ cl_type c ++ size_text (cl_size c) ++ fold_right (fun k r => " " ++ constraint_text k ++ r) "" (cl_constraints c).
Definition key_text (k : key) : string :=
  match k with PrimaryOver l => "PRIMARY KEY (" ++ join ", " l ++ ")" | UniqueOver l => "UNIQUE (" ++ join ", " l ++ ")" end.
Definition table_text (t : table_decl) : string :=
  "CREATE TABLE " ++ (if tb_if_not_exists t then "IF NOT EXISTS " else "") ++ tb_name t ++ " ("
  ++ join ", " (map decl_text (tb_columns t) ++ map key_text (tb_keys t)) ++ ")".

(** ** The tables meant *)

(** the word for a type: a name, or one of two keywords *)
Definition type_name (w : string) : Prop := name w \/ In (to_upper w) ["TEXT"; "SET"].
Definition declares (w : string) (t : dtype) : Prop := exists n, named_type t n /\ spells w n.
Definition constraint_ok (c : column_constraint) : Prop := match c with Default l => literal_ok l | _ => True end.
Definition key_columns (k : key) : list string := match k with PrimaryOver l | UniqueOver l => l end.
Definition decl_ok (c : column_decl) : Prop := bare_name (cl_name c) /\ type_name (cl_type c) /\ Forall constraint_ok (cl_constraints c).
Record table_decl_ok (t : table_decl) : Prop := {
  tk_name : bare_name (tb_name t);
  tk_columns : some decl_ok (tb_columns t);
  tk_keys : Forall (fun k => some bare_name (key_columns k)) (tb_keys t)
}.

(** ** What it asks for *)

(** a column with the name, type and length of its declaration (-1 where there is none) *)
Inductive as_declared (c : column_decl) : column -> Prop :=
| ad_plain t : declares (cl_type c) t -> cl_size c = NoSize -> as_declared c (new_def_column (cl_name c) (new_data_def t (-1)))
| ad_length t n : declares (cl_type c) t -> cl_size c = Length n -> as_declared c (new_def_column (cl_name c) (new_data_def t (Z.of_N n))).
(** the declarations for which the model of a column has room: a known type, and a length that is an int *)
Definition fits (c : column_decl) : Prop :=
  (exists t, declares (cl_type c) t) /\ match cl_size c with NoSize => True | Length n => (n < 2 ^ 63)%N | Precision _ _ => False end.
(** the primary keys: those of columns, then those of the table, each with the names of its columns *)
Definition column_keys (c : column_decl) : list (list string) :=
  flat_map (fun k => match k with PrimaryKey _ => [[cl_name c]] | _ => [] end) (cl_constraints c).
Definition table_keys (t : table_decl) : list (list string) :=
  flat_map column_keys (tb_columns t) ++ flat_map (fun k => match k with PrimaryOver l => [l] | UniqueOver _ => [] end) (tb_keys t).
(** a primary index over the columns of these names *)
Definition is_primary_over (names : list string) (i : index) : Prop := i_type i = PrimaryIndex /\ map c_name (i_columns i) = names.

(** the declaration with nothing but its primary keys: no NOT NULL, NULL, UNIQUE, DEFAULT or AUTOINCREMENT *)
Definition only_keys (t : table_decl) : table_decl :=
  mkTable (tb_name t) (tb_if_not_exists t)
    (map (fun c => mkDecl (cl_name c) (cl_type c) (cl_size c)
      (flat_map (fun k => match k with PrimaryKey _ => [PrimaryKey false] | _ => [] end) (cl_constraints c))) (tb_columns t))
    (flat_map (fun k => match k with PrimaryOver l => [PrimaryOver l] | UniqueOver _ => [] end) (tb_keys t)).
