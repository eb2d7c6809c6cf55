(** Model of columns, literals and statements made from options, and of what they answer: sql/query/column.go, literal.go, select.go,
    alter_table.go, copy.go and sql/system/schema_column_impl.go. *)
From Verif Require Import GoBase ModelUtil ModelNum ModelAggr ModelFn ModelQuery.

(** ** literal.go *)

(** literal.go:53-69, 95-109: NewLiteralWith with its options, and the setters *)
Inductive lit_step := SetType (t : ltype) | SetValue (v : value).
Definition lit_apply (l : literal) (s : lit_step) : literal :=
  match s with SetType t => mkLit (l_value l) t | SetValue v => mkLit v (l_type l) end.
Definition new_literal (v : value) (steps : list lit_step) : literal := fold_left lit_apply steps (mkLit v UnknownLiteral).

Section Equal.
  (** safecast.Equal *)
  Context (same : value -> value -> bool).
  (** literal.go:77-82; [None] is a nil literal *)
  Definition lit_equal (l : option literal) (v : value) : bool :=
    match l with
    | None => false
    | Some l => match l_value l with VNil => false | w => same w v end
    end.
  (** literal.go:85-92 *)
  Definition lit_is_asterisk (l : option literal) : bool := lit_equal l (VStr "*").
  Definition lit_is_place_holder (l : option literal) : bool := lit_equal l (VStr "?").
  (** column.go:77-83: the methods of the embedded literal are those of the column *)
  Definition col_equal (c : column) (v : value) : bool := lit_equal (c_lit c) v.
  Definition col_is_asterisk (c : column) : bool := lit_is_asterisk (c_lit c).
  Definition col_is_place_holder (c : column) : bool := lit_is_place_holder (c_lit c).
End Equal.
(** literal.go:72-74, 101-103, 112-114 of the embedded literal *)
Definition col_has_value (c : column) : bool := match c_lit c with Some _ => true | None => false end.
Definition col_value (c : column) : result value := match c_lit c with Some l => Ok (l_value l) | None => Panic end.
Definition col_value_type (c : column) : result ltype := match c_lit c with Some l => Ok (l_type l) | None => Panic end.
(** literal.go:117-126 *)
Definition col_value_string (c : column) : string := opt_literal_string (c_lit c).

(** ** column.go *)

(** column.go:101-142; an executor is the package's [e] with argument names [args] *)
Inductive colopt :=
| CoName (s : string) | CoData (d : option data_def) | CoLiteral (l : option literal) | CoFunction (f : option func)
| CoExecutor (e : exe) (args : list string) | CoArgs (l : list string).
Definition colopt_apply (c : column) (o : colopt) : column :=
  match o with
  | CoName s => mkCol s (c_def c) (c_lit c) (c_fn c) (c_args c)
  | CoData d => mkCol (c_name c) d (c_lit c) (c_fn c) (c_args c)
  | CoLiteral l => mkCol (c_name c) (c_def c) l (c_fn c) (c_args c)
  | CoFunction f => mkCol (c_name c) (c_def c) (c_lit c) f (c_args c)
  | CoExecutor e a => mkCol (c_name c) (c_def c) (c_lit c) (Some (mkFunc (exe_type e) (exe_name e) (Some (e, a)) None [])) (c_args c)
  | CoArgs l => mkCol (c_name c) (c_def c) (c_lit c) (c_fn c) l
  end.
(** column.go:86-98 *)
Definition make_column (opts : list colopt) : column := fold_left colopt_apply opts (mkCol "" None None None []).

(** ** select.go:54-88 *)
Inductive selopt := SoOrderBy (l : list order) | SoLimit (offset limit : N) | SoGroupBy (s : string).
Definition selopt_apply (s : select) (o : selopt) : select :=
  match o with
  | SoOrderBy l => mkSelect (sel_tables s) (sel_selectors s) (sel_where s) l (sel_limit s) (sel_group_by s)
  | SoLimit off lim => mkSelect (sel_tables s) (sel_selectors s) (sel_where s) (sel_order_by s) (mkLimit off lim) (sel_group_by s)
  | SoGroupBy g => mkSelect (sel_tables s) (sel_selectors s) (sel_where s) (sel_order_by s) (sel_limit s) g
  end.
Definition make_select (sels : list selector) (tbls : list table) (w : condition) (opts : list selopt) : select :=
  fold_left selopt_apply opts (new_select sels tbls w).

(** ** alter_table.go:57-128; the schema name is kept beside the statement, the table being made last *)
Inductive altopt :=
| AoSchema (s : string) | AoRenameTo (t : option table) | AoRenameColumn (from to : option column) | AoAddColumn (c : option column)
| AoAddIndex (i : option index) | AoDropColumn (c : option column) | AoDropIndex (i : option index).
Record alter_parts := mkParts {
  ap_schema : string; ap_rename_to : option table; ap_from : option column; ap_to : option column; ap_add_column : option column;
  ap_add_index : option index; ap_drop_column : option column; ap_drop_index : option index }.
Definition altopt_apply (p : alter_parts) (o : altopt) : alter_parts :=
  match o with
  | AoSchema s => mkParts s (ap_rename_to p) (ap_from p) (ap_to p) (ap_add_column p) (ap_add_index p) (ap_drop_column p) (ap_drop_index p)
  | AoRenameTo t => mkParts (ap_schema p) t (ap_from p) (ap_to p) (ap_add_column p) (ap_add_index p) (ap_drop_column p) (ap_drop_index p)
  | AoRenameColumn f t => mkParts (ap_schema p) (ap_rename_to p) f t (ap_add_column p) (ap_add_index p) (ap_drop_column p) (ap_drop_index p)
  | AoAddColumn c => mkParts (ap_schema p) (ap_rename_to p) (ap_from p) (ap_to p) c (ap_add_index p) (ap_drop_column p) (ap_drop_index p)
  | AoAddIndex i => mkParts (ap_schema p) (ap_rename_to p) (ap_from p) (ap_to p) (ap_add_column p) i (ap_drop_column p) (ap_drop_index p)
  | AoDropColumn c => mkParts (ap_schema p) (ap_rename_to p) (ap_from p) (ap_to p) (ap_add_column p) (ap_add_index p) c (ap_drop_index p)
  | AoDropIndex i => mkParts (ap_schema p) (ap_rename_to p) (ap_from p) (ap_to p) (ap_add_column p) (ap_add_index p) (ap_drop_column p) i
  end.
(** alter_table.go:136-181: what the accessors return is what [alter] holds; RenameColumns needs both columns (144-149) *)
Definition make_alter (name : string) (opts : list altopt) : alter :=
  let p := fold_left altopt_apply opts (mkParts "" None None None None None None None) in
  mkAlter (if 0 <? String.length (ap_schema p) then mkTbl (ap_schema p) name else new_table name) (ap_rename_to p)
          (match ap_from p, ap_to p with Some f, Some t => Some (f, t) | _, _ => None end)
          (ap_add_column p) (ap_add_index p) (ap_drop_column p) (ap_drop_index p).

(** ** copy.go:52-102 *)
Inductive copyopt := CpColumns (l : list column) | CpFormat (s : string).
Definition copyopt_apply (p : list column * copy_format) (o : copyopt) : list column * copy_format :=
  match o with CpColumns l => (l, snd p) | CpFormat s => (fst p, set_copy_format (snd p) s) end.
Definition make_copy (name src : string) (opts : list copyopt) : stmt :=
  let p := fold_left copyopt_apply opts ([], CopyText) in SCopy (new_table name) (fst p) src (snd p).

(** ** sql/system/schema_column_impl.go *)

Section SysColumn.
  (** Go values with nil; safecast.ToString ([None]: an error); query.NewDataTypeFrom (data_type.go:116-129) *)
  Context {V : Type} (to_str : V -> option string) (to_type : V -> result dtype).
  (** schema_column_impl.go:24-31 *)
  Record info_column := mkInfo {
    in_catalog : string; in_schema : string; in_table : string; in_name : string; in_type : dtype; in_constraint : N }.
  (** schema_column_impl.go:36-105 *)
  Inductive infoopt := IoCatalog (v : V) | IoSchema (v : V) | IoTable (v : V) | IoName (v : V) | IoType (v : V) | IoConstraint (v : V).
  Definition info_str (v : V) (k : string -> info_column) : result info_column :=
    match to_str v with Some s => Ok (k s) | None => Err ErrInvalid end.
  Definition infoopt_apply (c : info_column) (o : infoopt) : result info_column :=
    match o with
    | IoCatalog v => info_str v (fun s => mkInfo s (in_schema c) (in_table c) (in_name c) (in_type c) (in_constraint c))
    | IoSchema v => info_str v (fun s => mkInfo (in_catalog c) s (in_table c) (in_name c) (in_type c) (in_constraint c))
    | IoTable v => info_str v (fun s => mkInfo (in_catalog c) (in_schema c) s (in_name c) (in_type c) (in_constraint c))
    | IoName v => info_str v (fun s => mkInfo (in_catalog c) (in_schema c) (in_table c) s (in_type c) (in_constraint c))
    | IoType v => rbind (to_type v) (fun t => Ok (mkInfo (in_catalog c) (in_schema c) (in_table c) (in_name c) t (in_constraint c)))
    | IoConstraint _ => Ok c
    end.
  (** schema_column_impl.go:108-123 *)
  Definition make_info (opts : list infoopt) : result info_column :=
    fold_left (fun r o => rbind r (fun c => infoopt_apply c o)) opts (Ok (mkInfo "" "" "" "" UnknownData 0%N)).
End SysColumn.
Arguments infoopt : clear implicits.
