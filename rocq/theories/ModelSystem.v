(** Model of sql/system: the statements and result sets of information_schema.columns. *)
From Verif Require Import GoBase ModelNum ModelFn ModelQuery ModelEbnf ModelGrammar ModelLex ModelVisitor ModelResultSet.

(** schema_columns.go:26-38 *)
Definition schema_columns : string := "information_schema.COLUMNS".
Definition schema_columns_query : string := ("SELECT * FROM " ++ schema_columns)%string.

(** schema_columns.go:41-50 *)
Definition is_schema_columns_query (s : select) : bool :=
  match sel_tables s with
  | [t] => equal_fold (full_table_name t) schema_columns
  | _ => false
  end.

(** schema_columns_stmt_impl.go:24-28 *)
Record columns_stmt := mkColumnsStmt { cs_select : select; cs_db : string; cs_tables : list string }.

(** schema_columns_stmt_impl.go:77-90 *)
Definition generated_query (db : string) (tables : list string) : string :=
  (schema_columns_query ++ " WHERE "
   ++ (if (0 <? String.length db)%nat then "TABLE_SCHEMA = '" ++ db ++ "'" else "")
   ++ match tables with
      | [] => ""
      | [t] => " AND TABLE_NAME = '" ++ t ++ "'"
      | _ => " AND TABLE_NAME IN (" ++ join "," (map (fun t => "'" ++ t ++ "'") tables) ++ ")"
      end)%string.

(** schema_columns_resutset.go:35-44 *)
Fixpoint or_names (first : bool) (tables : list string) : string :=
  match tables with
  | [] => ""
  | t :: rest => ((if first then "" else " OR ") ++ "TABLE_NAME = '" ++ t ++ "'" ++ or_names false rest)%string
  end.
Definition table_names_query_text (tables : list string) : string :=
  (schema_columns_query ++ match tables with [] => "" | _ => " WHERE " ++ or_names true tables end)%string.

Section Parse.
  (** the entries of the map dataTypeStrings in the order the parser meets them *)
  Context (entries : list (dtype * string)).

  (** schema_columns_stmt_impl.go:91-103 and schema_columns_resutset.go:45-55: exactly one statement, and
      it is a SELECT *)
  Definition parse_select (q : string) : result select :=
    rbind (parse entries q)
          (fun l => match l with [SSelect s] => Ok s | _ => Err ErrInvalid end).

  (** schema_columns_stmt_impl.go:76-105 *)
  Definition generate_select (db : string) (tables : list string) : result columns_stmt :=
    rbind (parse_select (generated_query db tables)) (fun s => Ok (mkColumnsStmt s db tables)).

  (** schema_columns_resutset.go:34-56 *)
  Definition table_names_query (tables : list string) : result select :=
    parse_select (table_names_query_text tables).

  (** schema_columns_stmt_impl.go:108-138: the database and the tables so far.  A comparison without
      literal is a nil pointer. *)
  Fixpoint traverse (e : expr) (db : string) (tables : list string) : result (string * list string) :=
    match e with
    | EAnd a b => rbind (traverse a db tables) (fun r => traverse b (fst r) (snd r))
    | ECmp OpEQ c None => Panic
    | ECmp OpEQ c (Some l) =>
        match l_value l with
        | VStr v =>
            if equal_fold (c_name c) "TABLE_SCHEMA" then Ok (v, tables)
            else if equal_fold (c_name c) "TABLE_NAME" then Ok (db, tables ++ [v])
            else Ok (db, tables)
        | _ => Err ErrInvalid
        end
    | _ => Err ErrInvalid
    end.

  (** schema_columns_stmt_impl.go:140-149: without condition the expression is nil *)
  Definition traverse_select (s : select) (db : string) : result columns_stmt :=
    match sel_where s with
    | Some e => rbind (traverse e db []) (fun r => Ok (mkColumnsStmt s (fst r) (snd r)))
    | None => Err ErrInvalid
    end.

  (** schema_columns_stmt_impl.go:55-74; the options are the database name, the table names and the
      SELECT, unset when [""], [[]] and [None] *)
  Definition new_columns_stmt (db : string) (tables : list string) (s : option select) : result columns_stmt :=
    match s with
    | None => generate_select db tables
    | Some s => traverse_select s db
    end.

  (** ** The result set *)

  (** schema_columns_resutset_schema.go:35-59, the names of its columns; none has a function *)
  Definition columns_schema : list (rcolumn value) :=
    map (fun n => mkRcolumn n None) ["TABLE_CATALOG"; "TABLE_SCHEMA"; "TABLE_NAME"; "COLUMN_NAME"; "DATA_TYPE"]%string.

  (** schema_columns_resutset_from.go:77-92: the object of one column.  A column without definition has a
      nil ColumnDef. *)
  Definition column_object (c : column) : result (object value) :=
    match c_def c with
    | None => Panic
    | Some d => Ok [("TABLE_CATALOG", Some (VStr "def")); ("TABLE_SCHEMA", Some (VStr "information_schema"));
                    ("TABLE_NAME", Some (VStr "COLUMNS")); ("COLUMN_NAME", Some (VStr (c_name c)));
                    ("DATA_TYPE", Some (VStr (data_type_string (d_type d))))]%string
    end.

  Fixpoint objects (cs : list column) : result (list (object value)) :=
    match cs with
    | [] => Ok []
    | c :: rest => rbind (column_object c) (fun o => rbind (objects rest) (fun l => Ok (o :: l)))
    end.

  (** schema_columns_resutset_from.go:69-107; the schema of the result set is [columns_schema] *)
  Definition result_set_from_schemas (schemas : list schema) : result (rset (object value)) :=
    rbind (objects (concat (map s_columns schemas))) (fun rows => Ok (new_rset rows 0 0)).

  (** schema_column_impl.go:24-31 *)
  Record sys_column := mkSysColumn {
    sc_catalog : string; sc_schema : string; sc_table : string; sc_name : string; sc_type : dtype }.

  (** safecast.ToString of a value that may be nil ([None] is an error), and query.NewDataTypeFrom of a
      value that is not a string (data_type.go:116-129) *)
  Context (to_str : option value -> option string) (other_type : option value -> result dtype).

  (** data_type.go:116-129 *)
  Definition data_type_from (v : option value) : result dtype :=
    match v with Some (VStr s) => data_type_from_string entries s | _ => other_type v end.

  (** schema_column_impl.go:36-86, one option *)
  Definition str_option (v : option value) : result string :=
    match to_str v with Some s => Ok s | None => Err ErrInvalid end.

  (** schema_columns_resutset_from.go:26-58: the column a row describes *)
  Definition column_of_row (r : row value) : result sys_column :=
    let get n := snd (row_value_by r n) in
    rbind (get "TABLE_CATALOG"%string) (fun catalog =>
    rbind (get "TABLE_SCHEMA"%string) (fun sch =>
    rbind (get "TABLE_NAME"%string) (fun tbl =>
    rbind (get "COLUMN_NAME"%string) (fun nm =>
    rbind (get "DATA_TYPE"%string) (fun typ =>
    rbind (str_option catalog) (fun catalog' =>
    rbind (str_option sch) (fun sch' =>
    rbind (str_option tbl) (fun tbl' =>
    rbind (str_option nm) (fun nm' =>
    rbind (data_type_from typ) (fun typ' =>
    Ok (mkSysColumn catalog' sch' tbl' nm' typ'))))))))))).

  (** schema_columns_resutset_from.go:23-66 on a result set with the columns [cols], giving up after
      [fuel] rounds ([None]) *)
  Fixpoint columns_from_result_set (fuel : nat) (cols : list (rcolumn value)) (rs : rset (object value))
    : option (result (list sys_column)) :=
    match fuel with
    | O => None
    | S fuel' =>
        let (rs', more) := rs_next rs in
        if more then
          match rbind (rs_row (new_row_from_object cols) rs') column_of_row with
          | Ok c =>
              match columns_from_result_set fuel' cols rs' with
              | Some (Ok l) => Some (Ok (c :: l))
              | r => r
              end
          | Err e => Some (Err e)
          | Panic => Some Panic
          end
        else Some (Ok [])
    end.
End Parse.

(** schema_columns_resutset_impl.go:57-64 *)
Fixpoint sys_lookup_column (cs : list sys_column) (name : string) : result sys_column :=
  match cs with
  | [] => Err ErrNotFound
  | c :: rest => if equal_fold (sc_name c) name then Ok c else sys_lookup_column rest name
  end.
