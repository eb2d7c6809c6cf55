(** Model of sql/query: literals, columns, data types, indexes, schemas, tables, selectors, conditions
    and statements, with their constructors, accessors and String methods. *)
From Coq Require Import Floats.SpecFloat.
From Verif Require Import GoBase ModelUtil ModelNum ModelFn.

(** ** data_type.go *)

(** data_type.go:27-72 *)
Inductive dtype :=
| UnknownData | BigIntType | BinaryType | BitType | BlobType | BooleanType | CharType | CharacterType
| ClobType | DateType | DateTimeType | DecimalType | DoubleType | DoublePrecisionType | FloatType
| IntType | IntegerType | LongBlobType | LongTextType | MediumBlobType | MediumIntType | MediumTextType
| NumericType | RealType | SetType | SmallIntType | TextType | TimeType | TimeStampType | TinyBlobType
| TinyIntType | TinyTextType | VarBinaryType | VarCharType | VarCharacterType | YearType
| SerialType | BigSerialType | SmallSerialType | NameType.

Definition dtype_eq_dec (a b : dtype) : {a = b} + {a <> b}.
Proof. decide equality. Defined.
Definition dtype_eqb (a b : dtype) : bool := if dtype_eq_dec a b then true else false.

(** data_type.go:74-113: the map, in source order *)
Definition data_type_strings : list (dtype * string) :=
  [ (BigIntType, "BIGINT"); (BinaryType, "BINARY"); (BitType, "BIT"); (BlobType, "BLOB");
    (BooleanType, "BOOLEAN"); (CharType, "CHAR"); (CharacterType, "CHARACTER"); (ClobType, "CLOB");
    (DateType, "DATE"); (DateTimeType, "DATETIME"); (DecimalType, "DECIMAL"); (DoubleType, "DOUBLE");
    (DoublePrecisionType, "DOUBLE PRECISION"); (FloatType, "FLOAT"); (IntType, "INT");
    (IntegerType, "INTEGER"); (LongBlobType, "LONGBLOB"); (LongTextType, "LONGTEXT");
    (MediumBlobType, "MEDIUMBLOB"); (MediumIntType, "MEDIUMINT"); (MediumTextType, "MEDIUMTEXT");
    (NumericType, "NUMERIC"); (RealType, "REAL"); (SetType, "SET"); (SmallIntType, "SMALLINT");
    (TextType, "TEXT"); (TimeType, "TIME"); (TimeStampType, "TIMESTAMP"); (TinyBlobType, "TINYBLOB");
    (TinyIntType, "TINYINT"); (TinyTextType, "TINYTEXT"); (VarBinaryType, "VARBINARY");
    (VarCharType, "VARCHAR"); (VarCharacterType, "VARCHARACTER"); (YearType, "YEAR");
    (SerialType, "SERIAL"); (BigSerialType, "BIGSERIAL"); (SmallSerialType, "SMALLSERIAL") ].

(** data_type.go:132-144.  The loop ranges over the map in some order: [entries] is a permutation of
    [data_type_strings]. *)
Fixpoint data_type_scan (entries : list (dtype * string)) (us : string) : result dtype :=
  match entries with
  | [] => Err ErrInvalid
  | (t, n) :: rest =>
      if String.eqb n us then Ok t
      else if String.eqb (remove_byte " " n) us then Ok t
      else data_type_scan rest us
  end.
Definition data_type_from_string (entries : list (dtype * string)) (s : string) : result dtype :=
  data_type_scan entries (to_upper s).

(** data_type.go:196-202 *)
Definition data_type_string (t : dtype) : string :=
  match mget dtype_eqb t data_type_strings with Some s => s | None => "" end.

(** data_type.go:147-163 *)
Definition data_type_for_function (f : option func) : result dtype :=
  match f with
  | None => Err ErrInvalid
  | Some f =>
      match f_type f with
      | MathFunction | AggregateFunction | CastFunction | ArithOperator => Ok FloatType
      | _ => Err ErrInvalid
      end
  end.

(** ** constraint.go *)

(** constraint.go:20-26: bits 1, 2 and 4 *)
Definition constraint := N.
(** constraint.go:29-41 *)
Definition is_primary_key (c : constraint) : bool := negb (N.land c 1 =? 0)%N.
Definition is_not_null (c : constraint) : bool := negb (N.land c 2 =? 0)%N.
Definition is_unique (c : constraint) : bool := negb (N.land c 4 =? 0)%N.
(** constraint.go:44-54 *)
Definition constraint_string (c : constraint) : string :=
  if (c =? 1)%N then "PRIMARY KEY" else if (c =? 2)%N then "NOT NULL"
  else if (c =? 4)%N then "UNIQUE" else "".

(** ** column_def.go *)

(** column_def.go:37-41 *)
Record data_def := mkDef { d_consts : constraint; d_type : dtype; d_length : Z }.
(** column_def.go:44-59 *)
Definition new_data_def (t : dtype) (l : Z) : data_def := mkDef 0%N t l.
Definition unknown_data_def : data_def := mkDef 0%N UnknownData 0%Z.
(** column_def.go:62-68; the argument is a string, so NewDataTypeFrom is NewDataTypeFromString
    (data_type.go:116-129) *)
Definition data_def_from (entries : list (dtype * string)) (s : string) (l : Z) : result data_def :=
  rbind (data_type_from_string entries s) (fun t => Ok (new_data_def t l)).
(** column_def.go:70-86 *)
Definition data_def_from_strings (entries : list (dtype * string)) (strs : list string) : result data_def :=
  match strs with
  | [] => Err ErrInvalid
  | dt :: _ =>
      if 4 <=? length strs then
        if String.eqb (nth 1 strs "") "(" || String.eqb (nth 3 strs "") ")" then
          match atoi (nth 2 strs "") with
          | Some v => data_def_from entries dt v
          | None => Err ErrInvalid
          end
        else data_def_from entries dt (-1)
      else data_def_from entries dt (-1)
  end.
(** column_def.go:104-110 *)
Definition data_def_string (d : data_def) : string :=
  if (0 <? d_length d)%Z
  then (data_type_string (d_type d) ++ "(" ++ show_Z (d_length d) ++ ")")%string
  else data_type_string (d_type d).

(** ** literal.go *)

(** The Go values a literal holds.  [VOther shown] is a value of any other type, with what the verb v
    prints for it. *)
Inductive value :=
| VNil | VStr (s : string) | VBind (name : string) | VInt (z : Z) | VBool (b : bool) | VOther (shown : string).

(** fmt.Sprintf with the verb v; a bind parameter prints its name (bind.go:40-42) *)
Definition show_value (v : value) : string :=
  match v with
  | VNil => "<nil>" | VStr s => s | VBind n => n | VInt z => show_Z z
  | VBool true => "true" | VBool false => "false" | VOther s => s
  end.

(** literal.go:25-39 *)
Inductive ltype := UnknownLiteral | StringLiteral.
Record literal := mkLit { l_value : value; l_type : ltype }.
(** literal.go:117-126 on a non-nil literal *)
Definition literal_string (l : literal) : string :=
  match l_type l with
  | StringLiteral => escape_string (show_value (l_value l))
  | UnknownLiteral => show_value (l_value l)
  end.
(** literal.go:117-126: a nil literal prints nothing *)
Definition opt_literal_string (l : option literal) : string :=
  match l with Some l => literal_string l | None => "" end.

(** ** column.go *)

(** column.go:77-83.  The embedded literal is a pointer; here it is its target.  Where sharing of the
    target matters see [pcolumn] below. *)
Record column := mkCol {
  c_name : string; c_def : option data_def; c_lit : option literal;
  c_fn : option func; c_args : list string }.
(** column.go:86-147 *)
Definition new_column (name : string) : column := mkCol name None None None [].
Definition new_def_column (name : string) (d : data_def) : column := mkCol name (Some d) None None [].
Definition new_value_column (name : string) (l : literal) : column := mkCol name None (Some l) None [].
(** column.go:129-142 with fn/func_impl.go:66-73: a column whose value is computed by an executor *)
Definition new_function_column (name : string) (e : exe) (args : list string) : column :=
  mkCol name None None (Some (mkFunc (exe_type e) (exe_name e) (Some (e, args)) None [])) args.
(** column.go:155-165 *)
Definition is_function (c : column) : bool := match c_fn c with Some _ => true | None => false end.
(** column.go:173-175 *)
Definition is_name (c : column) (name : string) : bool := String.eqb (c_name c) name.
(** column.go:239-245: the function and the arguments are not copied *)
Definition copy_column (c : column) : column := mkCol (c_name c) (c_def c) (c_lit c) None [].
(** column.go:248-250 *)
Definition column_string (c : column) : string := c_name c.
(** column.go:253-258 *)
Definition definition_string (c : column) : string :=
  match c_def c with
  | None => c_name c
  | Some d => (c_name c ++ " " ++ data_def_string d)%string
  end.
(** column.go:270-275: the executor's name follows the first argument *)
Definition updator_args (args : list string) (op : string) : list string :=
  match args with [] => [] | a :: rest => a :: op :: rest end.
(** column.go:266-283; Executor is fn/func_impl.go:141-153 *)
Definition updator_string (c : column) : string :=
  match c_fn c with
  | Some f =>
      match snd (func_executor f) with
      | Ok (e, _) => join " " (updator_args (c_args c) (exe_name e))
      | _ => opt_literal_string (c_lit c)
      end
  | None => opt_literal_string (c_lit c)
  end.

(** ** columns.go *)

(** columns.go:44-50 and 91-97 *)
Definition column_names (cs : list column) : list string := map c_name cs.
(** columns.go:63-68: only the upper bound is checked *)
Definition column_at (cs : list column) (n : Z) : result column :=
  if (Z.of_nat (length cs) <=? n)%Z then Err ErrNotFound
  else if (n <? 0)%Z then Panic
  else match nth_error cs (Z.to_nat n) with Some c => Ok c | None => Panic end.
(** columns.go:71-78 *)
Fixpoint lookup_column (cs : list column) (name : string) : result column :=
  match cs with
  | [] => Err ErrNotFound
  | c :: rest => if equal_fold (c_name c) name then Ok c else lookup_column rest name
  end.
(** columns.go:81-88; the index returned with an error is -1 *)
Fixpoint lookup_index_of_column_from (n : nat) (cs : list column) (name : string) : result nat :=
  match cs with
  | [] => Err ErrNotFound
  | c :: rest => if equal_fold (c_name c) name then Ok n else lookup_index_of_column_from (S n) rest name
  end.
Definition lookup_index_of_column (cs : list column) (name : string) : result nat :=
  lookup_index_of_column_from 0 cs name.
(** columns.go:100-106 *)
Definition name_string (cs : list column) : string := join_with_comma (column_names cs).
(** columns.go:109-115 *)
Definition value_string (cs : list column) : string :=
  join_with_comma (map (fun c => opt_literal_string (c_lit c)) cs).
(** columns.go:137-148 *)
Definition columns_definition_string (cs : list column) : string :=
  join_with_comma (map definition_string cs).
(** columns.go:151-160 *)
Definition columns_is_asterisk (cs : list column) : bool :=
  match cs with [] => true | [c] => String.eqb (c_name c) "*" | _ => false end.
(** columns.go:163-169 *)
Definition copy_columns (cs : list column) : list column := map copy_column cs.

(** ** Columns that share literals: column.go and literal.go on a heap *)

(** The Go types SetDefinition converts to (column.go:191-234). *)
Inductive gotype := GInt8 | GInt16 | GInt32 | GInt64 | GFloat32 | GFloat64 | GBool.
Definition target_type (t : dtype) : option gotype :=
  match t with
  | TinyIntType => Some GInt8
  | SmallIntType => Some GInt16
  | IntType | IntegerType => Some GInt32
  | BigIntType => Some GInt64
  | FloatType => Some GFloat32
  | DoubleType => Some GFloat64
  | BooleanType => Some GBool
  | _ => None
  end.

(** The heap of literals, and a column pointing into it. *)
Definition heap := list literal.
Record pcolumn := mkPcol { pc_name : string; pc_def : option data_def; pc_lit : option nat; pc_fn : option func }.
Fixpoint heap_set (h : heap) (p : nat) (l : literal) : heap :=
  match h, p with
  | [], _ => []
  | _ :: h', O => l :: h'
  | x :: h', S p' => x :: heap_set h' p' l
  end.
Definition lit_at (h : heap) (p : nat) : literal := nth p h (mkLit VNil UnknownLiteral).

Section Set_.
  (** safecast.ToInt8 and so on; None is an error *)
  Context (cast : gotype -> value -> option value).

  (** column.go:184-236.  Returns the column, the heap and the error. *)
  Definition set_definition (h : heap) (c : pcolumn) (d : option data_def) : pcolumn * heap * result unit :=
    let c' := mkPcol (pc_name c) d (pc_lit c) (pc_fn c) in
    match d, pc_lit c with
    | Some d', Some p =>
        match target_type (d_type d') with
        | Some g =>
            match cast g (l_value (lit_at h p)) with
            | Some v => (c', heap_set h p (mkLit v (l_type (lit_at h p))), Ok tt)
            | None => (c', h, Err ErrCast)
            end
        | None => (c', h, Ok tt)
        end
    | _, _ => (c', h, Ok tt)
    end.

  (** column.go:178-181 with literal.go:95-98: a column without literal panics *)
  Definition set_value (h : heap) (c : pcolumn) (v : value) : pcolumn * heap * result unit :=
    match pc_lit c with
    | None => (c, h, Panic)
    | Some p => set_definition (heap_set h p (mkLit v (l_type (lit_at h p)))) c (pc_def c)
    end.

  (** columns.go:118-134, on the columns of one list; [schema] are the schema's columns *)
  Fixpoint set_schema (h : heap) (cs : list pcolumn) (schema : list column) : list pcolumn * heap * result unit :=
    match cs with
    | [] => ([], h, Ok tt)
    | c :: rest =>
        match lookup_column schema (pc_name c) with
        | Ok sc =>
            let '(c', h', r) := set_definition h c (c_def sc) in
            match r with
            | Ok _ => let '(rest', h'', r') := set_schema h' rest schema in (c' :: rest', h'', r')
            | Err e => (c' :: rest, h', Err e)
            | Panic => (c' :: rest, h', Panic)
            end
        | Err e => (c :: rest, h, Err e)
        | Panic => (c :: rest, h, Panic)
        end
    end.
End Set_.

(** column.go:239-245: the literal pointer is copied, not its target *)
Definition copy_pcolumn (c : pcolumn) : pcolumn := mkPcol (pc_name c) (pc_def c) (pc_lit c) None.

(** ** index_type.go, index.go, indexes.go *)

(** index_type.go:20-24 *)
Inductive index_type := UnknownIndex | PrimaryIndex | SecondaryIndex.
(** index_type.go:27-36 *)
Definition index_type_string (t : index_type) : string :=
  match t with PrimaryIndex => "PRIMARY KEY" | SecondaryIndex => "INDEX" | UnknownIndex => "UNKNOWN KEY" end.
(** index.go:38-42 *)
Record index := mkIdx { i_name : string; i_type : index_type; i_columns : list column }.
(** index.go:55-63 *)
Definition primary_index (cs : list column) : index := mkIdx (join "_" (column_names cs)) PrimaryIndex cs.
Definition secondary_index (name : string) (cs : list column) : index := mkIdx name SecondaryIndex cs.
(** index.go:86-96 *)
Definition index_definition_string (i : index) : string :=
  (index_type_string (i_type i)
   ++ (match i_type i with SecondaryIndex => " " ++ i_name i | _ => "" end)
   ++ " (" ++ join ", " (column_names (i_columns i)) ++ ")")%string.
(** indexes.go:35-41 *)
Definition index_names (is : list index) : list string := map i_name is.
(** indexes.go:44-51 *)
Fixpoint lookup_index (is : list index) (name : string) : result index :=
  match is with
  | [] => Err ErrNotFound
  | i :: rest => if equal_fold (i_name i) name then Ok i else lookup_index rest name
  end.
(** indexes.go:54-61 *)
Fixpoint lookup_index_of_index_from (n : nat) (is : list index) (name : string) : result nat :=
  match is with
  | [] => Err ErrNotFound
  | i :: rest => if equal_fold (i_name i) name then Ok n else lookup_index_of_index_from (S n) rest name
  end.
Definition lookup_index_of_index (is : list index) (name : string) : result nat :=
  lookup_index_of_index_from 0 is name.
(** indexes.go:64-70 *)
Definition indexes_definition_string (is : list index) : string :=
  join ", " (map index_definition_string is).

(** ** table.go, tables.go *)

(** table.go:41-66 *)
Record table := mkTbl { t_schema : string; t_name : string }.
Definition new_table (name : string) : table := mkTbl "" name.
(** table.go:69-80 *)
Definition full_table_name (t : table) : string :=
  if 0 <? String.length (t_name t) then
    join "." ((if negb (scontains "." (t_name t))
               then if 0 <? String.length (t_schema t) then [t_schema t] else []
               else []) ++ [t_name t])
  else "".
(** table.go:83-105 *)
Definition is_full_table_name (t : table) (name : string) : bool := equal_fold (full_table_name t) name.
Definition is_schema_name (t : table) (name : string) : bool := equal_fold (t_schema t) name.
Definition is_table_name (t : table) (name : string) : bool := equal_fold (t_name t) name.
(** tables.go:42-48 *)
Definition table_names (ts : list table) : list string := map full_table_name ts.
(** tables.go:51-84; HasTableName is the same loop as HasTable *)
Definition has_table (ts : list table) (names : list string) : bool :=
  existsb (fun name => existsb (fun t => is_table_name t name) ts) names.
Definition has_schema_table (ts : list table) (names : list string) : bool :=
  existsb (fun name => existsb (fun t => is_schema_name t name) ts) names.
(** tables.go:87-93 *)
Definition tables_string (ts : list table) : string := join_with_comma (map full_table_name ts).

(** ** schema.go *)

(** schema.go:54-59.  The column and index slices are lists: sharing of their backing arrays with
    the caller's slices is not modelled. *)
Record schema := mkSchema { s_table : table; s_columns : list column; s_indexes : list index }.
(** schema.go:65-89 *)
Definition new_schema (name : string) (cs : list column) (is : list index) : schema :=
  mkSchema (new_table name) cs is.
(** schema.go:97-104: SchemaName and Name are the table name *)
Definition schema_schema_name (s : schema) : string := t_name (s_table s).
(** schema.go:173-176, 191-194 *)
Definition add_column (s : schema) (c : column) : schema :=
  mkSchema (s_table s) (s_columns s ++ [c]) (s_indexes s).
Definition add_index (s : schema) (i : index) : schema :=
  mkSchema (s_table s) (s_columns s) (s_indexes s ++ [i]).
(** schema.go:179-188, 197-206: the loop skips the elements that have the name and removes the first
    element that does not *)
Fixpoint drop_first_other {A} (name_of : A -> string) (name : string) (l : list A) : option (list A) :=
  match l with
  | [] => None
  | x :: rest =>
      if equal_fold (name_of x) name
      then match drop_first_other name_of name rest with Some l' => Some (x :: l') | None => None end
      else Some rest
  end.
Definition drop_column (s : schema) (name : string) : result schema :=
  match drop_first_other c_name name (s_columns s) with
  | Some cs => Ok (mkSchema (s_table s) cs (s_indexes s))
  | None => Err ErrNotFound
  end.
Definition drop_index (s : schema) (name : string) : result schema :=
  match drop_first_other i_name name (s_indexes s) with
  | Some is => Ok (mkSchema (s_table s) (s_columns s) is)
  | None => Err ErrNotFound
  end.

(** ** alter_table.go *)

(** alter_table.go:44-54; the schemaName field is folded into the table (57-78) *)
Record alter := mkAlter {
  al_table : table; al_rename_to : option table; al_rename_column : option (column * column);
  al_add_column : option column; al_add_index : option index;
  al_drop_column : option column; al_drop_index : option index }.

(** schema.go:132-170.  The schema as the call leaves it, and the error. *)
Definition alter_schema (s : schema) (a : alter) : schema * result unit :=
  let s1 := match al_add_column a with Some c => add_column s c | None => s end in
  let s2 := match al_add_index a with Some i => add_index s1 i | None => s1 end in
  let r3 := match al_drop_column a with Some c => drop_column s2 (c_name c) | None => Ok s2 end in
  match r3 with
  | Err e => (s2, Err e)
  | Panic => (s2, Panic)
  | Ok s3 =>
      let r4 := match al_drop_index a with Some i => drop_index s3 (i_name i) | None => Ok s3 end in
      match r4 with
      | Err e => (s3, Err e)
      | Panic => (s3, Panic)
      | Ok s4 =>
          match al_rename_to a with
          | Some _ => (s4, Err ErrNotImplemented)
          | None =>
              match al_rename_column a with
              | Some _ => (s4, Err ErrNotImplemented)
              | None => (s4, Ok tt)
              end
          end
      end
  end.

(** ** selectors.go, selectors_helper.go *)

(** A selector is a column or a function (selector.go:18-31, fn/func.go). *)
Inductive selector := SelCol (c : column) | SelFn (f : func).
Definition sel_name (s : selector) : string := match s with SelCol c => c_name c | SelFn f => f_name f end.
(** column.go:160-165, fn/func_impl.go:125-127 *)
Definition sel_function (s : selector) : option func :=
  match s with SelCol c => c_fn c | SelFn f => Some f end.
(** selectors.go:64-75 *)
Definition selector_names (l : list selector) : list string :=
  map (fun s => match s with SelFn f => func_string f | SelCol c => c_name c end) l.
(** selectors.go:83-85 *)
Definition selectors_string (l : list selector) : string := join_with_comma (selector_names l).
(** selectors_helper.go:22-31 *)
Definition selectors_is_asterisk (l : list selector) : bool :=
  match l with [] => true | [s] => String.eqb (sel_name s) "*" | _ => false end.
(** selectors_helper.go:34-42: true at the first selector that is not a function *)
Fixpoint has_function (l : list selector) : bool :=
  match l with
  | [] => false
  | s :: rest => match sel_function s with None => true | Some _ => has_function rest end
  end.
(** selectors_helper.go:45-56 *)
Fixpoint has_function_with_type (t : ftype) (l : list selector) : bool :=
  match l with
  | [] => false
  | s :: rest =>
      match sel_function s with
      | None => has_function_with_type t rest
      | Some f => if ftype_eqb (f_type f) t then true else has_function_with_type t rest
      end
  end.
(** selectors_helper.go:59-61 *)
Definition has_aggregator (l : list selector) : bool := has_function_with_type AggregateFunction l.
(** selectors_helper.go:73-86 *)
Fixpoint functions (l : list selector) : list func :=
  match l with
  | [] => []
  | s :: rest => match sel_function s with None => functions rest | Some f => f :: functions rest end
  end.
(** selectors_helper.go:89-103 *)
Fixpoint lookup_function (l : list selector) (name : string) : result func :=
  match l with
  | [] => Err ErrNotFound
  | s :: rest =>
      match sel_function s with
      | None => lookup_function rest name
      | Some f => if func_is_name f name then Ok f else lookup_function rest name
      end
  end.
(** selectors_helper.go:106-123.  The executors with their argument names; the type that Executor
    caches in the function is not shown. *)
Fixpoint executors (l : list selector) : result (list (exe * list string)) :=
  match l with
  | [] => Ok []
  | s :: rest =>
      match sel_function s with
      | None => executors rest
      | Some f =>
          if func_is_aggregator f then executors rest
          else match snd (func_executor f) with
               | Ok x => rbind (executors rest) (fun xs => Ok (x :: xs))
               | Err e => Err e
               | Panic => Panic
               end
      end
  end.
(** selectors_helper.go:64-70 *)
Definition has_executor (l : list selector) : bool :=
  match executors l with Ok [] => false | Ok _ => true | _ => false end.
(** selectors_helper.go:126-132 *)
Definition lookup_executor (l : list selector) (name : string) : result (exe * list string) :=
  rbind (lookup_function l name) (fun f => snd (func_executor f)).
(** selectors_helper.go:135-152 *)
Fixpoint executors_for_type (t : ftype) (l : list selector) : result (list (exe * list string)) :=
  match l with
  | [] => Ok []
  | s :: rest =>
      match sel_function s with
      | None => executors_for_type t rest
      | Some f =>
          match snd (func_executor f) with
          | Ok x => if ftype_eqb (exe_type (fst x)) t
                    then rbind (executors_for_type t rest) (fun xs => Ok (x :: xs))
                    else executors_for_type t rest
          | Err e => Err e
          | Panic => Panic
          end
      end
  end.

(** ** expr_cmp.go, expr_and.go, expr_or.go, where.go *)

(** expr_cmp.go:22-30 *)
Inductive cmp_op := OpEQ | OpNEQ | OpLT | OpGT | OpLE | OpGE | OpIN | OpNIN.
(** expr_cmp.go:32-50 *)
Definition cmp_op_string (o : cmp_op) : string :=
  match o with
  | OpEQ => "=" | OpNEQ => "!=" | OpLT => "<" | OpGT => ">" | OpLE => "<=" | OpGE => ">="
  | OpIN => "IN" | OpNIN => "NOT IN"
  end.
(** expr_cmp.go:53-66, expr_and.go:18-26, expr_or.go:18-26.  Operands of AND and OR are non-nil: a nil
    operand would make String panic. *)
Inductive expr :=
| ECmp (op : cmp_op) (left : column) (right : option literal)
| EAnd (left right : expr)
| EOr (left right : expr).
(** expr_cmp.go:114-116, expr_and.go:39-41, expr_or.go:39-41 *)
Fixpoint expr_string (e : expr) : string :=
  match e with
  | ECmp op c l => (column_string c ++ " " ++ cmp_op_string op ++ " " ++ opt_literal_string l)%string
  | EAnd a b => (expr_string a ++ " AND " ++ expr_string b)%string
  | EOr a b => (expr_string a ++ " OR " ++ expr_string b)%string
  end.
(** where.go:28-67: no expression is nil *)
Definition condition := option expr.
Definition has_conditions (c : condition) : bool := match c with Some _ => true | None => false end.
Definition condition_string (c : condition) : string := match c with Some e => expr_string e | None => "" end.

(** ** order_type.go, order.go, group.go, limit.go *)

(** order_type.go:22-31 *)
Inductive order_type := OrderNone | OrderAsc | OrderDesc.
(** order_type.go:40-48 *)
Definition new_order_type (s : string) : order_type :=
  if String.eqb (to_upper s) "ASC" then OrderAsc
  else if String.eqb (to_upper s) "DESC" then OrderDesc else OrderNone.
(** order_type.go:66-75 *)
Definition order_type_string (t : order_type) : string :=
  match t with OrderAsc => "ASC" | OrderDesc => "DESC" | OrderNone => "NONE" end.
(** order.go:38-57 *)
Record order := mkOrder { o_column : string; o_type : order_type }.
(** order.go:85-94 *)
Definition order_string (o : order) : string :=
  match o_type o with
  | OrderNone => ""
  | t => join_with_space [o_column o; order_type_string t]
  end.
(** order.go:127-141 *)
Definition order_by_string (os : list order) : string :=
  match os with
  | [] => ""
  | _ => join_with_space ["ORDER BY"; join_with_comma (map order_string os)]
  end.
(** group.go:63-72 *)
Definition group_by_string (column : string) : string :=
  if String.length column =? 0 then "" else join_with_space ["GROUP BY"; column].
(** limit.go:34-54; uint *)
Record limit := mkLimit { lim_offset : N; lim_limit : N }.
(** limit.go:78-87 *)
Definition limit_string (l : limit) : string :=
  join_with_space
    ((if (0 <? lim_limit l)%N then ["LIMIT"; show_N (lim_limit l)] else []) ++
     (if (0 <? lim_offset l)%N then ["OFFSET"; show_N (lim_offset l)] else [])).

(** ** Statements *)

(** select.go:44-51 *)
Record select := mkSelect {
  sel_tables : list table; sel_selectors : list selector; sel_where : condition;
  sel_order_by : list order; sel_limit : limit; sel_group_by : string }.
(** select.go:54-67: the defaults *)
Definition new_select (sels : list selector) (tbls : list table) (w : condition) : select :=
  mkSelect tbls sels w [] (mkLimit 0%N 0%N) "".

(** copy.go:26-46 *)
Inductive copy_format := CopyText | CopyCSV | CopyBinary.
Definition copy_format_string (f : copy_format) : string :=
  match f with CopyText => "TEXT" | CopyCSV => "CSV" | CopyBinary => "BINARY" end.
(** copy.go:59-70: an unknown name leaves the format alone *)
Definition set_copy_format (f : copy_format) (s : string) : copy_format :=
  if String.eqb (to_upper s) "TEXT" then CopyText
  else if String.eqb (to_upper s) "CSV" then CopyCSV
  else if String.eqb (to_upper s) "BINARY" then CopyBinary else f.

(** The statements: create_database.go:31-42, create_table.go:33-44, create_index.go:33-44,
    drop_database.go:31-42, drop_table.go:33-44, drop_index.go:35-48 (its schema holds just the given
    name and its index just the index name), alter_database.go:31-43, alter_table.go:44-78,
    insert.go:33-45, update.go:35-48, delete.go:36-51, copy.go:82-102, truncate.go:31-40,
    vacuum.go:31-47, begin.go:27-33, commit.go:25-31, rollback.go:27-33, use.go:28-36. *)
Inductive stmt :=
| SCreateDatabase (name : string) (if_not_exists : bool)
| SCreateTable (s : schema) (if_not_exists : bool)
| SCreateIndex (s : schema) (if_not_exists : bool)
| SDropDatabase (name : string) (if_exists : bool)
| SDropTable (tbls : list table) (if_exists : bool)
| SDropIndex (schema_name index_name : string) (if_exists : bool)
| SAlterDatabase (name to : string)
| SAlterTable (a : alter)
| SInsert (tbl : table) (values : list (list column))
| SUpdate (tbl : table) (columns : list column) (w : condition)
| SSelect (s : select)
| SDelete (tbl : table) (w : condition)
| SCommit | SBegin | SRollback
| SUse (name : string)
| SCopy (tbl : table) (columns : list column) (source : string) (format : copy_format)
| STruncate (tbls : list table)
| SVacuum (tbl : option table).

(** options.go:35-40, 60-65 *)
Definition if_not_exists_string (b : bool) : string := if b then "IF NOT EXISTS" else "".
Definition if_exists_string (b : bool) : string := if b then "IF EXISTS" else "".

(** create_index.go:57-63 *)
Definition create_index_index (s : schema) : option index :=
  match s_indexes s with [] => None | i :: _ => Some i end.
(** insert.go:53-58 *)
Definition insert_columns (values : list (list column)) : list column :=
  match values with [] => [] | r :: _ => r end.

(** alter_table.go:184-232; a column to add without a definition panics in Constraint (209) *)
Definition alter_string (a : alter) : result string :=
  let elems := ["ALTER"; "TABLE"; full_table_name (al_table a)] in
  let elems := elems ++ match al_rename_to a with Some t => ["RENAME"; "TO"; full_table_name t] | None => [] end in
  let elems := elems ++ match al_rename_column a with
                        | Some (f, t) => ["RENAME"; "COLUMN"; c_name f; "TO"; c_name t]
                        | None => []
                        end in
  rbind (match al_add_column a with
         | Some c =>
             match c_def c with
             | None => Panic
             | Some d => Ok (["ADD"]
                             ++ (if (d_consts d =? 0)%N then [] else [constraint_string (d_consts d)])
                             ++ [definition_string c])
             end
         | None => Ok []
         end)
    (fun add =>
       Ok (join_with_space
             (elems ++ add
              ++ match al_add_index a with Some i => ["ADD"; index_definition_string i] | None => [] end
              ++ match al_drop_column a with Some c => ["DROP"; c_name c] | None => [] end))).

(** create_table.go:62-78 *)
Definition create_table_string (s : schema) (ifne : bool) : string :=
  let cols := ("(" ++ columns_definition_string (s_columns s)
               ++ (match s_indexes s with [] => "" | is => ", " ++ indexes_definition_string is end)
               ++ ")")%string in
  join_with_space ["CREATE TABLE"; if_not_exists_string ifne; t_name (s_table s); cols].

(** create_index.go:66-81 *)
Definition create_index_string (s : schema) (ifne : bool) : string :=
  join_with_space
    (["CREATE"; "INDEX"] ++ (if ifne then [if_not_exists_string ifne] else [])
     ++ match create_index_index s with
        | Some i => [i_name i; "ON";
                     (full_table_name (s_table s) ++ "(" ++ join_with_comma (column_names (i_columns i)) ++ ")")%string]
        | None => []
        end).

(** select.go:126-153 *)
Definition select_string (s : select) : string :=
  let selector_str := match sel_selectors s with [] => "*" | l => selectors_string l end in
  let o := order_by_string (sel_order_by s) in
  let l := limit_string (sel_limit s) in
  let g := group_by_string (sel_group_by s) in
  join_with_space
    (["SELECT"; selector_str; "FROM"; tables_string (sel_tables s)]
     ++ (if has_conditions (sel_where s) then ["WHERE"; condition_string (sel_where s)] else [])
     ++ (if 0 <? String.length o then [o] else [])
     ++ (if 0 <? String.length l then [l] else [])
     ++ (if 0 <? String.length g then [g] else [])).

(** update.go:90: the format is name, space, equal sign, space, value *)
Definition set_string (c : column) : string := (c_name c ++ " = " ++ updator_string c)%string.

Definition where_strings (w : condition) : list string :=
  if has_conditions w then ["WHERE"; condition_string w] else [].

(** String of each statement: create_database.go:50-58, drop_database.go:50-60, drop_table.go:52-62,
    drop_index.go:71-86, alter_database.go:56-66, insert.go:66-82, update.go:76-98, delete.go:79-89,
    commit.go:39-44, begin.go:41-46, rollback.go:41-46, use.go:43-46, copy.go:124-138,
    truncate.go:48-55, vacuum.go:68-76 *)
Definition stmt_string (s : stmt) : result string :=
  match s with
  | SCreateDatabase n b =>
      Ok (join_with_space (["CREATE DATABASE"] ++ (if b then [if_not_exists_string b] else []) ++ [n]))
  | SCreateTable sc b => Ok (create_table_string sc b)
  | SCreateIndex sc b => Ok (create_index_string sc b)
  | SDropDatabase n b =>
      Ok (join_with_space (["DROP"; "DATABASE"] ++ (if b then [if_exists_string b] else []) ++ [n]))
  | SDropTable ts b =>
      Ok (join_with_space (["DROP"; "TABLE"] ++ (if b then [if_exists_string b] else []) ++ [tables_string ts]))
  | SDropIndex sn i b =>
      let t := full_table_name (new_table sn) in
      Ok (join_with_space (["DROP"; "INDEX"] ++ (if b then [if_exists_string b] else [])
                           ++ [if 0 <? String.length t then (t ++ "." ++ i)%string else i]))
  | SAlterDatabase n t => Ok (join_with_space ["ALTER"; "DATABASE"; n; "RENAME"; "TO"; t])
  | SAlterTable a => alter_string a
  | SInsert t vs =>
      Ok (join_with_space ["INSERT"; "INTO"; full_table_name t; ("(" ++ name_string (insert_columns vs) ++ ")")%string;
                           "VALUES"; join_with_comma (map (fun r => ("(" ++ value_string r ++ ")")%string) vs)])
  | SUpdate t cs w =>
      Ok (join_with_space (["UPDATE"; full_table_name t; "SET"; join_with_comma (map set_string cs)] ++ where_strings w))
  | SSelect s => Ok (select_string s)
  | SDelete t w => Ok (join_with_space (["DELETE"; "FROM"; full_table_name t] ++ where_strings w))
  | SCommit => Ok "COMMIT"
  | SBegin => Ok "BEGIN"
  | SRollback => Ok "ROLLBACK"
  | SUse n => Ok (join_with_space ["USE"; n])
  | SCopy t cs src f =>
      Ok (join_with_space (["COPY"; t_name t]
                           ++ (match cs with [] => [] | _ => [("(" ++ join_with_comma (column_names cs) ++ ")")%string] end)
                           ++ ["FROM"; src; copy_format_string f]))
  | STruncate ts => Ok (join_with_space ["TRUNCATE"; "TABLE"; tables_string ts])
  | SVacuum t => Ok (join_with_space (["VACUUM"] ++ match t with Some t => [full_table_name t] | None => [] end))
  end.

(** alter_table_from.go:22-39 with create_index.go:52-63 and drop_index.go:51-58.  [None] in the added
    index of CREATE INDEX without index is a nil Index. *)
Definition alter_table_from (s : stmt) : result alter :=
  match s with
  | SCreateIndex sc _ =>
      Ok (mkAlter (new_table (full_table_name (s_table sc))) None None None (create_index_index sc) None None)
  | SDropIndex sn i _ =>
      Ok (mkAlter (new_table (full_table_name (new_table sn))) None None None None None (Some (mkIdx i UnknownIndex [])))
  | _ => Err ErrNotSupported
  end.

(** statement_type.go:20-41: the type tags, and the tag of each statement *)
Inductive stype :=
| TCreateDatabase | TCreateTable | TCreateIndex | TInsert | TSelect | TUpdate | TDelete | TDropDatabase
| TDropTable | TDropIndex | TAlterDatabase | TAlterTable | TAlterIndex | TCopy | TCommit | TVacuum
| TTruncate | TBegin | TRollback | TUse.
Definition stmt_type (s : stmt) : stype :=
  match s with
  | SCreateDatabase _ _ => TCreateDatabase | SCreateTable _ _ => TCreateTable | SCreateIndex _ _ => TCreateIndex
  | SDropDatabase _ _ => TDropDatabase | SDropTable _ _ => TDropTable | SDropIndex _ _ _ => TDropIndex
  | SAlterDatabase _ _ => TAlterDatabase | SAlterTable _ => TAlterTable | SInsert _ _ => TInsert
  | SUpdate _ _ _ => TUpdate | SSelect _ => TSelect | SDelete _ _ => TDelete | SCommit => TCommit
  | SBegin => TBegin | SRollback => TRollback | SUse _ => TUse | SCopy _ _ _ _ => TCopy
  | STruncate _ => TTruncate | SVacuum _ => TVacuum
  end.
(** statement_type.go:44-89 *)
Definition stype_string (t : stype) : string :=
  match t with
  | TCreateDatabase => "CREATE DATABASE" | TCreateTable => "CREATE TABLE" | TCreateIndex => "CREATE INDEX"
  | TInsert => "INSERT" | TSelect => "SELECT" | TUpdate => "UPDATE" | TDelete => "DELETE"
  | TDropDatabase => "DROP DATABASE" | TDropIndex => "DROP INDEX" | TDropTable => "DROP TABLE"
  | TAlterDatabase => "ALTER DATABASE" | TAlterTable => "ALTER TABLE" | TAlterIndex => "ALTER INDEX"
  | TCopy => "COPY" | TCommit => "COMMIT" | TVacuum => "VACUUM" | TTruncate => "TRUNCATE"
  | TBegin => "BEGIN" | TRollback => "ROLLBACK" | TUse => "USE"
  end.
