(** What the properties of sql/query (C25-C35, C53-C57) mean, in plain terms. *)
From Verif Require Import GoBase ModelFn ModelQuery SpecFn.

(** x is the element at place n of l, it satisfies P, and no earlier element does. *)
Definition first_match {A} (P : A -> Prop) (l : list A) (n : nat) (x : A) : Prop :=
  nth_error l n = Some x /\ P x /\ forall m y, m < n -> nth_error l m = Some y -> ~ P y.
Definition no_match {A} (P : A -> Prop) (l : list A) : Prop := forall x, In x l -> ~ P x.

(** ** Numerals *)
Definition is_digit (c : ascii) : Prop := (48 <= N_of_ascii c <= 57)%N.
Definition digits (s : string) : Prop := s <> ""%string /\ Forall is_digit (list_ascii_of_string s).
Definition dec_value (s : string) : N :=
  fold_left (fun acc c => (acc * 10 + (N_of_ascii c - 48))%N) (list_ascii_of_string s) 0%N.
(** s is a decimal numeral of n *)
Definition numeral (n : N) (s : string) : Prop := digits s /\ dec_value s = n.

(** ** Data types *)
Definition no_spaces (s : string) : string :=
  string_of_list_ascii (filter (fun c => negb (Ascii.eqb c " ")) (list_ascii_of_string s)).
(** the SQL names of the types *)
Definition type_names : list (dtype * string) :=
  [ (BigIntType, "BIGINT"); (BinaryType, "BINARY"); (BitType, "BIT"); (BlobType, "BLOB");
    (BooleanType, "BOOLEAN"); (CharType, "CHAR"); (CharacterType, "CHARACTER"); (ClobType, "CLOB");
    (DateType, "DATE"); (DateTimeType, "DATETIME"); (DecimalType, "DECIMAL"); (DoubleType, "DOUBLE");
    (DoublePrecisionType, "DOUBLE PRECISION"); (FloatType, "FLOAT"); (IntType, "INT");
    (IntegerType, "INTEGER"); (LongBlobType, "LONGBLOB"); (LongTextType, "LONGTEXT");
    (MediumBlobType, "MEDIUMBLOB"); (MediumIntType, "MEDIUMINT"); (MediumTextType, "MEDIUMTEXT");
    (NumericType, "NUMERIC"); (RealType, "REAL"); (SetType, "SET"); (SmallIntType, "SMALLINT");
    (TextType, "TEXT"); (TimeType, "TIME"); (TimeStampType, "TIMESTAMP"); (TinyBlobType, "TINYBLOB");
    (TinyIntType, "TINYINT"); (TinyTextType, "TINYTEXT"); (VarBinaryType, "VARBINARY");
    (VarCharType, "VARCHAR"); (VarCharacterType, "VARCHARACTER"); (YearType, "YEAR");
    (SerialType, "SERIAL"); (BigSerialType, "BIGSERIAL"); (SmallSerialType, "SMALLSERIAL") ].
Definition named_type (t : dtype) (n : string) : Prop := In (t, n) type_names.
(** s spells the name n: same letters ignoring case, with or without its spaces *)
Definition spells (s n : string) : Prop := same_text s n \/ same_text s (no_spaces n).

(** ** Values: the Go type a declared type asks for *)
Definition declared_go_type : list (dtype * gotype) :=
  [(TinyIntType, GInt8); (SmallIntType, GInt16); (IntType, GInt32); (IntegerType, GInt32);
   (BigIntType, GInt64); (FloatType, GFloat32); (DoubleType, GFloat64); (BooleanType, GBool)].
(** What SetValue(v) must leave behind: the stored value and whether an error is reported. *)
Definition stored (cast : gotype -> value -> option value) (d : option data_def) (v w : value) (ok : bool) : Prop :=
  (forall df g, d = Some df -> In (d_type df, g) declared_go_type ->
     (cast g v = Some w /\ ok = true) \/ (cast g v = None /\ w = v /\ ok = false)) /\
  ((forall df, d = Some df -> forall g, ~ In (d_type df, g) declared_go_type) -> w = v /\ ok = true).

(** what a column reports: name, definition, value, function *)
Definition reports (h : heap) (c : pcolumn) : string * option data_def * option literal * option func :=
  (pc_name c, pc_def c, match pc_lit c with Some p => nth_error h p | None => None end, pc_fn c).

(** ** ALTER TABLE *)
Definition only_add_column (t : table) (c : column) : alter := mkAlter t None None (Some c) None None None.
Definition only_add_index (t : table) (i : index) : alter := mkAlter t None None None (Some i) None None.
Definition only_drop_column (t : table) (c : column) : alter := mkAlter t None None None None (Some c) None.
Definition only_drop_index (t : table) (i : index) : alter := mkAlter t None None None None None (Some i).
Definition only_rename_to (t t' : table) : alter := mkAlter t (Some t') None None None None None.
Definition only_rename_column (t : table) (a b : column) : alter := mkAlter t None (Some (a, b)) None None None None.
(** the statements that ask for one change *)
Inductive one_change : alter -> Prop :=
| OneAddColumn t c : one_change (only_add_column t c)
| OneAddIndex t i : one_change (only_add_index t i)
| OneDropColumn t c : one_change (only_drop_column t c)
| OneDropIndex t i : one_change (only_drop_index t i)
| OneRenameTo t t' : one_change (only_rename_to t t')
| OneRenameColumn t a b : one_change (only_rename_column t a b).
(** removing exactly the named element *)
Definition removed {A} (name_of : A -> string) (name : string) (l l' : list A) : Prop :=
  exists n x, first_match (fun y => same_text (name_of y) name) l n x /\ l' = firstn n l ++ skipn (S n) l.

(** ** Quoting *)
(** s starts or ends with one of the bytes *)
Definition starts_with_any (bytes s : string) : Prop :=
  exists c r, s = String c r /\ In c (list_ascii_of_string bytes).
Definition ends_with_any (bytes s : string) : Prop :=
  exists c r, s = (r ++ String c "")%string /\ In c (list_ascii_of_string bytes).
Definition has_dot (s : string) : Prop := In "."%char (list_ascii_of_string s).

(** ** SELECT in the clause order of SQL *)
Definition clause (present : bool) (text : string) : string := if present then text else "".
Definition comma_list (l : list string) : string := String.concat ", " l.
Definition sql_select (s : select) : string :=
  ("SELECT " ++ (match sel_selectors s with [] => "*" | l => comma_list (selector_names l) end)
   ++ " FROM " ++ comma_list (table_names (sel_tables s))
   ++ (match sel_where s with Some e => " WHERE " ++ expr_string e | None => "" end)
   ++ clause (negb (String.eqb (sel_group_by s) "")) (" GROUP BY " ++ sel_group_by s)
   ++ (match sel_order_by s with [] => "" | os => " ORDER BY " ++ comma_list (map order_string os) end)
   ++ clause (negb (lim_limit (sel_limit s) =? 0)%N) (" LIMIT " ++ ModelNum.show_N (lim_limit (sel_limit s)))
   ++ clause (negb (lim_offset (sel_limit s) =? 0)%N) (" OFFSET " ++ ModelNum.show_N (lim_offset (sel_limit s))))%string.
