(** The statements that are claimed to be read back as they are printed, in terms of what a user puts
    into them. *)
From Verif Require Import GoBase ModelNum ModelFn ModelQuery ModelLex.

(** ** Names and numbers *)

Definition letter (c : ascii) : Prop :=
  (65 <= nat_of_ascii c /\ nat_of_ascii c <= 90) \/ (97 <= nat_of_ascii c /\ nat_of_ascii c <= 122) \/ c = "_"%char.
Definition digit (c : ascii) : Prop := 48 <= nat_of_ascii c /\ nat_of_ascii c <= 57.
Definition chars (P : ascii -> Prop) (s : string) : Prop := forall c, In c (list_ascii_of_string s) -> P c.
(** the words with a meaning of their own in the language *)
Definition reserved (x : string) : Prop := exists k, In (k, to_upper x) literal_tokens.
(** a letter, then letters and digits *)
Definition word (x : string) : Prop :=
  exists c r, x = String c r /\ letter c /\ chars (fun c => letter c \/ digit c) r.
Definition name (x : string) : Prop := word x /\ ~ reserved x.
(** digits, possibly with a fraction *)
Definition digits (n : string) : Prop := n <> ""%string /\ chars digit n.
Definition number (n : string) : Prop :=
  digits n \/ exists a b, n = (a ++ "." ++ b)%string /\ digits a /\ digits b.
(** a text whose single quotes come in pairs *)
Inductive paired : string -> Prop :=
| pa_end : paired ""
| pa_two r : paired r -> paired ("''" ++ r)
| pa_char c r : c <> "'"%char -> paired r -> paired (String c r).
(** a text like that which neither begins nor ends with a single or double quote *)
Definition dquote_char : ascii := ascii_of_nat 34.
Definition quote_char (c : ascii) : Prop := c = "'"%char \/ c = dquote_char.
Definition plain_text (t : string) : Prop :=
  paired t /\ (forall c r, t = String c r -> ~ quote_char c) /\ (forall c r, t = (r ++ String c "")%string -> ~ quote_char c).
(** ** Names in quotes *)

(** a text in which a quote comes in pairs *)
Inductive doubled (q : ascii) : string -> Prop :=
| db_end : doubled q ""
| db_two r : doubled q r -> doubled q (String q (String q r))
| db_char c r : c <> q -> doubled q r -> doubled q (String c r).
(** any text in double quotes or brackets; any text in back quotes *)
Inductive in_quotes : string -> Prop :=
| iq_double b : doubled dquote_char b -> in_quotes (String dquote_char (b ++ String dquote_char ""))
| iq_bracket b : chars (fun c => c <> "]"%char) b -> in_quotes ("[" ++ b ++ "]").
Inductive in_back_quotes : string -> Prop := ib_back b : doubled "`" b -> in_back_quotes ("`" ++ b ++ "`").
(** The quotes belong to the name where the parser leaves them there.  It always does with double quotes and brackets,
    and in some places with back quotes. *)
Definition bare_name (x : string) : Prop := name x \/ in_quotes x.
Definition any_name (x : string) : Prop := bare_name x \/ in_back_quotes x.

(** ** Literals *)

Definition literal_word (w : string) : Prop :=
  In (to_upper w) ["NULL"; "TRUE"; "FALSE"; "CURRENT_TIME"; "CURRENT_DATE"; "CURRENT_TIMESTAMP"]%string.

Inductive literal_ok : literal -> Prop :=
| lo_text t : plain_text t -> literal_ok (mkLit (VStr t) StringLiteral)
| lo_number n : number n -> literal_ok (mkLit (VStr n) UnknownLiteral)
| lo_negative n : number n -> literal_ok (mkLit (VStr ("-" ++ n)) UnknownLiteral)
| lo_word w : literal_word w -> literal_ok (mkLit (VStr w) UnknownLiteral).

(** ** Conditions *)

(** a column compared with a literal *)
Inductive comparison_ok : expr -> Prop :=
| co_cmp op c l : In op [OpEQ; OpNEQ; OpLT; OpGT; OpLE; OpGE] -> any_name c -> literal_ok l ->
    comparison_ok (ECmp op (new_column c) (Some l)).
(** none, one comparison, or two of them *)
Inductive condition_ok : condition -> Prop :=
| cn_none : condition_ok None
| cn_one a : comparison_ok a -> condition_ok (Some a)
| cn_and a b : comparison_ok a -> comparison_ok b -> condition_ok (Some (EAnd a b))
| cn_or a b : comparison_ok a -> comparison_ok b -> condition_ok (Some (EOr a b)).

(** ** Parts of statements *)

Definition some {A} (P : A -> Prop) (l : list A) : Prop := l <> [] /\ Forall P l.

(** a table without a schema name, where the quotes are kept or not *)
Inductive table_ok : table -> Prop := to_name t : any_name t -> table_ok (new_table t).
Inductive bare_table_ok : table -> Prop := bt_name t : bare_name t -> bare_table_ok (new_table t).
(** the same, or with a schema name as SELECT reads it, which keeps it in the table name as well, *)
Inductive from_ok : table -> Prop :=
| fo_name t : any_name t -> from_ok (new_table t)
| fo_full s t : any_name s -> any_name t -> from_ok (mkTbl s (s ++ "." ++ t)).
(** or as DELETE, UPDATE and COPY read it, which keep it in the table name only; COPY takes off double quotes *)
Inductive target_ok : table -> Prop :=
| ta_name t : any_name t -> target_ok (new_table t)
| ta_full s t : any_name s -> any_name t -> target_ok (new_table (s ++ "." ++ t)).
Inductive copy_target_ok : table -> Prop :=
| ct_name t : name t -> copy_target_ok (new_table t)
| ct_full s t : name s -> name t -> copy_target_ok (new_table (s ++ "." ++ t)).
(** a column that is just a name *)
Inductive name_column_ok : column -> Prop := nc_name c : name c -> name_column_ok (new_column c).
(** a column with a value *)
Inductive value_column_ok : column -> Prop := vc_value c l : any_name c -> literal_ok l -> value_column_ok (new_value_column c l).
(** the rows of an INSERT: the same columns in each *)
Definition rows_ok (rows : list (list column)) : Prop :=
  exists names, some any_name names /\ some (fun r => Forall value_column_ok r /\ map c_name r = names) rows.
(** column = value, or column = column operator (column or number or text) *)
Inductive set_ok : column -> Prop :=
| so_value c l : any_name c -> literal_ok l -> set_ok (new_value_column c l)
| so_column c e x y : any_name c -> In e [ADD; SUB; MUL; DIV; MODOP] -> any_name x -> any_name y -> set_ok (new_function_column c e [x; y])
| so_number c e x y : any_name c -> In e [ADD; SUB; MUL; DIV; MODOP] -> any_name x -> number y -> set_ok (new_function_column c e [x; y]).
(** a column definition: any type with a name, but BINARY and DOUBLE PRECISION, with a positive length or without *)
Inductive definition_ok : column -> Prop :=
| do_def c t l : bare_name c -> ~ In t [UnknownData; BinaryType; DoublePrecisionType; NameType] -> (l = (-1)%Z \/ (0 < l < 2 ^ 63)%Z) ->
    definition_ok (new_def_column c (new_data_def t l)).
(** a primary key over some columns *)
Inductive primary_ok : index -> Prop :=
| po_primary names : some bare_name names -> primary_ok (primary_index (map (fun c => new_def_column c unknown_data_def) names)).
(** an index over some columns *)
Definition index_ok (i : index) : Prop :=
  exists n names, i = secondary_index n (map new_column names) /\ bare_name n /\ some bare_name names.
(** a table with a schema name or without; a name with a dot would be printed without the schema name *)
Inductive full_ok : string -> string -> Prop :=
| fu_name t : any_name t -> full_ok "" t
| fu_full s t : bare_name s -> any_name t -> chars (fun c => c <> "."%char) t -> full_ok s t.
(** what ALTER TABLE does, one thing at a time; a primary key that is added has no name *)
Inductive alter_ok : alter -> Prop :=
| ao_rename s t u : full_ok s t -> bare_name u ->
    alter_ok (mkAlter (mkTbl s t) (Some (new_table u)) None None None None None)
| ao_rename_column s t c d : full_ok s t -> any_name c -> any_name d ->
    alter_ok (mkAlter (mkTbl s t) None (Some (new_column c, new_column d)) None None None None)
| ao_add_column s t c : full_ok s t -> definition_ok c ->
    alter_ok (mkAlter (mkTbl s t) None None (Some c) None None None)
| ao_add_index s t i : full_ok s t -> index_ok i ->
    alter_ok (mkAlter (mkTbl s t) None None None (Some i) None None)
| ao_add_primary s t names : full_ok s t -> some bare_name names ->
    alter_ok (mkAlter (mkTbl s t) None None None (Some (mkIdx "" PrimaryIndex (map new_column names))) None None).

(** what SELECT asks for: everything, a column, a function of everything, of columns or of numbers *)
Inductive selector_ok : selector -> Prop :=
| se_all : selector_ok (SelCol (new_column "*"))
| se_column c : any_name c -> selector_ok (SelCol (new_column c))
| se_function_all f : any_name f -> to_upper f = f -> selector_ok (SelFn (new_func f ["*"%string]))
| se_function f args : any_name f -> to_upper f = f -> Forall (fun a => any_name a \/ number a) args -> selector_ok (SelFn (new_func f args)).
Inductive order_ok : order -> Prop := oo_order c t : any_name c -> t <> OrderNone -> order_ok (mkOrder c t).
(** no limit, or a limit with an offset or without *)
Definition limit_ok (l : limit) : Prop :=
  l = mkLimit 0 0 \/ ((0 < lim_limit l < 2 ^ 64)%N /\ (lim_offset l < 2 ^ 64)%N).
Record select_ok (s : select) : Prop := {
  sk_tables : some from_ok (sel_tables s);
  sk_selectors : some selector_ok (sel_selectors s);
  sk_where : condition_ok (sel_where s);
  sk_order : Forall order_ok (sel_order_by s);
  sk_limit : limit_ok (sel_limit s);
  (** GROUP BY is printed last, which the grammar only takes without ORDER BY and LIMIT *)
  sk_group : sel_group_by s = ""%string \/ (any_name (sel_group_by s) /\ sel_order_by s = [] /\ sel_limit s = mkLimit 0 0)
}.

(** ** Statements *)

Inductive supported : stmt -> Prop :=
| su_create_database n b : any_name n -> supported (SCreateDatabase n b)
| su_create_table t cols idxs b : bare_name t -> some definition_ok cols -> Forall primary_ok idxs ->
    supported (SCreateTable (new_schema t cols idxs) b)
| su_create_index t i b : bare_name t -> index_ok i -> supported (SCreateIndex (new_schema t [] [i]) b)
| su_drop_database n b : any_name n -> supported (SDropDatabase n b)
| su_drop_table ts b : some bare_table_ok ts -> supported (SDropTable ts b)
| su_drop_index s i b : (s = ""%string \/ bare_name s) -> bare_name i -> supported (SDropIndex s i b)
| su_alter_database n m : any_name n -> any_name m -> supported (SAlterDatabase n m)
| su_alter_table a : alter_ok a -> supported (SAlterTable a)
| su_insert t rows : bare_table_ok t -> rows_ok rows -> supported (SInsert t rows)
| su_update t sets w : target_ok t -> some set_ok sets -> condition_ok w -> supported (SUpdate t sets w)
| su_select s : select_ok s -> supported (SSelect s)
| su_delete t w : target_ok t -> condition_ok w -> supported (SDelete t w)
| su_commit : supported SCommit
| su_begin : supported SBegin
| su_rollback : supported SRollback
| su_use n : any_name n -> supported (SUse n)
| su_copy t cols src f : copy_target_ok t -> Forall name_column_ok cols -> name src -> supported (SCopy t cols src f)
| su_truncate ts : some table_ok ts -> supported (STruncate ts)
| su_vacuum_all : supported (SVacuum None)
| su_vacuum t : table_ok t -> supported (SVacuum (Some t)).
