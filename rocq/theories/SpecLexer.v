(** The rules of the lexer grammar SQLiteLexer.g4 and what they mean.  The rules were translated from the file one to
    one.  Nothing here says how tokens are found. *)
From Verif Require Import GoBase.

(** Regular expressions as in the file: a character within some of the ranges [a-b], or within none of them; a text in
    quotes; the end of the input (EOF); sequence, choice, repetition; and .*? before a text in quotes. *)
Inductive re :=
| One (ranges : list (ascii * ascii))
| But (ranges : list (ascii * ascii))
| Lit (text : string)
| End_
| Cat (a b : re)
| Or (a b : re)
| Many (a : re)
| Until (text : string).
Definition Some_ (a : re) : re := Cat a (Many a).
Definition Opt (a : re) : re := Or (Lit "") a.

(** "caseInsensitive = true" (SQLiteLexer.g4:30): letters stand for both cases *)
Definition in_ranges (ranges : list (ascii * ascii)) (c : ascii) : Prop :=
  exists a b d, In (a, b) ranges /\ upper_ascii c = upper_ascii d /\ (N_of_ascii a <= N_of_ascii d <= N_of_ascii b)%N.
Inductive repeated (P : string -> string -> Prop) (rest : string) : string -> Prop :=
| re_none : repeated P rest ""
| re_more u v : P u (v ++ rest)%string -> repeated P rest v -> repeated P rest (u ++ v).
(** the text t, with rest after it, is of the form of the expression *)
Fixpoint matches (r : re) (t rest : string) : Prop :=
  match r with
  | One l => exists c, t = String c "" /\ in_ranges l c
  | But l => exists c, t = String c "" /\ ~ in_ranges l c
  | Lit w => to_upper t = to_upper w
  | End_ => t = ""%string /\ rest = ""%string
  | Cat a b => exists u v, t = (u ++ v)%string /\ matches a u (v ++ rest) /\ matches b v rest
  | Or a b => matches a t rest \/ matches b t rest
  | Many a => repeated (matches a) rest t
  (* up to the first place where the text is found *)
  | Until w => (exists u, t = (u ++ w)%string) /\ forall u v, t = (u ++ w ++ v)%string -> v = ""%string
  end.

(** SQLiteLexer.g4:229 *)
Definition g_identifier : re := Or (Cat (Lit """") (Cat (Many (Or (But [((ascii_of_nat 34), (ascii_of_nat 34))]) (Lit
  """"""))) (Lit """"))) (Or (Cat (Lit "`") (Cat (Many (Or (But [("`"%char, "`"%char)]) (Lit "``"))) (Lit "`"))) (Or
  (Cat (Lit "[") (Cat (Many (But [("]"%char, "]"%char)])) (Lit "]"))) (Cat (One [("A"%char, "Z"%char); ("_"%char,
  "_"%char)]) (Many (One [("A"%char, "Z"%char); ("_"%char, "_"%char); ("0"%char, "9"%char)]))))).
(** SQLiteLexer.g4:257 *)
Definition g_digit : re := One [("0"%char, "9"%char)].
(** SQLiteLexer.g4:256 *)
Definition g_hex_digit : re := One [("0"%char, "9"%char); ("A"%char, "F"%char)].
(** SQLiteLexer.g4:236 *)
Definition g_numeric_literal : re := Or (Cat (Or (Cat (Some_ (g_digit)) (Opt (Cat (Lit ".") (Many (g_digit))))) (Cat
  (Lit ".") (Some_ (g_digit)))) (Opt (Cat (Lit "E") (Cat (Opt (One [("-"%char, "-"%char); ("+"%char, "+"%char)])) (Some_
  (g_digit)))))) (Cat (Lit "0x") (Some_ (g_hex_digit))).
(** SQLiteLexer.g4:56 *)
Definition g_at : re := Lit "@".
(** SQLiteLexer.g4:238 *)
Definition g_system_variable : re := Cat (g_at) (Cat (g_at) (g_identifier)).
(** SQLiteLexer.g4:240 *)
Definition g_user_variable : re := Cat (g_at) (g_identifier).
(** SQLiteLexer.g4:242 *)
Definition g_bind_parameter : re := Or (Cat (One [("?"%char, "?"%char); ("$"%char, "$"%char)]) (Many (g_digit))) (Cat
  (One [(":"%char, ":"%char); ("@"%char, "@"%char); ("$"%char, "$"%char)]) (g_identifier)).
(** SQLiteLexer.g4:244 *)
Definition g_string_literal : re := Cat (Lit "'") (Cat (Many (Or (But [("'"%char, "'"%char)]) (Lit "''"))) (Lit "'")).
(** SQLiteLexer.g4:246 *)
Definition g_blob_literal : re := Cat (Lit "X") (g_string_literal).
(** SQLiteLexer.g4:248 *)
Definition g_single_line_comment : re := Cat (Lit "--") (Cat (Many (But [((ascii_of_nat 13), (ascii_of_nat 13));
  ((ascii_of_nat 10), (ascii_of_nat 10))])) (Or (Cat (Opt (One [((ascii_of_nat 13), (ascii_of_nat 13))])) (One
  [((ascii_of_nat 10), (ascii_of_nat 10))])) (End_))).
(** SQLiteLexer.g4:250 *)
Definition g_multiline_comment : re := Cat (Lit "/*") (Until "*/").
(** SQLiteLexer.g4:252 *)
Definition g_spaces : re := One [(" "%char, " "%char); ((ascii_of_nat 11), (ascii_of_nat 11)); ((ascii_of_nat 9),
  (ascii_of_nat 9)); ((ascii_of_nat 13), (ascii_of_nat 13)); ((ascii_of_nat 10), (ascii_of_nat 10))].
(** SQLiteLexer.g4:254 *)
Definition g_unexpected_char : re := But [].
(** The rules of the file, in its order. *)
Definition g4_rules : list (string * re) :=
  [("SCOL", Lit ";"); ("DOT", Lit "."); ("OPEN_PAR", Lit "("); ("CLOSE_PAR", Lit ")"); ("COMMA", Lit ",");
   ("ASSIGN", Lit "="); ("STAR", Lit "*"); ("PLUS", Lit "+"); ("MINUS", Lit "-"); ("TILDE", Lit "~");
   ("PIPE2", Lit "||"); ("DIV", Lit "/"); ("MOD", Lit "%"); ("LT2", Lit "<<"); ("GT2", Lit ">>");
   ("AMP", Lit "&"); ("PIPE", Lit "|"); ("LT", Lit "<"); ("LT_EQ", Lit "<="); ("GT", Lit ">");
   ("GT_EQ", Lit ">="); ("EQ", Lit "=="); ("NOT_EQ1", Lit "!="); ("NOT_EQ2", Lit "<>"); ("AT", g_at);
   ("ABORT_", Lit "ABORT"); ("ACTION_", Lit "ACTION"); ("ADD_", Lit "ADD"); ("AFTER_", Lit "AFTER");
   ("ALL_", Lit "ALL"); ("ALTER_", Lit "ALTER"); ("ANALYZE_", Lit "ANALYZE"); ("AND_", Lit "AND");
   ("AS_", Lit "AS"); ("ASC_", Lit "ASC"); ("ATTACH_", Lit "ATTACH"); ("AUTOINCREMENT_", Lit "AUTOINCREMENT");
   ("BINARY_", Lit "BINARY"); ("BEFORE_", Lit "BEFORE"); ("BEGIN_", Lit "BEGIN"); ("BETWEEN_", Lit "BETWEEN");
   ("BY_", Lit "BY"); ("CASCADE_", Lit "CASCADE"); ("CASE_", Lit "CASE"); ("CAST_", Lit "CAST");
   ("CHECK_", Lit "CHECK"); ("COLLATE_", Lit "COLLATE"); ("COLUMN_", Lit "COLUMN"); ("COMMIT_", Lit "COMMIT");
   ("CONFLICT_", Lit "CONFLICT"); ("CONSTRAINT_", Lit "CONSTRAINT"); ("COPY_", Lit "COPY");
   ("CREATE_", Lit "CREATE"); ("CROSS_", Lit "CROSS"); ("CSV_", Lit "CSV"); ("CURRENT_DATE_", Lit "CURRENT_DATE");
   ("CURRENT_TIME_", Lit "CURRENT_TIME"); ("CURRENT_TIMESTAMP_", Lit "CURRENT_TIMESTAMP");
   ("DATABASE_", Lit "DATABASE"); ("DEFAULT_", Lit "DEFAULT"); ("DEFERRABLE_", Lit "DEFERRABLE");
   ("DEFERRED_", Lit "DEFERRED"); ("DELETE_", Lit "DELETE"); ("DESC_", Lit "DESC"); ("DETACH_", Lit "DETACH");
   ("DISTINCT_", Lit "DISTINCT"); ("DROP_", Lit "DROP"); ("EACH_", Lit "EACH"); ("ELSE_", Lit "ELSE");
   ("END_", Lit "END"); ("ESCAPE_", Lit "ESCAPE"); ("EXCEPT_", Lit "EXCEPT"); ("EXCLUSIVE_", Lit "EXCLUSIVE");
   ("EXISTS_", Lit "EXISTS"); ("EXPLAIN_", Lit "EXPLAIN"); ("FAIL_", Lit "FAIL"); ("FOR_", Lit "FOR");
   ("FOREIGN_", Lit "FOREIGN"); ("FORMAT_", Lit "FORMAT"); ("FROM_", Lit "FROM"); ("FULL_", Lit "FULL");
   ("GLOB_", Lit "GLOB"); ("GROUP_", Lit "GROUP"); ("HAVING_", Lit "HAVING"); ("IF_", Lit "IF");
   ("IGNORE_", Lit "IGNORE"); ("IMMEDIATE_", Lit "IMMEDIATE"); ("IN_", Lit "IN"); ("INDEX_", Lit "INDEX");
   ("INDEXED_", Lit "INDEXED"); ("INITIALLY_", Lit "INITIALLY"); ("INNER_", Lit "INNER");
   ("INSERT_", Lit "INSERT"); ("INSTEAD_", Lit "INSTEAD"); ("INTERSECT_", Lit "INTERSECT"); ("INTO_", Lit "INTO");
   ("IS_", Lit "IS"); ("ISNULL_", Lit "ISNULL"); ("JOIN_", Lit "JOIN"); ("KEY_", Lit "KEY");
   ("LEFT_", Lit "LEFT"); ("LIKE_", Lit "LIKE"); ("LIMIT_", Lit "LIMIT"); ("MATCH_", Lit "MATCH");
   ("NATURAL_", Lit "NATURAL"); ("NO_", Lit "NO"); ("NOT_", Lit "NOT"); ("NOTNULL_", Lit "NOTNULL");
   ("NULL_", Lit "NULL"); ("OF_", Lit "OF"); ("OFFSET_", Lit "OFFSET"); ("ON_", Lit "ON"); ("OR_", Lit "OR");
   ("ORDER_", Lit "ORDER"); ("OUTER_", Lit "OUTER"); ("PLAN_", Lit "PLAN"); ("PRAGMA_", Lit "PRAGMA");
   ("PRIMARY_", Lit "PRIMARY"); ("QUERY_", Lit "QUERY"); ("RAISE_", Lit "RAISE"); ("RECURSIVE_", Lit "RECURSIVE");
   ("REFERENCES_", Lit "REFERENCES"); ("REGEXP_", Lit "REGEXP"); ("REINDEX_", Lit "REINDEX");
   ("RELEASE_", Lit "RELEASE"); ("RENAME_", Lit "RENAME"); ("REPLACE_", Lit "REPLACE");
   ("RESTRICT_", Lit "RESTRICT"); ("RETURNING_", Lit "RETURNING"); ("RIGHT_", Lit "RIGHT");
   ("ROLLBACK_", Lit "ROLLBACK"); ("ROW_", Lit "ROW"); ("ROWS_", Lit "ROWS"); ("SAVEPOINT_", Lit "SAVEPOINT");
   ("SELECT_", Lit "SELECT"); ("SET_", Lit "SET"); ("TABLE_", Lit "TABLE"); ("TEMP_", Lit "TEMP");
   ("TEMPORARY_", Lit "TEMPORARY"); ("TEXT_", Lit "TEXT"); ("THEN_", Lit "THEN"); ("TO_", Lit "TO");
   ("TRANSACTION_", Lit "TRANSACTION"); ("TRIGGER_", Lit "TRIGGER"); ("TRUNCATE_", Lit "TRUNCATE");
   ("UNION_", Lit "UNION"); ("UNIQUE_", Lit "UNIQUE"); ("UPDATE_", Lit "UPDATE"); ("USING_", Lit "USING");
   ("VACUUM_", Lit "VACUUM"); ("VALUES_", Lit "VALUES"); ("VIEW_", Lit "VIEW"); ("VIRTUAL_", Lit "VIRTUAL");
   ("WHEN_", Lit "WHEN"); ("WHERE_", Lit "WHERE"); ("WITH_", Lit "WITH"); ("WITHOUT_", Lit "WITHOUT");
   ("FIRST_VALUE_", Lit "FIRST_VALUE"); ("OVER_", Lit "OVER"); ("PARTITION_", Lit "PARTITION");
   ("RANGE_", Lit "RANGE"); ("PRECEDING_", Lit "PRECEDING"); ("UNBOUNDED_", Lit "UNBOUNDED");
   ("CURRENT_", Lit "CURRENT"); ("FOLLOWING_", Lit "FOLLOWING"); ("CUME_DIST_", Lit "CUME_DIST");
   ("DENSE_RANK_", Lit "DENSE_RANK"); ("LAG_", Lit "LAG"); ("LAST_VALUE_", Lit "LAST_VALUE");
   ("LEAD_", Lit "LEAD"); ("NTH_VALUE_", Lit "NTH_VALUE"); ("NTILE_", Lit "NTILE");
   ("PERCENT_RANK_", Lit "PERCENT_RANK"); ("RANK_", Lit "RANK"); ("ROW_NUMBER_", Lit "ROW_NUMBER");
   ("GENERATED_", Lit "GENERATED"); ("ALWAYS_", Lit "ALWAYS"); ("STORED_", Lit "STORED"); ("TRUE_", Lit "TRUE");
   ("FALSE_", Lit "FALSE"); ("WINDOW_", Lit "WINDOW"); ("NULLS_", Lit "NULLS"); ("FIRST_", Lit "FIRST");
   ("LAST_", Lit "LAST"); ("FILTER_", Lit "FILTER"); ("GROUPS_", Lit "GROUPS"); ("EXCLUDE_", Lit "EXCLUDE");
   ("TIES_", Lit "TIES"); ("OTHERS_", Lit "OTHERS"); ("DO_", Lit "DO"); ("NOTHING_", Lit "NOTHING");
   ("USE_", Lit "USE"); ("ENGINE_", Lit "ENGINE"); ("IDENTIFIER", g_identifier);
   ("NUMERIC_LITERAL", g_numeric_literal); ("SYSTEM_VARIABLE", g_system_variable);
   ("USER_VARIABLE", g_user_variable); ("BIND_PARAMETER", g_bind_parameter); ("STRING_LITERAL", g_string_literal);
   ("BLOB_LITERAL", g_blob_literal); ("SINGLE_LINE_COMMENT", g_single_line_comment);
   ("MULTILINE_COMMENT", g_multiline_comment); ("SPACES", g_spaces); ("UNEXPECTED_CHAR", g_unexpected_char)].

(** The first token of the text s: its kind k, its text t and what follows it.  It is as long as possible, and the rule
    is the first one of those that match as much. *)
Definition first_token (s k t rest : string) : Prop :=
  s = (t ++ rest)%string /\ t <> ""%string /\
  exists i r, nth_error g4_rules i = Some (k, r) /\ matches r t rest /\
  forall j k' r' t' rest', nth_error g4_rules j = Some (k', r') -> s = (t' ++ rest')%string -> matches r' t' rest' ->
    String.length t' < String.length t \/ String.length t' = String.length t /\ i <= j.
(** The tokens of a text. *)
Inductive tokens : string -> list (string * string) -> Prop :=
| to_end : tokens "" []
| to_next s k t rest ts : first_token s k t rest -> tokens rest ts -> tokens s ((k, t) :: ts).
