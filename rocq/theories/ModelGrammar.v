(** The grammar of SQLiteParser.g4, one definition per rule, written out from the grammar file by a
    script that translates its EBNF operators one to one.  Rules that the grammar defines but never
    uses are included. *)
From Verif Require Import GoBase ModelEbnf.

(** SQLiteParser.g4:37-38 *)
Definition g_parse : gram :=
  seq [Star (Rule "sql_stmt_list" 0); Tok "EOF"].

(** SQLiteParser.g4:40-42 *)
Definition g_sql_stmt_list : gram :=
  seq [Star (Tok "SCOL"); Rule "sql_stmt" 0; Star (seq [Plus (Tok "SCOL"); Rule "sql_stmt" 0]);
    Star (Tok "SCOL")].

(** SQLiteParser.g4:44-79 *)
Definition g_sql_stmt : gram :=
  seq [Opt (seq [Tok "EXPLAIN_"; Opt (seq [Tok "QUERY_"; Tok "PLAN_"])]);
    alt [Rule "alter_database_stmt" 0; Rule "alter_table_stmt" 0; Rule "analyze_stmt" 0;
    Rule "attach_stmt" 0; Rule "begin_stmt" 0; Rule "commit_stmt" 0; Rule "create_database_stmt" 0;
    Rule "create_index_stmt" 0; Rule "create_table_stmt" 0; Rule "create_trigger_stmt" 0;
    Rule "create_view_stmt" 0; Rule "create_virtual_table_stmt" 0; Rule "delete_stmt" 0;
    Rule "delete_stmt_limited" 0; Rule "detach_stmt" 0; Rule "drop_database_stmt" 0;
    Rule "drop_index_stmt" 0; Rule "drop_table_stmt" 0; Rule "drop_trigger_stmt" 0;
    Rule "drop_view_stmt" 0; Rule "insert_stmt" 0; Rule "pragma_stmt" 0; Rule "reindex_stmt" 0;
    Rule "release_stmt" 0; Rule "rollback_stmt" 0; Rule "savepoint_stmt" 0; Rule "select_stmt" 0;
    Rule "update_stmt" 0; Rule "update_stmt_limited" 0; Rule "use_stmt" 0; Rule "vacuum_stmt" 0;
    Rule "copy_stmt" 0; Rule "truncate_stmt" 0]].

(** SQLiteParser.g4:81-85 *)
Definition g_alter_database_stmt : gram :=
  seq [Tok "ALTER_"; Tok "DATABASE_"; Opt (seq [Rule "schema_name" 0; Tok "DOT"]);
    Rule "database_name" 0; Rule "rename_database_to" 0].

(** SQLiteParser.g4:87-89 *)
Definition g_rename_database_to : gram :=
  seq [Tok "RENAME_"; Tok "TO_"; Lab "new_database_name" (Rule "database_name" 0)].

(** SQLiteParser.g4:91-99 *)
Definition g_alter_table_stmt : gram :=
  seq [Tok "ALTER_"; Tok "TABLE_"; Opt (seq [Rule "schema_name" 0; Tok "DOT"]);
    Lab "target_table_name" (Rule "table_name" 0); alt [Rule "rename_table_to" 0;
    Rule "rename_table_colum" 0; Rule "add_table_index" 0; Rule "add_table_column" 0;
    Rule "drop_table_column" 0]].

(** SQLiteParser.g4:101-103 *)
Definition g_rename_table_to : gram :=
  seq [Tok "RENAME_"; Tok "TO_"; Rule "table_name" 0].

(** SQLiteParser.g4:105-107 *)
Definition g_rename_table_colum : gram :=
  seq [Tok "RENAME_"; Opt (Tok "COLUMN_"); Lab "old_column_name" (Rule "column_name" 0); Tok "TO_";
    Lab "new_column_name" (Rule "column_name" 0)].

(** SQLiteParser.g4:109-111 *)
Definition g_add_table_column : gram :=
  seq [Tok "ADD_"; Opt (Tok "COLUMN_"); Rule "column_def" 0].

(** SQLiteParser.g4:113-115 *)
Definition g_add_table_index : gram :=
  seq [Tok "ADD_"; Rule "column_constraint" 0; Tok "OPEN_PAR"; Rule "column_name" 0;
    Star (seq [Tok "COMMA"; Rule "column_name" 0]); Tok "CLOSE_PAR"].

(** SQLiteParser.g4:117-119 *)
Definition g_drop_table_column : gram :=
  seq [Tok "DROP_"; Opt (Tok "COLUMN_"); Rule "column_name" 0].

(** SQLiteParser.g4:121-123 *)
Definition g_analyze_stmt : gram :=
  seq [Tok "ANALYZE_"; Opt (alt [Rule "schema_name" 0; seq [Opt (seq [Rule "schema_name" 0;
    Tok "DOT"]); Rule "table_or_index_name" 0]])].

(** SQLiteParser.g4:125-127 *)
Definition g_attach_stmt : gram :=
  seq [Tok "ATTACH_"; Opt (Tok "DATABASE_"); Rule "expr" 0; Tok "AS_"; Rule "schema_name" 0].

(** SQLiteParser.g4:129-133 *)
Definition g_begin_stmt : gram :=
  seq [Tok "BEGIN_"; Opt (alt [Tok "DEFERRED_"; Tok "IMMEDIATE_"; Tok "EXCLUSIVE_"]);
    Opt (seq [Tok "TRANSACTION_"; Opt (Rule "transaction_name" 0)])].

(** SQLiteParser.g4:135-136 *)
Definition g_commit_stmt : gram :=
  seq [alt [Tok "COMMIT_"; Tok "END_"]; Opt (Tok "TRANSACTION_")].

(** SQLiteParser.g4:138-140 *)
Definition g_rollback_stmt : gram :=
  seq [Tok "ROLLBACK_"; Opt (Tok "TRANSACTION_"); Opt (seq [Tok "TO_"; Opt (Tok "SAVEPOINT_");
    Rule "savepoint_name" 0])].

(** SQLiteParser.g4:142-144 *)
Definition g_savepoint_stmt : gram :=
  seq [Tok "SAVEPOINT_"; Rule "savepoint_name" 0].

(** SQLiteParser.g4:146-148 *)
Definition g_release_stmt : gram :=
  seq [Tok "RELEASE_"; Opt (Tok "SAVEPOINT_"); Rule "savepoint_name" 0].

(** SQLiteParser.g4:150-153 *)
Definition g_create_index_stmt : gram :=
  seq [Tok "CREATE_"; Opt (Tok "UNIQUE_"); Tok "INDEX_"; Opt (Rule "if_not_exists" 0);
    Opt (seq [Rule "schema_name" 0; Tok "DOT"]); Rule "index_name" 0; Tok "ON_"; Rule "table_name" 0;
    Tok "OPEN_PAR"; Rule "indexed_column" 0; Star (seq [Tok "COMMA"; Rule "indexed_column" 0]);
    Tok "CLOSE_PAR"; Opt (seq [Tok "WHERE_"; Rule "expr" 0])].

(** SQLiteParser.g4:155-156 *)
Definition g_indexed_column : gram :=
  seq [alt [Rule "column_name" 0; Rule "expr" 0]; Opt (seq [Tok "COLLATE_"; Rule "collation_name" 0]);
    Opt (Rule "asc_desc" 0)].

(** SQLiteParser.g4:158-160 *)
Definition g_create_database_stmt : gram :=
  seq [Tok "CREATE_"; Tok "DATABASE_"; Opt (Rule "if_not_exists" 0); Rule "database_name" 0].

(** SQLiteParser.g4:162-164 *)
Definition g_if_not_exists : gram :=
  seq [Tok "IF_"; Tok "NOT_"; Tok "EXISTS_"].

(** SQLiteParser.g4:166-174 *)
Definition g_create_table_stmt : gram :=
  seq [Tok "CREATE_"; Opt (alt [Tok "TEMP_"; Tok "TEMPORARY_"]); Tok "TABLE_";
    Opt (Rule "if_not_exists" 0); Opt (seq [Rule "schema_name" 0; Tok "DOT"]); Rule "table_name" 0;
    alt [seq [Tok "OPEN_PAR"; Rule "column_def" 0; StarNG (seq [Tok "COMMA"; Rule "column_def" 0]);
    Star (seq [Tok "COMMA"; Rule "table_constraint" 0]); Tok "CLOSE_PAR";
    Opt (alt [Rule "table_options" 0; Rule "mysql_table_options" 0])]; seq [Tok "AS_";
    Rule "select_stmt" 0]]].

(** SQLiteParser.g4:176-179 *)
Definition g_table_options : gram :=
  alt [seq [Tok "WITHOUT_"; Lab "row_ROW_ID" (Tok "IDENTIFIER")]; seq [Tok "WITH_"; Tok "OPEN_PAR";
    Rule "with_param" 0; StarNG (seq [Tok "COMMA"; Rule "column_def" 0]); Tok "CLOSE_PAR"]].

(** SQLiteParser.g4:181-183 *)
Definition g_mysql_table_options : gram :=
  seq [Tok "ENGINE_"; Tok "ASSIGN"; Tok "IDENTIFIER"].

(** SQLiteParser.g4:185-187 *)
Definition g_column_def : gram :=
  seq [Rule "column_name" 0; Opt (Rule "type_name" 0); Star (Rule "column_constraint" 0)].

(** SQLiteParser.g4:189-191 *)
Definition g_with_param : gram :=
  seq [Tok "IDENTIFIER"; Tok "ASSIGN"; Rule "expr" 0].

(** SQLiteParser.g4:193-198 *)
Definition g_type_name : gram :=
  seq [PlusNG (Rule "name" 0); Opt (alt [seq [Tok "OPEN_PAR"; Rule "signed_number" 0; Tok "CLOSE_PAR"];
    seq [Tok "OPEN_PAR"; Rule "signed_number" 0; Tok "COMMA"; Rule "signed_number" 0;
    Tok "CLOSE_PAR"]])].

(** SQLiteParser.g4:200-213 *)
Definition g_column_constraint : gram :=
  seq [Opt (seq [Tok "CONSTRAINT_"; Rule "name" 0]); alt [Rule "primary_key_constraint" 0;
    Rule "index_constraint" 0; seq [alt [seq [Opt (Tok "NOT_"); Tok "NULL_"]; Tok "UNIQUE_"];
    Opt (Rule "conflict_clause" 0)]; seq [Tok "CHECK_"; Tok "OPEN_PAR"; Rule "expr" 0;
    Tok "CLOSE_PAR"]; seq [Tok "DEFAULT_"; alt [Rule "signed_number" 0; Rule "literal_value" 0;
    seq [Tok "OPEN_PAR"; Rule "expr" 0; Tok "CLOSE_PAR"]]]; seq [Tok "COLLATE_";
    Rule "collation_name" 0]; Rule "foreign_key_clause" 0; seq [Opt (seq [Tok "GENERATED_";
    Tok "ALWAYS_"]); Tok "AS_"; Tok "OPEN_PAR"; Rule "expr" 0; Tok "CLOSE_PAR";
    Opt (alt [Tok "STORED_"; Tok "VIRTUAL_"])]]].

(** SQLiteParser.g4:215-217 *)
Definition g_primary_key_constraint : gram :=
  seq [Tok "PRIMARY_"; Tok "KEY_"; Opt (Rule "asc_desc" 0); Opt (Rule "conflict_clause" 0);
    Opt (Tok "AUTOINCREMENT_")].

(** SQLiteParser.g4:219-221 *)
Definition g_index_constraint : gram :=
  seq [Tok "INDEX_"; Rule "index_name" 0].

(** SQLiteParser.g4:223-224 *)
Definition g_signed_number : gram :=
  seq [Opt (alt [Tok "PLUS"; Tok "MINUS"]); Tok "NUMERIC_LITERAL"].

(** SQLiteParser.g4:226-232 *)
Definition g_table_constraint : gram :=
  seq [Opt (seq [Tok "CONSTRAINT_"; Rule "name" 0]); alt [Rule "primary_key_def" 0;
    Rule "unique_key_def" 0; seq [Tok "CHECK_"; Tok "OPEN_PAR"; Rule "expr" 0; Tok "CLOSE_PAR"];
    seq [Tok "FOREIGN_"; Tok "KEY_"; Tok "OPEN_PAR"; Rule "column_name" 0; Star (seq [Tok "COMMA";
    Rule "column_name" 0]); Tok "CLOSE_PAR"; Rule "foreign_key_clause" 0]]].

(** SQLiteParser.g4:234-238 *)
Definition g_primary_key_def : gram :=
  seq [Tok "PRIMARY_"; Tok "KEY_"; Tok "OPEN_PAR"; Rule "indexed_column" 0; Star (seq [Tok "COMMA";
    Rule "indexed_column" 0]); Tok "CLOSE_PAR"; Opt (Rule "conflict_clause" 0)].

(** SQLiteParser.g4:240-244 *)
Definition g_unique_key_def : gram :=
  seq [Tok "UNIQUE_"; Tok "OPEN_PAR"; Rule "indexed_column" 0; Star (seq [Tok "COMMA";
    Rule "indexed_column" 0]); Tok "CLOSE_PAR"; Opt (Rule "conflict_clause" 0)].

(** SQLiteParser.g4:246-258 *)
Definition g_foreign_key_clause : gram :=
  seq [Tok "REFERENCES_"; Rule "foreign_table" 0; Opt (seq [Tok "OPEN_PAR"; Rule "column_name" 0;
    Star (seq [Tok "COMMA"; Rule "column_name" 0]); Tok "CLOSE_PAR"]); Star (alt [seq [Tok "ON_";
    alt [Tok "DELETE_"; Tok "UPDATE_"]; alt [seq [Tok "SET_"; alt [Tok "NULL_"; Tok "DEFAULT_"]];
    Tok "CASCADE_"; Tok "RESTRICT_"; seq [Tok "NO_"; Tok "ACTION_"]]]; seq [Tok "MATCH_";
    Rule "name" 0]]); Opt (seq [Opt (Tok "NOT_"); Tok "DEFERRABLE_"; Opt (seq [Tok "INITIALLY_";
    alt [Tok "DEFERRED_"; Tok "IMMEDIATE_"]])])].

(** SQLiteParser.g4:260-268 *)
Definition g_conflict_clause : gram :=
  seq [Tok "ON_"; Tok "CONFLICT_"; alt [Tok "ROLLBACK_"; Tok "ABORT_"; Tok "FAIL_"; Tok "IGNORE_";
    Tok "REPLACE_"]].

(** SQLiteParser.g4:270-280 *)
Definition g_create_trigger_stmt : gram :=
  seq [Tok "CREATE_"; Opt (alt [Tok "TEMP_"; Tok "TEMPORARY_"]); Tok "TRIGGER_";
    Opt (Rule "if_not_exists" 0); Opt (seq [Rule "schema_name" 0; Tok "DOT"]); Rule "trigger_name" 0;
    Opt (alt [Tok "BEFORE_"; Tok "AFTER_"; seq [Tok "INSTEAD_"; Tok "OF_"]]); alt [Tok "DELETE_";
    Tok "INSERT_"; seq [Tok "UPDATE_"; Opt (seq [Tok "OF_"; Rule "column_name" 0;
    Star (seq [Tok "COMMA"; Rule "column_name" 0])])]]; Tok "ON_"; Rule "table_name" 0;
    Opt (seq [Tok "FOR_"; Tok "EACH_"; Tok "ROW_"]); Opt (seq [Tok "WHEN_"; Rule "expr" 0]);
    Tok "BEGIN_"; Plus (seq [alt [Rule "update_stmt" 0; Rule "insert_stmt" 0; Rule "delete_stmt" 0;
    Rule "select_stmt" 0]; Tok "SCOL"]); Tok "END_"].

(** SQLiteParser.g4:282-286 *)
Definition g_create_view_stmt : gram :=
  seq [Tok "CREATE_"; Opt (alt [Tok "TEMP_"; Tok "TEMPORARY_"]); Tok "VIEW_";
    Opt (Rule "if_not_exists" 0); Opt (seq [Rule "schema_name" 0; Tok "DOT"]); Rule "view_name" 0;
    Opt (seq [Tok "OPEN_PAR"; Rule "column_name" 0; Star (seq [Tok "COMMA"; Rule "column_name" 0]);
    Tok "CLOSE_PAR"]); Tok "AS_"; Rule "select_stmt" 0].

(** SQLiteParser.g4:288-292 *)
Definition g_create_virtual_table_stmt : gram :=
  seq [Tok "CREATE_"; Tok "VIRTUAL_"; Tok "TABLE_"; Opt (Rule "if_not_exists" 0);
    Opt (seq [Rule "schema_name" 0; Tok "DOT"]); Rule "table_name" 0; Tok "USING_";
    Rule "module_name" 0; Opt (seq [Tok "OPEN_PAR"; Rule "module_argument" 0; Star (seq [Tok "COMMA";
    Rule "module_argument" 0]); Tok "CLOSE_PAR"])].

(** SQLiteParser.g4:294-298 *)
Definition g_with_clause : gram :=
  seq [Tok "WITH_"; Opt (Tok "RECURSIVE_"); Rule "cte_table_name" 0; Tok "AS_"; Tok "OPEN_PAR";
    Rule "select_stmt" 0; Tok "CLOSE_PAR"; Star (seq [Tok "COMMA"; Rule "cte_table_name" 0; Tok "AS_";
    Tok "OPEN_PAR"; Rule "select_stmt" 0; Tok "CLOSE_PAR"])].

(** SQLiteParser.g4:300-302 *)
Definition g_cte_table_name : gram :=
  seq [Rule "table_name" 0; Opt (seq [Tok "OPEN_PAR"; Rule "column_name" 0; Star (seq [Tok "COMMA";
    Rule "column_name" 0]); Tok "CLOSE_PAR"])].

(** SQLiteParser.g4:304-306 *)
Definition g_recursive_cte : gram :=
  seq [Rule "cte_table_name" 0; Tok "AS_"; Tok "OPEN_PAR"; Rule "initial_select" 0; Tok "UNION_";
    Opt (Tok "ALL_"); Rule "recursive_select" 0; Tok "CLOSE_PAR"].

(** SQLiteParser.g4:308-310 *)
Definition g_common_table_expression : gram :=
  seq [Rule "table_name" 0; Opt (seq [Tok "OPEN_PAR"; Rule "column_name" 0; Star (seq [Tok "COMMA";
    Rule "column_name" 0]); Tok "CLOSE_PAR"]); Tok "AS_"; Tok "OPEN_PAR"; Rule "select_stmt" 0;
    Tok "CLOSE_PAR"].

(** SQLiteParser.g4:312-314 *)
Definition g_delete_stmt : gram :=
  seq [Opt (Rule "with_clause" 0); Tok "DELETE_"; Tok "FROM_";
    Lab "table" (Rule "qualified_table_name" 0); Opt (seq [Tok "WHERE_";
    Lab "whereExpr" (Rule "expr" 0)]); Opt (Rule "returning_clause" 0)].

(** SQLiteParser.g4:316-320 *)
Definition g_delete_stmt_limited : gram :=
  seq [Opt (Rule "with_clause" 0); Tok "DELETE_"; Tok "FROM_"; Rule "qualified_table_name" 0;
    Opt (seq [Tok "WHERE_"; Rule "expr" 0]); Opt (Rule "returning_clause" 0);
    Opt (seq [Opt (Rule "order_by_stmt" 0); Rule "limit_stmt" 0])].

(** SQLiteParser.g4:322-324 *)
Definition g_detach_stmt : gram :=
  seq [Tok "DETACH_"; Opt (Tok "DATABASE_"); Rule "schema_name" 0].

(** SQLiteParser.g4:326-330 *)
Definition g_drop_stmt : gram :=
  seq [Tok "DROP_"; Lab "object" (alt [Tok "INDEX_"; Tok "TABLE_"; Tok "TRIGGER_"; Tok "VIEW_"]);
    Opt (Rule "if_exists" 0); Opt (seq [Rule "schema_name" 0; Tok "DOT"]); Rule "any_name" 0].

(** SQLiteParser.g4:332-336 *)
Definition g_drop_database_stmt : gram :=
  seq [Tok "DROP_"; Tok "DATABASE_"; Opt (Rule "if_exists" 0); Rule "database_name" 0].

(** SQLiteParser.g4:338-342 *)
Definition g_drop_index_stmt : gram :=
  seq [Tok "DROP_"; Tok "INDEX_"; Opt (Rule "if_exists" 0); Opt (seq [Rule "schema_name" 0;
    Tok "DOT"]); Rule "index_name" 0].

(** SQLiteParser.g4:344-348 *)
Definition g_drop_table_stmt : gram :=
  seq [Tok "DROP_"; Tok "TABLE_"; Opt (Rule "if_exists" 0); Opt (seq [Rule "schema_name" 0;
    Tok "DOT"]); seq [Rule "table_name" 0; Star (seq [Tok "COMMA"; Rule "table_name" 0])];
    Opt (Tok "CASCADE_")].

(** SQLiteParser.g4:350-354 *)
Definition g_drop_trigger_stmt : gram :=
  seq [Tok "DROP_"; Tok "TRIGGER_"; Opt (Rule "if_exists" 0); Opt (seq [Rule "schema_name" 0;
    Tok "DOT"]); Rule "trigger_name" 0].

(** SQLiteParser.g4:356-360 *)
Definition g_drop_view_stmt : gram :=
  seq [Tok "DROP_"; Tok "VIEW_"; Opt (Rule "if_exists" 0); Opt (seq [Rule "schema_name" 0; Tok "DOT"]);
    Rule "view_name" 0].

(** SQLiteParser.g4:362-364 *)
Definition g_if_exists : gram :=
  seq [Tok "IF_"; Tok "EXISTS_"].

(** SQLiteParser.g4:366-368 *)
Definition g_use_stmt : gram :=
  seq [Tok "USE_"; Rule "database_name" 0].

(** SQLiteParser.g4:370-372 *)
Definition g_copy_stmt : gram :=
  seq [Tok "COPY_"; Lab "table" (Rule "qualified_table_name" 0); Opt (Rule "copy_column_list" 0);
    Tok "FROM_"; Rule "source_name" 0; Opt (Tok "WITH_"); Opt (Rule "copy_format" 0)].

(** SQLiteParser.g4:374-376 *)
Definition g_copy_column_list : gram :=
  seq [Tok "OPEN_PAR"; Rule "column_name" 0; Star (seq [Tok "COMMA"; Rule "column_name" 0]);
    Tok "CLOSE_PAR"].

(** SQLiteParser.g4:378-380 *)
Definition g_copy_format : gram :=
  seq [Opt (Tok "FORMAT_"); Lab "format_type" (alt [Tok "TEXT_"; Tok "CSV_"; Tok "BINARY_"])].

(** SQLiteParser.g4:382-384 *)
Definition g_source_name : gram :=
  Rule "any_name" 0.

(** SQLiteParser.g4:386-388 *)
Definition g_truncate_stmt : gram :=
  seq [Tok "TRUNCATE_"; Opt (Tok "TABLE_"); seq [Rule "table_name" 0; Star (seq [Tok "COMMA";
    Rule "table_name" 0])]].

(** SQLiteParser.g4:401-442.  The rule is left recursive: ANTLR turns it into the alternatives that
    do not start with expr, followed by a loop over the others, each guarded by a precedence
    (sqlite_parser.go:17979-18690; [p] is the precedence the rule is called with). *)
Definition g_expr (p : nat) : gram :=
  LeftRec "expr"
    (alt [
      Rule "literal_value" 0;
      Rule "arithmetic_expr" 0;
      Rule "bind_param" 0;
      Rule "system_var" 0;
      Rule "user_var" 0;
      seq [Opt (seq [Opt (seq [Rule "schema_name" 0; Tok "DOT"]); Rule "table_name" 0; Tok "DOT"]);
        Rule "column_name" 0];
      seq [Rule "unary_operator" 0; Rule "expr" 19];
      Rule "comparison_expr" 0;
      Rule "and_expr" 0;
      Rule "or_expr" 0;
      Rule "function" 0;
      seq [Tok "OPEN_PAR"; Rule "expr" 0; Star (seq [Tok "COMMA"; Rule "expr" 0]); Tok "CLOSE_PAR"];
      seq [Tok "CAST_"; Tok "OPEN_PAR"; Rule "expr" 0; Tok "AS_"; Rule "type_name" 0; Tok "CLOSE_PAR"];
      seq [Opt (seq [Opt (Tok "NOT_"); Tok "EXISTS_"]); Tok "OPEN_PAR"; Rule "select_stmt" 0;
        Tok "CLOSE_PAR"];
      seq [Tok "CASE_"; Opt (Rule "expr" 0); Plus (seq [Tok "WHEN_"; Rule "expr" 0; Tok "THEN_";
        Rule "expr" 0]); Opt (seq [Tok "ELSE_"; Rule "expr" 0]); Tok "END_"];
      Rule "raise_function" 0])
    (alt [
      prec p 18 (seq [Tok "PIPE2"; Rule "expr" 19]);
      prec p 17 (seq [alt [Tok "LT2"; Tok "GT2"; Tok "AMP"; Tok "PIPE"]; Rule "expr" 18]);
      prec p 13 (seq [alt [Tok "EQ"; Tok "IS_"; seq [Tok "IS_"; Tok "NOT_"]; Tok "IN_"; Tok "LIKE_";
        Tok "GLOB_"; Tok "MATCH_"; Tok "REGEXP_"]; Rule "expr" 14]);
      prec p 6 (seq [Tok "IS_"; Opt (Tok "NOT_"); Rule "expr" 7]);
      prec p 5 (seq [Opt (Tok "NOT_"); Tok "BETWEEN_"; Rule "expr" 0; Tok "AND_"; Rule "expr" 6]);
      prec p 9 (seq [Tok "COLLATE_"; Rule "collation_name" 0]);
      prec p 8 (seq [Opt (Tok "NOT_"); alt [Tok "LIKE_"; Tok "GLOB_"; Tok "REGEXP_"; Tok "MATCH_"];
        Rule "expr" 0; Opt (seq [Tok "ESCAPE_"; Rule "expr" 0])]);
      prec p 7 (alt [Tok "ISNULL_"; Tok "NOTNULL_"; seq [Tok "NOT_"; Tok "NULL_"]]);
      prec p 4 (seq [Opt (Tok "NOT_"); Tok "IN_"; alt [seq [Tok "OPEN_PAR";
        Opt (alt [Rule "select_stmt" 0; seq [Rule "expr" 0; Star (seq [Tok "COMMA"; Rule "expr" 0])]]);
        Tok "CLOSE_PAR"]; seq [Opt (seq [Rule "schema_name" 0; Tok "DOT"]); Rule "table_name" 0];
        seq [Opt (seq [Rule "schema_name" 0; Tok "DOT"]); Rule "table_function_name" 0; Tok "OPEN_PAR";
        Opt (seq [Rule "expr" 0; Star (seq [Tok "COMMA"; Rule "expr" 0])]); Tok "CLOSE_PAR"]]])]).

(** SQLiteParser.g4:444-446 *)
Definition g_function : gram :=
  seq [Rule "function_name" 0; Tok "OPEN_PAR"; Opt (alt [seq [Opt (Tok "DISTINCT_"); Rule "expr" 0;
    Star (seq [Tok "COMMA"; Rule "expr" 0])]; Tok "STAR"]); Tok "CLOSE_PAR";
    Opt (Rule "filter_clause" 0); Opt (Rule "over_clause" 0)].

(** SQLiteParser.g4:448-450 *)
Definition g_comparison_expr : gram :=
  seq [Rule "column_name" 0; Lab "ope" (alt [Tok "ASSIGN"; Tok "NOT_EQ1"; Tok "NOT_EQ2"; Tok "LT";
    Tok "LT_EQ"; Tok "GT"; Tok "GT_EQ"]); Rule "literal_value" 0].

(** SQLiteParser.g4:452-454 *)
Definition g_and_expr : gram :=
  seq [Lab "left" (Rule "comparison_expr" 0); Tok "AND_"; Lab "right" (Rule "comparison_expr" 0)].

(** SQLiteParser.g4:456-458 *)
Definition g_or_expr : gram :=
  seq [Lab "left" (Rule "comparison_expr" 0); Tok "OR_"; Lab "right" (Rule "comparison_expr" 0)].

(** SQLiteParser.g4:459-461 *)
Definition g_arithmetic_expr : gram :=
  seq [Rule "column_name" 0; Lab "ope" (alt [Tok "PLUS"; Tok "MINUS"; Tok "STAR"; Tok "DIV";
    Tok "MOD"]); Rule "expr" 0].

(** SQLiteParser.g4:463-468 *)
Definition g_raise_function : gram :=
  seq [Tok "RAISE_"; Tok "OPEN_PAR"; alt [Tok "IGNORE_"; seq [alt [Tok "ROLLBACK_"; Tok "ABORT_";
    Tok "FAIL_"]; Tok "COMMA"; Rule "error_message" 0]]; Tok "CLOSE_PAR"].

(** SQLiteParser.g4:470-481 *)
Definition g_literal_value : gram :=
  alt [Rule "signed_number" 0; Rule "string_literal" 0; Tok "BLOB_LITERAL"; Tok "NULL_"; Tok "TRUE_";
    Tok "FALSE_"; Tok "CURRENT_TIME_"; Tok "CURRENT_DATE_"; Tok "CURRENT_TIMESTAMP_";
    Rule "bind_param" 0].

(** SQLiteParser.g4:483-485 *)
Definition g_bind_param : gram :=
  Tok "BIND_PARAMETER".

(** SQLiteParser.g4:487-489 *)
Definition g_system_var : gram :=
  seq [Tok "SYSTEM_VARIABLE"; Opt (seq [Tok "DOT"; Tok "IDENTIFIER"])].

(** SQLiteParser.g4:491-493 *)
Definition g_user_var : gram :=
  Tok "USER_VARIABLE".

(** SQLiteParser.g4:495-497 *)
Definition g_string_literal : gram :=
  Tok "STRING_LITERAL".

(** SQLiteParser.g4:499-501 *)
Definition g_value_row : gram :=
  seq [Tok "OPEN_PAR"; Rule "expr" 0; Star (seq [Tok "COMMA"; Rule "expr" 0]); Tok "CLOSE_PAR"].

(** SQLiteParser.g4:503-505 *)
Definition g_values_clause : gram :=
  seq [Tok "VALUES_"; Rule "value_row" 0; Star (seq [Tok "COMMA"; Rule "value_row" 0])].

(** SQLiteParser.g4:507-526 *)
Definition g_insert_stmt : gram :=
  seq [Opt (Rule "with_clause" 0); alt [Tok "INSERT_"; Tok "REPLACE_"; seq [Tok "INSERT_"; Tok "OR_";
    alt [Tok "REPLACE_"; Tok "ROLLBACK_"; Tok "ABORT_"; Tok "FAIL_"; Tok "IGNORE_"]]]; Tok "INTO_";
    Opt (seq [Rule "schema_name" 0; Tok "DOT"]); Rule "table_name" 0; Opt (seq [Tok "AS_";
    Rule "table_alias" 0]); Opt (seq [Tok "OPEN_PAR"; Rule "column_name" 0; Star (seq [Tok "COMMA";
    Rule "column_name" 0]); Tok "CLOSE_PAR"]); alt [seq [alt [Rule "values_clause" 0;
    Rule "select_stmt" 0]; Opt (Rule "upsert_clause" 0)]; seq [Tok "DEFAULT_"; Tok "VALUES_"]];
    Opt (Rule "returning_clause" 0)].

(** SQLiteParser.g4:528-530 *)
Definition g_returning_clause : gram :=
  seq [Tok "RETURNING_"; Rule "result_column" 0; Star (seq [Tok "COMMA"; Rule "result_column" 0])].

(** SQLiteParser.g4:532-543 *)
Definition g_upsert_clause : gram :=
  seq [Tok "ON_"; Tok "CONFLICT_"; Opt (seq [Tok "OPEN_PAR"; Rule "indexed_column" 0;
    Star (seq [Tok "COMMA"; Rule "indexed_column" 0]); Tok "CLOSE_PAR"; Opt (seq [Tok "WHERE_";
    Rule "expr" 0])]); Tok "DO_"; alt [Tok "NOTHING_"; seq [Tok "UPDATE_"; Tok "SET_";
    seq [alt [Rule "column_name" 0; Rule "column_name_list" 0]; Tok "ASSIGN"; Rule "expr" 0;
    Star (seq [Tok "COMMA"; alt [Rule "column_name" 0; Rule "column_name_list" 0]; Tok "ASSIGN";
    Rule "expr" 0]); Opt (seq [Tok "WHERE_"; Rule "expr" 0])]]]].

(** SQLiteParser.g4:545-550 *)
Definition g_pragma_stmt : gram :=
  seq [Tok "PRAGMA_"; Opt (seq [Rule "schema_name" 0; Tok "DOT"]); Rule "pragma_name" 0;
    Opt (alt [seq [Tok "ASSIGN"; Rule "pragma_value" 0]; seq [Tok "OPEN_PAR"; Rule "pragma_value" 0;
    Tok "CLOSE_PAR"]])].

(** SQLiteParser.g4:552-556 *)
Definition g_pragma_value : gram :=
  alt [Rule "signed_number" 0; Rule "name" 0; Tok "STRING_LITERAL"].

(** SQLiteParser.g4:558-560 *)
Definition g_reindex_stmt : gram :=
  seq [Tok "REINDEX_"; Opt (alt [Rule "collation_name" 0; seq [Opt (seq [Rule "schema_name" 0;
    Tok "DOT"]); alt [Rule "table_name" 0; Rule "index_name" 0]]])].

(** SQLiteParser.g4:562-564 *)
Definition g_select_stmt : gram :=
  seq [Opt (Rule "common_table_stmt" 0); Lab "parentQuery" (Rule "select_core" 0);
    Star (seq [Rule "compound_operator" 0; Rule "select_core" 0]); Opt (Rule "order_by_stmt" 0);
    Opt (Rule "limit_stmt" 0)].

(** SQLiteParser.g4:566-568 *)
Definition g_join_clause : gram :=
  seq [Rule "table_or_subquery" 0; Star (seq [Rule "join_operator" 0; Rule "table_or_subquery" 0;
    Opt (Rule "join_constraint" 0)])].

(** SQLiteParser.g4:570-584 *)
Definition g_select_core : gram :=
  alt [seq [Tok "SELECT_"; Opt (alt [Tok "DISTINCT_"; Tok "ALL_"]); Rule "result_column" 0;
    Star (seq [Tok "COMMA"; Rule "result_column" 0]); Opt (seq [Tok "FROM_";
    alt [Opt (seq [Rule "from" 0; Star (seq [Tok "COMMA"; Rule "from" 0])]); Rule "join_clause" 0]]);
    Opt (seq [Tok "WHERE_"; Lab "whereExpr" (Rule "expr" 0)]); Opt (seq [Tok "GROUP_"; Tok "BY_";
    Lab "groupByExpr" (Rule "expr" 0); Star (seq [Tok "COMMA"; Lab "groupByExpr" (Rule "expr" 0)]);
    Opt (seq [Tok "HAVING_"; Lab "havingExpr" (Rule "expr" 0)])]); Opt (seq [Tok "WINDOW_";
    Rule "window_name" 0; Tok "AS_"; Rule "window_defn" 0; Star (seq [Tok "COMMA";
    Rule "window_name" 0; Tok "AS_"; Rule "window_defn" 0])])]; Rule "values_clause" 0].

(** SQLiteParser.g4:586-588 *)
Definition g_factored_select_stmt : gram :=
  Rule "select_stmt" 0.

(** SQLiteParser.g4:590-592 *)
Definition g_simple_select_stmt : gram :=
  seq [Opt (Rule "common_table_stmt" 0); Rule "select_core" 0; Opt (Rule "order_by_stmt" 0);
    Opt (Rule "limit_stmt" 0)].

(** SQLiteParser.g4:594-598 *)
Definition g_compound_select_stmt : gram :=
  seq [Opt (Rule "common_table_stmt" 0); Rule "select_core" 0; Plus (seq [alt [seq [Tok "UNION_";
    Opt (Tok "ALL_")]; Tok "INTERSECT_"; Tok "EXCEPT_"]; Rule "select_core" 0]);
    Opt (Rule "order_by_stmt" 0); Opt (Rule "limit_stmt" 0)].

(** SQLiteParser.g4:600-605 *)
Definition g_from : gram :=
  alt [Rule "from_table" 0; Rule "from_function" 0; Rule "from_select" 0;
    Rule "from_table_or_subquery" 0].

(** SQLiteParser.g4:607-612 *)
Definition g_from_table : gram :=
  seq [Opt (seq [Rule "schema_name" 0; Tok "DOT"]); Rule "table_name" 0; Opt (seq [Opt (Tok "AS_");
    Rule "table_alias" 0]); Opt (alt [seq [Tok "INDEXED_"; Tok "BY_"; Rule "index_name" 0];
    seq [Tok "NOT_"; Tok "INDEXED_"]])].

(** SQLiteParser.g4:614-618 *)
Definition g_from_function : gram :=
  seq [Opt (seq [Rule "schema_name" 0; Tok "DOT"]); Rule "table_function_name" 0; Tok "OPEN_PAR";
    Rule "expr" 0; Star (seq [Tok "COMMA"; Rule "expr" 0]); Tok "CLOSE_PAR"; Opt (seq [Opt (Tok "AS_");
    Rule "table_alias" 0])].

(** SQLiteParser.g4:620-622 *)
Definition g_from_table_or_subquery : gram :=
  seq [Tok "OPEN_PAR"; alt [seq [Rule "table_or_subquery" 0; Star (seq [Tok "COMMA";
    Rule "table_or_subquery" 0])]; Rule "join_clause" 0]; Tok "CLOSE_PAR"].

(** SQLiteParser.g4:624-626 *)
Definition g_from_select : gram :=
  seq [Tok "OPEN_PAR"; Rule "select_stmt" 0; Tok "CLOSE_PAR"; Opt (seq [Opt (Tok "AS_");
    Rule "table_alias" 0])].

(** SQLiteParser.g4:628-639 *)
Definition g_table_or_subquery : gram :=
  alt [seq [Opt (seq [Rule "schema_name" 0; Tok "DOT"]); Rule "table_name" 0;
    Opt (seq [Opt (Tok "AS_"); Rule "table_alias" 0]); Opt (alt [seq [Tok "INDEXED_"; Tok "BY_";
    Rule "index_name" 0]; seq [Tok "NOT_"; Tok "INDEXED_"]])]; seq [Opt (seq [Rule "schema_name" 0;
    Tok "DOT"]); Rule "table_function_name" 0; Tok "OPEN_PAR"; Rule "expr" 0; Star (seq [Tok "COMMA";
    Rule "expr" 0]); Tok "CLOSE_PAR"; Opt (seq [Opt (Tok "AS_"); Rule "table_alias" 0])];
    seq [Tok "OPEN_PAR"; alt [seq [Rule "table_or_subquery" 0; Star (seq [Tok "COMMA";
    Rule "table_or_subquery" 0])]; Rule "join_clause" 0]; Tok "CLOSE_PAR"]; seq [Tok "OPEN_PAR";
    Rule "select_stmt" 0; Tok "CLOSE_PAR"; Opt (seq [Opt (Tok "AS_"); Rule "table_alias" 0])]].

(** SQLiteParser.g4:641-645 *)
Definition g_result_column : gram :=
  alt [Tok "STAR"; seq [Rule "table_name" 0; Tok "DOT"; Tok "STAR"]; seq [Rule "expr" 0;
    Opt (seq [Opt (Tok "AS_"); Rule "column_alias" 0])]].

(** SQLiteParser.g4:647-650 *)
Definition g_join_operator : gram :=
  alt [Tok "COMMA"; seq [Opt (Tok "NATURAL_"); Opt (alt [seq [Tok "LEFT_"; Opt (Tok "OUTER_")];
    Tok "INNER_"; Tok "CROSS_"]); Tok "JOIN_"]].

(** SQLiteParser.g4:652-655 *)
Definition g_join_constraint : gram :=
  alt [seq [Tok "ON_"; Rule "expr" 0]; seq [Tok "USING_"; Tok "OPEN_PAR"; Rule "column_name" 0;
    Star (seq [Tok "COMMA"; Rule "column_name" 0]); Tok "CLOSE_PAR"]].

(** SQLiteParser.g4:657-661 *)
Definition g_compound_operator : gram :=
  alt [seq [Tok "UNION_"; Opt (Tok "ALL_")]; Tok "INTERSECT_"; Tok "EXCEPT_"].

(** SQLiteParser.g4:663-671 *)
Definition g_update_stmt : gram :=
  seq [Opt (Rule "with_clause" 0); Tok "UPDATE_"; Opt (seq [Tok "OR_"; alt [Tok "ROLLBACK_";
    Tok "ABORT_"; Tok "REPLACE_"; Tok "FAIL_"; Tok "IGNORE_"]]);
    Lab "table" (Rule "qualified_table_name" 0); Tok "SET_"; Rule "update_column_set" 0;
    Star (seq [Tok "COMMA"; Rule "update_column_set" 0]); Opt (seq [Tok "FROM_";
    alt [seq [Rule "table_or_subquery" 0; Star (seq [Tok "COMMA"; Rule "table_or_subquery" 0])];
    Rule "join_clause" 0]]); Opt (seq [Tok "WHERE_"; Lab "whereExpr" (Rule "expr" 0)]);
    Opt (Rule "returning_clause" 0)].

(** SQLiteParser.g4:673-675 *)
Definition g_update_column_set : gram :=
  seq [alt [Rule "column_name" 0; Rule "column_name_list" 0]; Tok "ASSIGN"; Rule "expr" 0].

(** SQLiteParser.g4:677-679 *)
Definition g_column_name_list : gram :=
  seq [Tok "OPEN_PAR"; Rule "column_name" 0; Star (seq [Tok "COMMA"; Rule "column_name" 0]);
    Tok "CLOSE_PAR"].

(** SQLiteParser.g4:681-687 *)
Definition g_update_stmt_limited : gram :=
  seq [Opt (Rule "with_clause" 0); Tok "UPDATE_"; Opt (seq [Tok "OR_"; alt [Tok "ROLLBACK_";
    Tok "ABORT_"; Tok "REPLACE_"; Tok "FAIL_"; Tok "IGNORE_"]]); Rule "qualified_table_name" 0;
    Tok "SET_"; alt [Rule "column_name" 0; Rule "column_name_list" 0]; Tok "ASSIGN"; Rule "expr" 0;
    Star (seq [Tok "COMMA"; alt [Rule "column_name" 0; Rule "column_name_list" 0]; Tok "ASSIGN";
    Rule "expr" 0]); Opt (seq [Tok "WHERE_"; Rule "expr" 0]); Opt (Rule "returning_clause" 0);
    Opt (seq [Opt (Rule "order_by_stmt" 0); Rule "limit_stmt" 0])].

(** SQLiteParser.g4:689-693 *)
Definition g_qualified_table_name : gram :=
  seq [Opt (seq [Rule "schema_name" 0; Tok "DOT"]); Rule "table_name" 0; Opt (seq [Tok "AS_";
    Rule "alias" 0]); Opt (alt [seq [Tok "INDEXED_"; Tok "BY_"; Rule "index_name" 0]; seq [Tok "NOT_";
    Tok "INDEXED_"]])].

(** SQLiteParser.g4:695-697 *)
Definition g_vacuum_stmt : gram :=
  seq [Tok "VACUUM_"; Opt (Tok "ANALYZE_"); Opt (Rule "schema_name" 0); Opt (seq [Tok "INTO_";
    Rule "filename" 0])].

(** SQLiteParser.g4:699-701 *)
Definition g_filter_clause : gram :=
  seq [Tok "FILTER_"; Tok "OPEN_PAR"; Tok "WHERE_"; Rule "expr" 0; Tok "CLOSE_PAR"].

(** SQLiteParser.g4:703-707 *)
Definition g_window_defn : gram :=
  seq [Tok "OPEN_PAR"; Opt (Rule "base_window_name" 0); Opt (seq [Tok "PARTITION_"; Tok "BY_";
    Rule "expr" 0; Star (seq [Tok "COMMA"; Rule "expr" 0])]); seq [Tok "ORDER_"; Tok "BY_";
    Rule "ordering_term" 0; Star (seq [Tok "COMMA"; Rule "ordering_term" 0])];
    Opt (Rule "frame_spec" 0); Tok "CLOSE_PAR"].

(** SQLiteParser.g4:709-716 *)
Definition g_over_clause : gram :=
  seq [Tok "OVER_"; alt [Rule "window_name" 0; seq [Tok "OPEN_PAR"; Opt (Rule "base_window_name" 0);
    Opt (seq [Tok "PARTITION_"; Tok "BY_"; Rule "expr" 0; Star (seq [Tok "COMMA"; Rule "expr" 0])]);
    Opt (seq [Tok "ORDER_"; Tok "BY_"; Rule "ordering_term" 0; Star (seq [Tok "COMMA";
    Rule "ordering_term" 0])]); Opt (Rule "frame_spec" 0); Tok "CLOSE_PAR"]]].

(** SQLiteParser.g4:718-727 *)
Definition g_frame_spec : gram :=
  seq [Rule "frame_clause" 0; Opt (seq [Tok "EXCLUDE_"; alt [seq [Tok "NO_"; Tok "OTHERS_"];
    seq [Tok "CURRENT_"; Tok "ROW_"]; Tok "GROUP_"; Tok "TIES_"]])].

(** SQLiteParser.g4:729-733 *)
Definition g_frame_clause : gram :=
  seq [alt [Tok "RANGE_"; Tok "ROWS_"; Tok "GROUPS_"]; alt [Rule "frame_single" 0; seq [Tok "BETWEEN_";
    Rule "frame_left" 0; Tok "AND_"; Rule "frame_right" 0]]].

(** SQLiteParser.g4:735-737 *)
Definition g_simple_function_invocation : gram :=
  seq [Rule "simple_func" 0; Tok "OPEN_PAR"; alt [seq [Rule "expr" 0; Star (seq [Tok "COMMA";
    Rule "expr" 0])]; Tok "STAR"]; Tok "CLOSE_PAR"].

(** SQLiteParser.g4:739-741 *)
Definition g_aggregate_function_invocation : gram :=
  seq [Rule "aggregate_func" 0; Tok "OPEN_PAR"; Opt (alt [seq [Opt (Tok "DISTINCT_"); Rule "expr" 0;
    Star (seq [Tok "COMMA"; Rule "expr" 0])]; Tok "STAR"]); Tok "CLOSE_PAR";
    Opt (Rule "filter_clause" 0)].

(** SQLiteParser.g4:743-748 *)
Definition g_window_function_invocation : gram :=
  seq [Rule "window_function" 0; Tok "OPEN_PAR"; Opt (alt [seq [Rule "expr" 0; Star (seq [Tok "COMMA";
    Rule "expr" 0])]; Tok "STAR"]); Tok "CLOSE_PAR"; Opt (Rule "filter_clause" 0); Tok "OVER_";
    alt [Rule "window_defn" 0; Rule "window_name" 0]].

(** SQLiteParser.g4:750-752 *)
Definition g_common_table_stmt : gram :=
  seq [Tok "WITH_"; Opt (Tok "RECURSIVE_"); Rule "common_table_expression" 0; Star (seq [Tok "COMMA";
    Rule "common_table_expression" 0])].

(** SQLiteParser.g4:754-756 *)
Definition g_order_by_stmt : gram :=
  seq [Tok "ORDER_"; Tok "BY_"; Rule "ordering_term" 0; Star (seq [Tok "COMMA";
    Rule "ordering_term" 0])].

(** SQLiteParser.g4:758-760 *)
Definition g_limit_stmt : gram :=
  seq [Tok "LIMIT_"; Rule "expr" 0; Opt (seq [alt [Tok "OFFSET_"; Tok "COMMA"]; Rule "expr" 0])].

(** SQLiteParser.g4:762-764 *)
Definition g_ordering_term : gram :=
  seq [Rule "expr" 0; Opt (seq [Tok "COLLATE_"; Rule "collation_name" 0]); Opt (Rule "asc_desc" 0);
    Opt (seq [Tok "NULLS_"; alt [Tok "FIRST_"; Tok "LAST_"]])].

(** SQLiteParser.g4:766-769 *)
Definition g_asc_desc : gram :=
  alt [Tok "ASC_"; Tok "DESC_"].

(** SQLiteParser.g4:771-776 *)
Definition g_frame_left : gram :=
  alt [seq [Rule "expr" 0; Tok "PRECEDING_"]; seq [Rule "expr" 0; Tok "FOLLOWING_"];
    seq [Tok "CURRENT_"; Tok "ROW_"]; seq [Tok "UNBOUNDED_"; Tok "PRECEDING_"]].

(** SQLiteParser.g4:778-783 *)
Definition g_frame_right : gram :=
  alt [seq [Rule "expr" 0; Tok "PRECEDING_"]; seq [Rule "expr" 0; Tok "FOLLOWING_"];
    seq [Tok "CURRENT_"; Tok "ROW_"]; seq [Tok "UNBOUNDED_"; Tok "FOLLOWING_"]].

(** SQLiteParser.g4:785-789 *)
Definition g_frame_single : gram :=
  alt [seq [Rule "expr" 0; Tok "PRECEDING_"]; seq [Tok "UNBOUNDED_"; Tok "PRECEDING_"];
    seq [Tok "CURRENT_"; Tok "ROW_"]].

(** SQLiteParser.g4:793-804 *)
Definition g_window_function : gram :=
  alt [seq [alt [Tok "FIRST_VALUE_"; Tok "LAST_VALUE_"]; Tok "OPEN_PAR"; Rule "expr" 0;
    Tok "CLOSE_PAR"; Tok "OVER_"; Tok "OPEN_PAR"; Opt (Rule "partition_by" 0);
    Rule "order_by_expr_asc_desc" 0; Opt (Rule "frame_clause" 0); Tok "CLOSE_PAR"];
    seq [alt [Tok "CUME_DIST_"; Tok "PERCENT_RANK_"]; Tok "OPEN_PAR"; Tok "CLOSE_PAR"; Tok "OVER_";
    Tok "OPEN_PAR"; Opt (Rule "partition_by" 0); Opt (Rule "order_by_expr" 0); Tok "CLOSE_PAR"];
    seq [alt [Tok "DENSE_RANK_"; Tok "RANK_"; Tok "ROW_NUMBER_"]; Tok "OPEN_PAR"; Tok "CLOSE_PAR";
    Tok "OVER_"; Tok "OPEN_PAR"; Opt (Rule "partition_by" 0); Rule "order_by_expr_asc_desc" 0;
    Tok "CLOSE_PAR"]; seq [alt [Tok "LAG_"; Tok "LEAD_"]; Tok "OPEN_PAR"; Rule "expr" 0;
    Opt (Rule "offset" 0); Opt (Rule "default_value" 0); Tok "CLOSE_PAR"; Tok "OVER_"; Tok "OPEN_PAR";
    Opt (Rule "partition_by" 0); Rule "order_by_expr_asc_desc" 0; Tok "CLOSE_PAR"];
    seq [Tok "NTH_VALUE_"; Tok "OPEN_PAR"; Rule "expr" 0; Tok "COMMA"; Rule "signed_number" 0;
    Tok "CLOSE_PAR"; Tok "OVER_"; Tok "OPEN_PAR"; Opt (Rule "partition_by" 0);
    Rule "order_by_expr_asc_desc" 0; Opt (Rule "frame_clause" 0); Tok "CLOSE_PAR"]; seq [Tok "NTILE_";
    Tok "OPEN_PAR"; Rule "expr" 0; Tok "CLOSE_PAR"; Tok "OVER_"; Tok "OPEN_PAR";
    Opt (Rule "partition_by" 0); Rule "order_by_expr_asc_desc" 0; Tok "CLOSE_PAR"]].

(** SQLiteParser.g4:806-808 *)
Definition g_offset : gram :=
  seq [Tok "COMMA"; Rule "signed_number" 0].

(** SQLiteParser.g4:810-812 *)
Definition g_default_value : gram :=
  seq [Tok "COMMA"; Rule "signed_number" 0].

(** SQLiteParser.g4:814-816 *)
Definition g_partition_by : gram :=
  seq [Tok "PARTITION_"; Tok "BY_"; Plus (Rule "expr" 0)].

(** SQLiteParser.g4:818-820 *)
Definition g_order_by_expr : gram :=
  seq [Tok "ORDER_"; Tok "BY_"; Plus (Rule "expr" 0)].

(** SQLiteParser.g4:822-824 *)
Definition g_order_by_expr_asc_desc : gram :=
  seq [Tok "ORDER_"; Tok "BY_"; Rule "expr_asc_desc" 0].

(** SQLiteParser.g4:826-828 *)
Definition g_expr_asc_desc : gram :=
  seq [Rule "expr" 0; Opt (Rule "asc_desc" 0); Star (seq [Tok "COMMA"; Rule "expr" 0;
    Opt (Rule "asc_desc" 0)])].

(** SQLiteParser.g4:831-833 *)
Definition g_initial_select : gram :=
  Rule "select_stmt" 0.

(** SQLiteParser.g4:835-837 *)
Definition g_recursive_select : gram :=
  Rule "select_stmt" 0.

(** SQLiteParser.g4:839-844 *)
Definition g_unary_operator : gram :=
  alt [Tok "MINUS"; Tok "PLUS"; Tok "TILDE"; Tok "NOT_"].

(** SQLiteParser.g4:846-848 *)
Definition g_error_message : gram :=
  Tok "STRING_LITERAL".

(** SQLiteParser.g4:850-853 *)
Definition g_module_argument : gram :=
  alt [Rule "expr" 0; Rule "column_def" 0].

(** SQLiteParser.g4:855-858 *)
Definition g_column_alias : gram :=
  alt [Tok "IDENTIFIER"; Tok "STRING_LITERAL"].

(** SQLiteParser.g4:860-1017 *)
Definition g_keyword : gram :=
  alt [Tok "ABORT_"; Tok "ACTION_"; Tok "ADD_"; Tok "AFTER_"; Tok "ALL_"; Tok "ALTER_"; Tok "ANALYZE_";
    Tok "AND_"; Tok "AS_"; Tok "ASC_"; Tok "ATTACH_"; Tok "AUTOINCREMENT_"; Tok "BEFORE_";
    Tok "BEGIN_"; Tok "BETWEEN_"; Tok "BY_"; Tok "CASCADE_"; Tok "CASE_"; Tok "CAST_"; Tok "CHECK_";
    Tok "COLLATE_"; Tok "COLUMN_"; Tok "COMMIT_"; Tok "CONFLICT_"; Tok "CONSTRAINT_"; Tok "CREATE_";
    Tok "CROSS_"; Tok "CURRENT_DATE_"; Tok "CURRENT_TIME_"; Tok "CURRENT_TIMESTAMP_"; Tok "DATABASE_";
    Tok "DEFAULT_"; Tok "DEFERRABLE_"; Tok "DEFERRED_"; Tok "DELETE_"; Tok "DESC_"; Tok "DETACH_";
    Tok "DISTINCT_"; Tok "DROP_"; Tok "EACH_"; Tok "ELSE_"; Tok "END_"; Tok "ESCAPE_"; Tok "EXCEPT_";
    Tok "EXCLUSIVE_"; Tok "EXISTS_"; Tok "EXPLAIN_"; Tok "FAIL_"; Tok "FOR_"; Tok "FOREIGN_";
    Tok "FROM_"; Tok "FULL_"; Tok "GLOB_"; Tok "GROUP_"; Tok "HAVING_"; Tok "IF_"; Tok "IGNORE_";
    Tok "IMMEDIATE_"; Tok "IN_"; Tok "INDEX_"; Tok "INDEXED_"; Tok "INITIALLY_"; Tok "INNER_";
    Tok "INSERT_"; Tok "INSTEAD_"; Tok "INTERSECT_"; Tok "INTO_"; Tok "IS_"; Tok "ISNULL_";
    Tok "JOIN_"; Tok "KEY_"; Tok "LEFT_"; Tok "LIKE_"; Tok "LIMIT_"; Tok "MATCH_"; Tok "NATURAL_";
    Tok "NO_"; Tok "NOT_"; Tok "NOTNULL_"; Tok "NULL_"; Tok "OF_"; Tok "OFFSET_"; Tok "ON_"; Tok "OR_";
    Tok "ORDER_"; Tok "OUTER_"; Tok "PLAN_"; Tok "PRAGMA_"; Tok "PRIMARY_"; Tok "QUERY_"; Tok "RAISE_";
    Tok "RECURSIVE_"; Tok "REFERENCES_"; Tok "REGEXP_"; Tok "REINDEX_"; Tok "RELEASE_"; Tok "RENAME_";
    Tok "REPLACE_"; Tok "RESTRICT_"; Tok "RIGHT_"; Tok "ROLLBACK_"; Tok "ROW_"; Tok "ROWS_";
    Tok "SAVEPOINT_"; Tok "SELECT_"; Tok "SET_"; Tok "TABLE_"; Tok "TEXT_"; Tok "TEMP_";
    Tok "TEMPORARY_"; Tok "THEN_"; Tok "TO_"; Tok "TRANSACTION_"; Tok "TRIGGER_"; Tok "UNION_";
    Tok "UNIQUE_"; Tok "UPDATE_"; Tok "USING_"; Tok "VACUUM_"; Tok "VALUES_"; Tok "VIEW_";
    Tok "VIRTUAL_"; Tok "WHEN_"; Tok "WHERE_"; Tok "WITH_"; Tok "WITHOUT_"; Tok "FIRST_VALUE_";
    Tok "OVER_"; Tok "PARTITION_"; Tok "RANGE_"; Tok "PRECEDING_"; Tok "UNBOUNDED_"; Tok "CURRENT_";
    Tok "FOLLOWING_"; Tok "CUME_DIST_"; Tok "DENSE_RANK_"; Tok "LAG_"; Tok "LAST_VALUE_"; Tok "LEAD_";
    Tok "NTH_VALUE_"; Tok "NTILE_"; Tok "PERCENT_RANK_"; Tok "RANK_"; Tok "ROW_NUMBER_";
    Tok "GENERATED_"; Tok "ALWAYS_"; Tok "STORED_"; Tok "TRUE_"; Tok "FALSE_"; Tok "WINDOW_";
    Tok "NULLS_"; Tok "FIRST_"; Tok "LAST_"; Tok "FILTER_"; Tok "GROUPS_"; Tok "EXCLUDE_"].

(** SQLiteParser.g4:1021-1023 *)
Definition g_name : gram :=
  Rule "any_name" 0.

(** SQLiteParser.g4:1025-1027 *)
Definition g_database_name : gram :=
  Rule "any_name" 0.

(** SQLiteParser.g4:1029-1031 *)
Definition g_function_name : gram :=
  Rule "any_name" 0.

(** SQLiteParser.g4:1033-1035 *)
Definition g_schema_name : gram :=
  Rule "any_name" 0.

(** SQLiteParser.g4:1037-1039 *)
Definition g_table_name : gram :=
  Rule "any_name" 0.

(** SQLiteParser.g4:1041-1043 *)
Definition g_table_or_index_name : gram :=
  Rule "any_name" 0.

(** SQLiteParser.g4:1045-1047 *)
Definition g_column_name : gram :=
  Rule "any_name" 0.

(** SQLiteParser.g4:1049-1051 *)
Definition g_collation_name : gram :=
  Rule "any_name" 0.

(** SQLiteParser.g4:1053-1055 *)
Definition g_foreign_table : gram :=
  Rule "any_name" 0.

(** SQLiteParser.g4:1057-1059 *)
Definition g_index_name : gram :=
  Rule "any_name" 0.

(** SQLiteParser.g4:1061-1063 *)
Definition g_trigger_name : gram :=
  Rule "any_name" 0.

(** SQLiteParser.g4:1065-1067 *)
Definition g_view_name : gram :=
  Rule "any_name" 0.

(** SQLiteParser.g4:1069-1071 *)
Definition g_module_name : gram :=
  Rule "any_name" 0.

(** SQLiteParser.g4:1073-1075 *)
Definition g_pragma_name : gram :=
  Rule "any_name" 0.

(** SQLiteParser.g4:1077-1079 *)
Definition g_savepoint_name : gram :=
  Rule "any_name" 0.

(** SQLiteParser.g4:1081-1083 *)
Definition g_table_alias : gram :=
  Rule "any_name" 0.

(** SQLiteParser.g4:1085-1087 *)
Definition g_transaction_name : gram :=
  Rule "any_name" 0.

(** SQLiteParser.g4:1089-1091 *)
Definition g_window_name : gram :=
  Rule "any_name" 0.

(** SQLiteParser.g4:1093-1095 *)
Definition g_alias : gram :=
  Rule "any_name" 0.

(** SQLiteParser.g4:1097-1099 *)
Definition g_filename : gram :=
  Rule "any_name" 0.

(** SQLiteParser.g4:1101-1103 *)
Definition g_base_window_name : gram :=
  Rule "any_name" 0.

(** SQLiteParser.g4:1105-1107 *)
Definition g_simple_func : gram :=
  Rule "any_name" 0.

(** SQLiteParser.g4:1109-1111 *)
Definition g_aggregate_func : gram :=
  Rule "any_name" 0.

(** SQLiteParser.g4:1113-1115 *)
Definition g_table_function_name : gram :=
  Rule "any_name" 0.

(** SQLiteParser.g4:1117-1122 *)
Definition g_any_name : gram :=
  alt [Tok "IDENTIFIER"; Rule "keyword" 0; Tok "STRING_LITERAL"; seq [Tok "OPEN_PAR";
    Rule "any_name" 0; Tok "CLOSE_PAR"]].

(** The rules by name. *)
Definition rules (p : nat) : list (string * gram) :=
  [("parse", g_parse);
   ("sql_stmt_list", g_sql_stmt_list);
   ("sql_stmt", g_sql_stmt);
   ("alter_database_stmt", g_alter_database_stmt);
   ("rename_database_to", g_rename_database_to);
   ("alter_table_stmt", g_alter_table_stmt);
   ("rename_table_to", g_rename_table_to);
   ("rename_table_colum", g_rename_table_colum);
   ("add_table_column", g_add_table_column);
   ("add_table_index", g_add_table_index);
   ("drop_table_column", g_drop_table_column);
   ("analyze_stmt", g_analyze_stmt);
   ("attach_stmt", g_attach_stmt);
   ("begin_stmt", g_begin_stmt);
   ("commit_stmt", g_commit_stmt);
   ("rollback_stmt", g_rollback_stmt);
   ("savepoint_stmt", g_savepoint_stmt);
   ("release_stmt", g_release_stmt);
   ("create_index_stmt", g_create_index_stmt);
   ("indexed_column", g_indexed_column);
   ("create_database_stmt", g_create_database_stmt);
   ("if_not_exists", g_if_not_exists);
   ("create_table_stmt", g_create_table_stmt);
   ("table_options", g_table_options);
   ("mysql_table_options", g_mysql_table_options);
   ("column_def", g_column_def);
   ("with_param", g_with_param);
   ("type_name", g_type_name);
   ("column_constraint", g_column_constraint);
   ("primary_key_constraint", g_primary_key_constraint);
   ("index_constraint", g_index_constraint);
   ("signed_number", g_signed_number);
   ("table_constraint", g_table_constraint);
   ("primary_key_def", g_primary_key_def);
   ("unique_key_def", g_unique_key_def);
   ("foreign_key_clause", g_foreign_key_clause);
   ("conflict_clause", g_conflict_clause);
   ("create_trigger_stmt", g_create_trigger_stmt);
   ("create_view_stmt", g_create_view_stmt);
   ("create_virtual_table_stmt", g_create_virtual_table_stmt);
   ("with_clause", g_with_clause);
   ("cte_table_name", g_cte_table_name);
   ("recursive_cte", g_recursive_cte);
   ("common_table_expression", g_common_table_expression);
   ("delete_stmt", g_delete_stmt);
   ("delete_stmt_limited", g_delete_stmt_limited);
   ("detach_stmt", g_detach_stmt);
   ("drop_stmt", g_drop_stmt);
   ("drop_database_stmt", g_drop_database_stmt);
   ("drop_index_stmt", g_drop_index_stmt);
   ("drop_table_stmt", g_drop_table_stmt);
   ("drop_trigger_stmt", g_drop_trigger_stmt);
   ("drop_view_stmt", g_drop_view_stmt);
   ("if_exists", g_if_exists);
   ("use_stmt", g_use_stmt);
   ("copy_stmt", g_copy_stmt);
   ("copy_column_list", g_copy_column_list);
   ("copy_format", g_copy_format);
   ("source_name", g_source_name);
   ("truncate_stmt", g_truncate_stmt);
   ("expr", g_expr p);
   ("function", g_function);
   ("comparison_expr", g_comparison_expr);
   ("and_expr", g_and_expr);
   ("or_expr", g_or_expr);
   ("arithmetic_expr", g_arithmetic_expr);
   ("raise_function", g_raise_function);
   ("literal_value", g_literal_value);
   ("bind_param", g_bind_param);
   ("system_var", g_system_var);
   ("user_var", g_user_var);
   ("string_literal", g_string_literal);
   ("value_row", g_value_row);
   ("values_clause", g_values_clause);
   ("insert_stmt", g_insert_stmt);
   ("returning_clause", g_returning_clause);
   ("upsert_clause", g_upsert_clause);
   ("pragma_stmt", g_pragma_stmt);
   ("pragma_value", g_pragma_value);
   ("reindex_stmt", g_reindex_stmt);
   ("select_stmt", g_select_stmt);
   ("join_clause", g_join_clause);
   ("select_core", g_select_core);
   ("factored_select_stmt", g_factored_select_stmt);
   ("simple_select_stmt", g_simple_select_stmt);
   ("compound_select_stmt", g_compound_select_stmt);
   ("from", g_from);
   ("from_table", g_from_table);
   ("from_function", g_from_function);
   ("from_table_or_subquery", g_from_table_or_subquery);
   ("from_select", g_from_select);
   ("table_or_subquery", g_table_or_subquery);
   ("result_column", g_result_column);
   ("join_operator", g_join_operator);
   ("join_constraint", g_join_constraint);
   ("compound_operator", g_compound_operator);
   ("update_stmt", g_update_stmt);
   ("update_column_set", g_update_column_set);
   ("column_name_list", g_column_name_list);
   ("update_stmt_limited", g_update_stmt_limited);
   ("qualified_table_name", g_qualified_table_name);
   ("vacuum_stmt", g_vacuum_stmt);
   ("filter_clause", g_filter_clause);
   ("window_defn", g_window_defn);
   ("over_clause", g_over_clause);
   ("frame_spec", g_frame_spec);
   ("frame_clause", g_frame_clause);
   ("simple_function_invocation", g_simple_function_invocation);
   ("aggregate_function_invocation", g_aggregate_function_invocation);
   ("window_function_invocation", g_window_function_invocation);
   ("common_table_stmt", g_common_table_stmt);
   ("order_by_stmt", g_order_by_stmt);
   ("limit_stmt", g_limit_stmt);
   ("ordering_term", g_ordering_term);
   ("asc_desc", g_asc_desc);
   ("frame_left", g_frame_left);
   ("frame_right", g_frame_right);
   ("frame_single", g_frame_single);
   ("window_function", g_window_function);
   ("offset", g_offset);
   ("default_value", g_default_value);
   ("partition_by", g_partition_by);
   ("order_by_expr", g_order_by_expr);
   ("order_by_expr_asc_desc", g_order_by_expr_asc_desc);
   ("expr_asc_desc", g_expr_asc_desc);
   ("initial_select", g_initial_select);
   ("recursive_select", g_recursive_select);
   ("unary_operator", g_unary_operator);
   ("error_message", g_error_message);
   ("module_argument", g_module_argument);
   ("column_alias", g_column_alias);
   ("keyword", g_keyword);
   ("name", g_name);
   ("database_name", g_database_name);
   ("function_name", g_function_name);
   ("schema_name", g_schema_name);
   ("table_name", g_table_name);
   ("table_or_index_name", g_table_or_index_name);
   ("column_name", g_column_name);
   ("collation_name", g_collation_name);
   ("foreign_table", g_foreign_table);
   ("index_name", g_index_name);
   ("trigger_name", g_trigger_name);
   ("view_name", g_view_name);
   ("module_name", g_module_name);
   ("pragma_name", g_pragma_name);
   ("savepoint_name", g_savepoint_name);
   ("table_alias", g_table_alias);
   ("transaction_name", g_transaction_name);
   ("window_name", g_window_name);
   ("alias", g_alias);
   ("filename", g_filename);
   ("base_window_name", g_base_window_name);
   ("simple_func", g_simple_func);
   ("aggregate_func", g_aggregate_func);
   ("table_function_name", g_table_function_name);
   ("any_name", g_any_name)].
Definition rule (name : string) (p : nat) : gram :=
  match mget String.eqb name (rules p) with Some g => g | None => Fail end.
