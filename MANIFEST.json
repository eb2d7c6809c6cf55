{
 "claims": [
  {
   "property": "C01",
   "status": "proved",
   "theorems": [
    "C01_stack_is_lifo"
   ],
   "note": ""
  },
  {
   "property": "C02",
   "status": "proved",
   "theorems": [
    "C02_add_conn"
   ],
   "note": ""
  },
  {
   "property": "C03",
   "status": "proved",
   "theorems": [
    "C03_manager_is_a_registry",
    "C03_indexes_agree",
    "C03_unique_ids_suffice",
    "C03_undisciplined_refuted"
   ],
   "note": ""
  },
  {
   "property": "C04",
   "status": "proved",
   "theorems": [
    "C04_concurrent_indexes_agree",
    "C04_id_reuse_race_refuted"
   ],
   "note": ""
  },
  {
   "property": "C05",
   "status": "proved",
   "theorems": [
    "C05_manager_close"
   ],
   "note": ""
  },
  {
   "property": "C06",
   "status": "proved",
   "theorems": [
    "C06_close_idempotent",
    "C06_close_always_failing"
   ],
   "note": ""
  },
  {
   "property": "C07",
   "status": "proved",
   "theorems": [
    "C07_session_attributes"
   ],
   "note": ""
  },
  {
   "property": "C08",
   "status": "proved",
   "theorems": [
    "C08_limit_offset_window",
    "C08_limit_wrap_refuted",
    "C08_max_offset_loops_refuted"
   ],
   "note": ""
  },
  {
   "property": "C09",
   "status": "partial",
   "theorems": [
    "C09_exhausted_stays_exhausted_partial",
    "C09_row_past_limit_refuted"
   ],
   "note": "Next stays false and Row reports ErrNoRows once the rows have run out; after the LIMIT was reached Row still hands out the row beyond it (C09_row_past_limit_refuted)."
  },
  {
   "property": "C10",
   "status": "proved",
   "theorems": [
    "C10_row_from_values",
    "C10_row_from_object",
    "C10_row_from_values_without_schema",
    "C10_row_from_object_without_schema"
   ],
   "note": ""
  },
  {
   "property": "C11",
   "status": "proved",
   "theorems": [
    "C11_aggregation_cursor"
   ],
   "note": ""
  },
  {
   "property": "C12",
   "status": "proved",
   "theorems": [
    "C12_count_rows"
   ],
   "note": ""
  },
  {
   "property": "C13",
   "status": "proved",
   "theorems": [
    "C13_sum_avg",
    "C13_integer_sum"
   ],
   "note": ""
  },
  {
   "property": "C14",
   "status": "proved",
   "theorems": [
    "C14_max_extreme",
    "C14_min_extreme",
    "C14_min_of_infinities_refuted",
    "C14_null_is_zero"
   ],
   "note": ""
  },
  {
   "property": "C15",
   "status": "proved",
   "theorems": [
    "C15_row_order",
    "C15_sum_order_refuted"
   ],
   "note": ""
  },
  {
   "property": "C16",
   "status": "proved",
   "theorems": [
    "C16_group_by",
    "C16_comma_collision_refuted",
    "C16_reused_buffer_refuted"
   ],
   "note": ""
  },
  {
   "property": "C17",
   "status": "proved",
   "theorems": [
    "C17_reset_forgets",
    "C17_reset_configured",
    "C17_new_configured"
   ],
   "note": ""
  },
  {
   "property": "C18",
   "status": "partial",
   "theorems": [
    "C18_rejected_row_partial",
    "C18_partly_added_row_refuted",
    "C18_phantom_group_refuted"
   ],
   "note": "Proved for one argument and, with GROUP BY, rows of an existing group. Rejected rows of several arguments are partly added and a rejected row of a new group leaves a phantom group: both refuted."
  },
  {
   "property": "C19",
   "status": "partial",
   "theorems": [
    "C19_ascending",
    "C19_descending_partial",
    "C19_same_rows",
    "C19_descending_comparison_refuted"
   ],
   "note": "Ascending order and independence of the rows from the order are proved in full. Descending order is proved for sorts that never compare an element with itself and groups that compare as different; the comparison the code passes for DESC is not irreflexive (refuted), so the documented contract of sort.Slice does not apply."
  },
  {
   "property": "C20",
   "status": "partial",
   "theorems": [
    "C20_map_is_row_partial",
    "C20_grouped_map_refuted"
   ],
   "note": "Proved for ungrouped aggregators; grouping aggregators reject every map (C20_grouped_map_refuted)."
  },
  {
   "property": "C21",
   "status": "partial",
   "theorems": [
    "C21_set_partial",
    "C21_iteration_order_refuted",
    "C21_ungrouped_set_refuted",
    "C21_two_group_columns_refuted",
    "C21_more_rows_partial"
   ],
   "note": "Proved for one group column, at least one argument per member and equal map iteration order; refuted for different iteration orders, for ungrouped sets and for two group columns."
  },
  {
   "property": "C22",
   "status": "partial",
   "theorems": [
    "C22_own_executor_partial",
    "C22_own_aggregator",
    "C22_resolved_name_partial",
    "C22_resolved_aggregator_partial",
    "C22_log10_refuted",
    "C22_log10_unreachable_refuted",
    "C22_longer_name_refuted",
    "C22_registered_partial",
    "C22_closing_parenthesis_refuted",
    "C22_registered_resolves"
   ],
   "note": "Proved: every name but LOG10, in any case, resolves to its own function, and a name resolves only to a function whose name it starts with. Refuted: LOG10 resolves to LOG, longer names such as ABSENT are accepted, IsRegisteredFunction accepts anything that ends in a parenthesis."
  },
  {
   "property": "C23",
   "status": "partial",
   "theorems": [
    "C23_wrong_count_partial",
    "C23_time_any_count_refuted",
    "C23_panics_partial",
    "C23_modulo_panics_refuted"
   ],
   "note": "Proved for all functions but NOW and CURRENT_TIMESTAMP, which accept any number of arguments (refuted); the only panic is % with a divisor that is 0 as an integer (refuted with witnesses, and proved to be the only one)."
  },
  {
   "property": "C24",
   "status": "proved",
   "theorems": [
    "C24_map_arguments",
    "C24_one_argument",
    "C24_function_of_list",
    "C24_function_of_map_refuted"
   ],
   "note": ""
  },
  {
   "property": "C25",
   "status": "proved",
   "theorems": [
    "C25_column_lookup"
   ],
   "note": ""
  },
  {
   "property": "C26",
   "status": "partial",
   "theorems": [
    "C26_always_half_done_refuted",
    "C26_add_column_partial",
    "C26_add_index_partial",
    "C26_failed_change_partial",
    "C26_drop_column_refuted",
    "C26_drop_index_refuted",
    "C26_rename_refuted",
    "C26_half_done_refuted"
   ],
   "note": "ADD COLUMN / ADD INDEX proved in full, and a failing single change leaves the schema alone. DROP is refuted for every schema: it never removes the named element but the first other one; renames are never done, and a combined statement that fails is half done (refuted)."
  },
  {
   "property": "C27",
   "status": "proved",
   "theorems": [
    "C27_data_type_names",
    "C27_data_type_prints",
    "C27_types_with_a_name"
   ],
   "note": ""
  },
  {
   "property": "C28",
   "status": "proved",
   "theorems": [
    "C28_data_definition",
    "C28_data_definition_without_length",
    "C28_two_words_refuted",
    "C28_unbalanced_refuted"
   ],
   "note": ""
  },
  {
   "property": "C29",
   "status": "partial",
   "theorems": [
    "C29_set_value_partial",
    "C29_no_literal_refuted"
   ],
   "note": "Proved for columns that hold a literal and any conversion function; a column without literal panics (refuted)."
  },
  {
   "property": "C30",
   "status": "partial",
   "theorems": [
    "C30_copy_reports_partial",
    "C30_shared_value_refuted",
    "C30_not_independent_refuted",
    "C30_function_dropped_refuted"
   ],
   "note": "Proved: a copy of a column without function reports the same name, definition and value. Independence is refuted: the copy shares its literal with the original (for every column with a literal and every value), and loses the function."
  },
  {
   "property": "C31",
   "status": "proved",
   "theorems": [
    "C31_full_name",
    "C31_distinct",
    "C31_comparisons"
   ],
   "note": ""
  },
  {
   "property": "C32",
   "status": "partial",
   "theorems": [
    "C32_executors_partial",
    "C32_has_executor_refuted",
    "C32_hidden_executor_refuted",
    "C32_executors_for_type_partial",
    "C32_aggregate_hides_refuted",
    "C32_lookup_executor_partial",
    "C32_has_function_refuted",
    "C32_has_function_wrong_refuted",
    "C32_has_function_with_type_partial",
    "C32_functions_partial",
    "C32_lookup_function_partial"
   ],
   "note": "HasFunctionWithType, Functions, LookupFunction, Executors and LookupExecutor proved in full; HasFunction is refuted: it is true iff some selector is NOT a function. HasExecutor is refuted: one function without an executor hides the others (C32_has_executor_refuted says when it is true, C32_hidden_executor_refuted gives the cases). ExecutorsForType fails as soon as the list has an aggregate (C32_aggregate_hides_refuted)."
  },
  {
   "property": "C33",
   "status": "partial",
   "theorems": [
    "C33_unescape_partial",
    "C33_unescape_name_partial",
    "C33_quotes_lost_refuted"
   ],
   "note": "Exact characterisation: the round trip holds iff the text neither starts nor ends with a cut byte; refuted in general."
  },
  {
   "property": "C34",
   "status": "partial",
   "theorems": [
    "C34_text_partial",
    "C34_meaning_partial",
    "C34_same_meaning_partial",
    "C34_or_below_and_refuted"
   ],
   "note": "Exact characterisation for conditions over column-literal comparisons: the text determines the comparisons and connectives in order. Meaning is determined when no OR is below an AND; otherwise refuted (no parentheses are printed)."
  },
  {
   "property": "C35",
   "status": "partial",
   "theorems": [
    "C35_clause_order_partial",
    "C35_group_by_last_refuted"
   ],
   "note": "Proved without GROUP BY, or with GROUP BY and neither ORDER BY nor LIMIT/OFFSET; refuted for GROUP BY with ORDER BY (GROUP BY is printed last)."
  },
  {
   "property": "C36",
   "status": "partial",
   "theorems": [
    "C36_question_partial",
    "C36_dollar_partial",
    "C36_question_many_partial",
    "C36_dollar_many_partial",
    "C36_question_statement_partial",
    "C36_dollar_statement_partial",
    "C36_insert_question_partial",
    "C36_insert_dollar_partial",
    "C36_time",
    "C36_time_distinct",
    "C36_capture_refuted",
    "C36_quoted_refuted",
    "C36_numbers_refuted",
    "C36_few_refuted"
   ],
   "note": "Proved for texts and values in which no ? (or $) occurs outside the gaps and whose first piece is not empty; $n each once and in order, or at most nine of them in any order. Refuted without these conditions; fewer parameters than gaps are no error."
  },
  {
   "property": "C37",
   "status": "partial",
   "theorems": [
    "C37_token_partial",
    "C37_within_partial",
    "C37_trimmed_partial",
    "C37_value_partial",
    "C37_injection_refuted",
    "C37_comment_refuted",
    "C37_quotes_refuted"
   ],
   "note": "Exact characterisation: the text of a bound string is one string token iff its quotes come in pairs; then the value is the string without the quotes at its ends. Refuted for other strings with quotes (statements can be added or conditions removed)."
  },
  {
   "property": "C38",
   "status": "partial",
   "theorems": [
    "C38_roundtrip_partial",
    "C38_read",
    "C38_read_error",
    "C38_table_names_partial",
    "C38_two_tables_refuted",
    "C38_no_database_refuted",
    "C38_nothing_refuted",
    "C38_quote_refuted",
    "C38_three_names_refuted",
    "C38_two_names_refuted"
   ],
   "note": "Proved for databases with a name and no table or one, names without quotes; exact characterisation of which SELECTs can be read and what is read from them. Refuted for all names: two or more tables and tables without database give a syntax error, neither gives a SELECT on another table, a quote in a name changes the SELECT; three table names give a syntax error and the SELECT for two cannot be read back."
  },
  {
   "property": "C39",
   "status": "partial",
   "theorems": [
    "C39_rows_partial",
    "C39_table_refuted",
    "C39_undefined_refuted",
    "C39_lookup"
   ],
   "note": "Proved: one row per column of each schema, in order, with the column's name and type (for types with a name), and lookup finds the first column of a name. Refuted for every schema: the row's table is always COLUMNS and its schema information_schema; a column without definition panics."
  },
  {
   "property": "C40",
   "status": "proved",
   "theorems": [
    "C40_codes_known",
    "C40_codes_named",
    "C40_codes_differ",
    "C40_classes",
    "C40_classes_differ"
   ],
   "note": ""
  },
  {
   "property": "C41",
   "status": "proved",
   "theorems": [
    "C41_lexing",
    "C41_parse_tree"
   ],
   "note": ""
  },
  {
   "property": "C42",
   "status": "partial",
   "theorems": [
    "C42_reuse_partial",
    "C42_sticky_error_refuted"
   ],
   "note": "Proved as long as no earlier text was a syntax error; after one, every later text is an error (refuted for every text)."
  },
  {
   "property": "C43",
   "status": "proved",
   "theorems": [
    "C43_every_drop_column_refuted",
    "C43_every_group_order_refuted",
    "C43_read_back",
    "C43_distinct",
    "C43_quote_refuted",
    "C43_group_order_refuted",
    "C43_three_refuted",
    "C43_binary_refuted",
    "C43_table_index_refuted",
    "C43_schema_refuted",
    "C43_drop_column_refuted",
    "C43_delete_conditions",
    "C43_every_schema_refuted"
   ],
   "note": ""
  },
  {
   "property": "C44",
   "status": "proved",
   "theorems": [
    "C44_leading",
    "C44_batch"
   ],
   "note": ""
  },
  {
   "property": "C45",
   "status": "proved",
   "theorems": [
    "C45_insert",
    "C45_pairs",
    "C45_surplus_refuted"
   ],
   "note": ""
  },
  {
   "property": "C46",
   "status": "proved",
   "theorems": [
    "C46_projection"
   ],
   "note": ""
  },
  {
   "property": "C47",
   "status": "proved",
   "theorems": [
    "C47_map_of_row",
    "C47_map_of_result_set"
   ],
   "note": ""
  },
  {
   "property": "C48",
   "status": "proved",
   "theorems": [
    "C48_floor_ceil_round",
    "C48_exist"
   ],
   "note": ""
  },
  {
   "property": "C49",
   "status": "proved",
   "theorems": [
    "C49_domains",
    "C49_sqrt_zero_refuted"
   ],
   "note": ""
  },
  {
   "property": "C50",
   "status": "partial",
   "theorems": [
    "C50_type_partial",
    "C50_lower_case_refuted"
   ],
   "note": "Proved for upper-case names; a lower-case name yields an unknown type (refuted)."
  },
  {
   "property": "C51",
   "status": "proved",
   "theorems": [
    "C51_integer_arithmetic"
   ],
   "note": ""
  },
  {
   "property": "C52",
   "status": "proved",
   "theorems": [
    "C52_string_functions",
    "C52_abs"
   ],
   "note": ""
  },
  {
   "property": "C53",
   "status": "partial",
   "theorems": [
    "C53_column_at_partial",
    "C53_negative_refuted"
   ],
   "note": "Proved for n >= 0; every negative n panics (refuted)."
  },
  {
   "property": "C54",
   "status": "proved",
   "theorems": [
    "C54_index_lookup"
   ],
   "note": ""
  },
  {
   "property": "C55",
   "status": "proved",
   "theorems": [
    "C55_has_table",
    "C55_has_schema_table"
   ],
   "note": ""
  },
  {
   "property": "C56",
   "status": "proved",
   "theorems": [
    "C56_set_schema"
   ],
   "note": ""
  },
  {
   "property": "C57",
   "status": "partial",
   "theorems": [
    "C57_create_index",
    "C57_drop_index_partial",
    "C57_others",
    "C57_drop_index_refuted"
   ],
   "note": "CREATE INDEX and the conversions proved in full; applying a converted DROP INDEX never removes the named index (refuted)."
  },
  {
   "property": "C58",
   "status": "partial",
   "theorems": [
    "C58_flags",
    "C58_printed_partial",
    "C58_combined_refuted"
   ],
   "note": "The flags are proved independent and single constraints print by name; any combination prints as the empty text (refuted)."
  },
  {
   "property": "C59",
   "status": "proved",
   "theorems": [
    "C59_syntax_errors",
    "C59_errors"
   ],
   "note": ""
  },
  {
   "property": "C60",
   "status": "partial",
   "theorems": [
    "C60_panicking_refuted",
    "C60_panics_partial",
    "C60_calm_partial",
    "C60_never_panics_refuted"
   ],
   "note": "Exact characterisation: ParseString panics iff the parse tree has an INSERT without VALUES, an index or primary key on an expression, or an UPDATE of a column list; never on texts without INSERT, REPLACE, UPDATE and CREATE. The full claim is refuted for every statement of the forms in SpecNone.panicking (C60_panicking_refuted)."
  },
  {
   "property": "C61",
   "status": "partial",
   "theorems": [
    "C61_nothing_refuted",
    "C61_report_partial",
    "C61_condition_refuted",
    "C61_clause_refuted",
    "C61_statement_refuted"
   ],
   "note": "Exact characterisation: the statements are reported in order and as what they are, a condition is present iff it is a comparison or two joined by AND/OR. Refuted: other conditions and further clauses are dropped (witnesses here, all of their forms in C81, C85 and C88), and of whole statements nothing is reported, for every statement of the forms in SpecNone.unreported (C61_nothing_refuted)."
  },
  {
   "property": "C62",
   "status": "proved",
   "theorems": [
    "C62_between_parts",
    "C62_around",
    "C62_comment_refuted"
   ],
   "note": ""
  },
  {
   "property": "C63",
   "status": "partial",
   "theorems": [
    "C63_select",
    "C63_alter",
    "C63_delete_partial",
    "C63_update_partial",
    "C63_lost_refuted",
    "C63_alias_refuted",
    "C63_bare_alias_refuted",
    "C63_every_alias_refuted",
    "C63_changed_alias_refuted",
    "C63_hint_refuted"
   ],
   "note": "Proved for SELECT and ALTER TABLE with schema-qualified tables; DELETE and UPDATE keep the full name but report an empty schema name (C63_delete_partial, C63_update_partial). Refuted: INSERT, DROP TABLE and CREATE TABLE lose the schema name, and an alias is glued to the table or column name, for all names (C63_every_alias_refuted, C63_changed_alias_refuted), as is INDEXED BY (C63_hint_refuted)."
  },
  {
   "property": "C64",
   "status": "partial",
   "theorems": [
    "C64_one_aggregate_partial",
    "C64_no_aggregate",
    "C64_group_by_refuted",
    "C64_second_aggregate_refuted",
    "C64_lower_case_refuted",
    "C64_unknown_column_refuted",
    "C64_scalar_refuted",
    "C64_stale_group_refuted"
   ],
   "note": "Proved for SELECT lists with one aggregate (any number of plain columns, which are NULL) without GROUP BY, and for lists without aggregate. Refuted: GROUP BY over a source with rows is always an error, all aggregates but the first are NULL, names in lower case are not aggregated, an unknown column removes all columns, a scalar function beside an aggregate is an error, a GROUP BY of an earlier use sticks."
  },
  {
   "property": "C65",
   "status": "partial",
   "theorems": [
    "C65_schema_of_selectors_partial",
    "C65_string_function_refuted",
    "C65_hidden_error_refuted",
    "C65_schema_of_object"
   ],
   "note": "Proved in full for numeric and aggregate functions, plain selectors and maps; string and time functions have no result type and are refused (refuted), and NewSchema hides every error (refuted)."
  },
  {
   "property": "C66",
   "status": "proved",
   "theorems": [
    "C66_select_aggregators"
   ],
   "note": ""
  },
  {
   "property": "C67",
   "status": "proved",
   "theorems": [
    "C67_options",
    "C67_read_back",
    "C67_map_rows",
    "C67_no_schema_refuted",
    "C67_hidden_error_refuted"
   ],
   "note": ""
  },
  {
   "property": "C68",
   "status": "proved",
   "theorems": [
    "C68_scan",
    "C68_scan_at_by"
   ],
   "note": ""
  },
  {
   "property": "C69",
   "status": "proved",
   "theorems": [
    "C69_verdict",
    "C69_tree",
    "C69_keywords",
    "C69_key_refuted"
   ],
   "note": ""
  },
  {
   "property": "C70",
   "status": "partial",
   "theorems": [
    "C70_is_partial",
    "C70_is2",
    "C70_is_refuted",
    "C70_exist_refuted",
    "C70_packages_refuted",
    "C70_names",
    "C70_names2",
    "C70_tell_apart",
    "C70_says_partial",
    "C70_passed_on"
   ],
   "note": "Proved for all functions that wrap a variable (29 of 33). Refuted: errors.NewErrNotExist, errors.NewErrExist and errors.NewErrNotSupported make errors that errors.Is finds to be no variable at all, the first two have the same text, and variables of the same name and text in different packages are different errors. errors.NewErrNoTable has no variable."
  },
  {
   "property": "C71",
   "status": "partial",
   "theorems": [
    "C71_options",
    "C71_answers",
    "C71_is_function_refuted",
    "C71_definitions_partial",
    "C71_constraint_refuted"
   ],
   "note": "Proved: options, function, arguments, asterisk; the definitions of columns without constraint (names that are plain words, any type with a name but BINARY and DOUBLE PRECISION) are read back. Refuted: IsFunction answers true for every column; constraints are not read back, and a combination of constraints is not written at all."
  },
  {
   "property": "C72",
   "status": "proved",
   "theorems": [
    "C72_round",
    "C72_distinct"
   ],
   "note": ""
  },
  {
   "property": "C73",
   "status": "proved",
   "theorems": [
    "C73_tokens",
    "C73_stream"
   ],
   "note": ""
  },
  {
   "property": "C74",
   "status": "partial",
   "theorems": [
    "C74_drop_table_partial",
    "C74_create_table_partial",
    "C74_insert_partial",
    "C74_create_index_partial",
    "C74_drop_index_partial",
    "C74_rename_partial",
    "C74_kept_refuted",
    "C74_other_refuted",
    "C74_ends_refuted",
    "C74_twice_refuted",
    "C74_key_refuted",
    "C74_printed_refuted",
    "C74_schema_partial"
   ],
   "note": "Proved for back quotes in the statements that take them off. Refuted: SELECT, DELETE, UPDATE, TRUNCATE, VACUUM and USE and the columns of INSERT keep all quotes, for every text between them; double quotes and brackets are kept everywhere; parentheses and single quotes at the ends of the text are lost, doubled back quotes stay doubled, a column named like a key disappears, and names are printed without the quotes they need."
  },
  {
   "property": "C75",
   "status": "partial",
   "theorems": [
    "C75_strict",
    "C75_default",
    "C75_parse_only",
    "C75_supported",
    "C75_layout",
    "C75_file_partial",
    "C75_config",
    "C75_lost_refuted",
    "C75_string_refuted",
    "C75_comment_refuted",
    "C75_empty_refuted"
   ],
   "note": "Proved: what a pass of each check says, that supported statements pass, and which queries of a file are tested. Refuted: DELETE FROM t WHERE NOT a = 1 passes the default check although its condition is dropped; a semicolon in a string splits the query; the query after a # comment line is not tested, for every comment and query; a query that is only a comment makes the parse-only check panic. Reading files and walking directories are not modelled."
  },
  {
   "property": "C76",
   "status": "partial",
   "theorems": [
    "C76_executor",
    "C76_for_name",
    "C76_execute",
    "C76_cast_partial",
    "C76_function",
    "C76_type_refuted",
    "C76_given",
    "C76_by_name",
    "C76_kept",
    "C76_aggregator_refuted",
    "C76_own_aggregator",
    "C76_cast_refuted",
    "C76_asterisk",
    "C76_asked_again"
   ],
   "note": "Proved for all options, names and arguments. Refuted: the aggregator given with WithFunctionAggregator is never returned; a name not in upper case gives no type; CAST of NULL and of maps fails."
  },
  {
   "property": "C77",
   "status": "partial",
   "theorems": [
    "C77_options",
    "C77_answers_partial",
    "C77_lists",
    "C77_no_literal_refuted",
    "C77_asterisk_refuted",
    "C77_place_holder_refuted"
   ],
   "note": "Proved for all columns. Refuted: Value() and ValueType() panic without a literal; IsAsterisk is false for the column of SELECT * and true for a column that holds '*'; IsPlaceHolder is true for the string '?'."
  },
  {
   "property": "C78",
   "status": "partial",
   "theorems": [
    "C78_select",
    "C78_alter_partial",
    "C78_copy",
    "C78_drop_index_refuted",
    "C78_no_definition_refuted"
   ],
   "note": "Proved for all options. Refuted: the index of DROP INDEX is not in the text of ALTER TABLE; String() panics if the column to add has no definition."
  },
  {
   "property": "C79",
   "status": "partial",
   "theorems": [
    "C79_options_partial",
    "C79_fails",
    "C79_constraint_refuted",
    "C79_row"
   ],
   "note": "Proved for all options and errors. Refuted: the constraint given is never kept."
  },
  {
   "property": "C80",
   "status": "partial",
   "theorems": [
    "C80_no_directory",
    "C80_listed_partial",
    "C80_once",
    "C80_all",
    "C80_extension",
    "C80_gone_refuted",
    "C80_unreadable_refuted",
    "C80_link_refuted",
    "C80_extension_refuted",
    "C80_directory",
    "C80_no_directory_fails"
   ],
   "note": "Proved for all trees in which no entry goes while it is listed. Refuted: an entry that goes panics; unreadable directories are left out without an error; a link to a directory is listed as a file; an extension without its dot lists others."
  },
  {
   "property": "C81",
   "status": "partial",
   "theorems": [
    "C81_select_is_read",
    "C81_as_written_partial",
    "C81_distinct_refuted",
    "C81_having_refuted",
    "C81_group_by_refuted",
    "C81_order_by_refuted",
    "C81_comma_refuted",
    "C81_limit_zero_refuted"
   ],
   "note": "Exact characterisation for all queries of the form (C81_select_is_read); as written for queries without DISTINCT, HAVING, a second grouping column, an ordering without direction and LIMIT a, b. The rest is refuted: dropped, or the numbers swapped; LIMIT 0 is no limit."
  },
  {
   "property": "C82",
   "status": "partial",
   "theorems": [
    "C82_table_is_read",
    "C82_as_declared_partial",
    "C82_constraints_refuted",
    "C82_type_refuted",
    "C82_precision_refuted"
   ],
   "note": "Exact for name, IF NOT EXISTS, column names and primary keys of all declarations (C82_table_is_read); types and lengths as declared for known types with at most one length within an int. The rest is refuted: constraints other than primary keys are dropped, other types become the unknown type without an error."
  },
  {
   "property": "C83",
   "status": "partial",
   "theorems": [
    "C83_insert_is_read",
    "C83_insert_partial",
    "C83_insert_refuted",
    "C83_insert_no_columns_refuted",
    "C83_update_is_read",
    "C83_update_partial",
    "C83_update_refuted",
    "C83_update_same_refuted"
   ],
   "note": "Exact characterisation for all INSERT statements of the form (C83_insert_is_read); as written for INSERT of literals with named columns and for UPDATE of literals and arithmetic. The rest is refuted: INSERT skips other values and shifts those after them, loses everything without column names; UPDATE leaves the column without a value."
  },
  {
   "property": "C84",
   "status": "proved",
   "theorems": [
    "C84_options",
    "C84_checked",
    "C84_lookup",
    "C84_lookup_case_refuted",
    "C84_column_from",
    "C84_column_from_refuted"
   ],
   "note": ""
  },
  {
   "property": "C85",
   "status": "partial",
   "theorems": [
    "C85_is_read",
    "C85_partial",
    "C85_dropped_refuted",
    "C85_third_refuted"
   ],
   "note": "Exact characterisation for all tests of the forms named (C85_is_read); kept for one comparison or two joined by AND or OR. Refuted for all others: dropped without an error (C85_dropped_refuted); a third AND or OR is refused whatever follows (C85_third_refuted, for DELETE and SELECT *)."
  },
  {
   "property": "C86",
   "status": "proved",
   "theorems": [
    "C86_refused",
    "C86_join_refuted",
    "C86_sum_refuted"
   ],
   "note": "For all names, literals, signs, tests and texts after them. C86_join_refuted instantiates it for JOIN ... ON t.c = u.d, which a user would expect to be read. C86_sum_refuted (witnesses) shows the neighbouring form that is read with the condition dropped."
  },
  {
   "property": "C87",
   "status": "proved",
   "theorems": [
    "C87_first",
    "C87_second"
   ],
   "note": "For all words and texts after them; C87_each_word shows that no word of the list is there in vain."
  },
  {
   "property": "C88",
   "status": "partial",
   "theorems": [
    "C88_spelled_partial",
    "C88_lost_refuted",
    "C88_savepoint_refuted",
    "C88_explain_refuted"
   ],
   "note": "C88_spelled_partial proves the words that mean nothing, for all names and lists. C88_lost_refuted refutes the second half for every statement of the forms in SpecSpell.lost; C88_explain_refuted does for EXPLAIN before every text. Missing: forms outside these two lists."
  },
  {
   "property": "C89",
   "status": "partial",
   "theorems": [
    "C89_connection_partial",
    "C89_shared_refuted",
    "C89_overwritten_refuted",
    "C89_two_connections_refuted",
    "C89_callers_partial",
    "C89_span_refuted"
   ],
   "note": "Proved for all options, memories and calls as long as the caller leaves the slice it gave alone (C89_connection_partial). Refuted for every such slice: its later contents show through, SetSchemas writes behind it, two connections given it replace each other's schemas. Nothing else of the caller is written (C89_callers_partial). Span panics without a tracer context."
  },
  {
   "property": "C90",
   "status": "partial",
   "theorems": [
    "C90_close_partial",
    "C90_closed_for_good_partial",
    "C90_closed_once_refuted"
   ],
   "note": "At most one successful close of the underlying connection is false, as Close takes no lock: C90_closed_once_refuted gives, for every n, a schedule with n of them. The other parts are proved for every schedule and outcome, with sequentially consistent accesses to the flag."
  },
  {
   "property": "C91",
   "status": "partial",
   "theorems": [
    "C91_names_partial",
    "C91_text_partial",
    "C91_first_partial",
    "C91_second_partial",
    "C91_printed_partial",
    "C91_limited_refuted"
   ],
   "note": "UPDATE and DELETE are missing from the claim about first words: with a LIMIT they are accepted and nothing is reported for them (C91_limited_refuted, for all names and numbers). The rest is proved for all statements and texts; ALTER INDEX is a type no statement has."
  },
  {
   "property": "C92",
   "status": "partial",
   "theorems": [
    "C92_together_refuted",
    "C92_others_refuted",
    "C92_refused_partial"
   ],
   "note": "The claim is false: USE with any name and any text after it is read as USE and what the text is read as (C92_together_refuted), and so are pairs of other statements (C92_others_refuted). Proved: after USE and a name, a word that begins no statement is refused."
  },
  {
   "property": "C93",
   "status": "partial",
   "theorems": [
    "C93_listed_tables_partial",
    "C93_sourceless_refuted",
    "C93_narrowed_refuted"
   ],
   "note": "The claim is false; the refutations hold for every statement of the forms named. Proved for queries over a list of tables. JOIN ... ON, set operations without WHERE other than UNION ALL, and nested subqueries are not covered."
  },
  {
   "property": "C94",
   "status": "partial",
   "theorems": [
    "C94_unheeded_refuted",
    "C94_create_as_refuted",
    "C94_plain_partial"
   ],
   "note": "The claim is false; the refutations hold for all names and numbers. Proved for UPDATE and DELETE without further clauses."
  },
  {
   "property": "C95",
   "status": "partial",
   "theorems": [
    "C95_computed_refuted",
    "C95_overlooked_refuted",
    "C95_plain_partial"
   ],
   "note": "The claim is false; the refutations hold for all names. Proved for one column and for a call with one argument (lists and other arguments: C81)."
  },
  {
   "property": "C96",
   "status": "partial",
   "theorems": [
    "C96_add_column_partial",
    "C96_add_index_partial",
    "C96_drop_column_refuted",
    "C96_rename_refuted"
   ],
   "note": "Adding a column or an index proved for every schema and all supported definitions. DROP COLUMN and the renames are refuted for all names and schemas."
  },
  {
   "property": "C97",
   "status": "proved",
   "theorems": [
    "C97_clauses_in_order"
   ],
   "note": ""
  },
  {
   "property": "C98",
   "status": "proved",
   "theorems": [
    "C98_next_word"
   ],
   "note": ""
  }
 ]
}