{"id": "C01", "title": "Stack is LIFO for every history", "statement": "For every sequence of PushObject/PopObject/PeekObject/Size calls on a util.Stack, each Pop or Peek returns the most recently pushed object that has not yet been popped (nil if there is none), Size returns the number of such objects, and a Pop on an empty stack changes nothing.", "quantifier": "every finite sequence of stack operations with arbitrary pushed objects", "why_tests_cant": "A test runs a handful of push/pop sequences; the claim is about every interleaving of pushes, pops and peeks of any length.", "anchors": ["sql/util/stack.go:Stack.PushObject", "sql/util/stack.go:Stack.PopObject", "sql/util/stack.go:Stack.PeekObject", "sql/util/stack.go:Stack.Size"]}
{"id": "C02", "title": "Connection manager refuses duplicates and otherwise registers exactly the new connection", "statement": "In every reachable manager state, AddConn(c) fails with an 'exists' error iff some registered entry already uses c's UUID or c's ID; when it fails nothing changes; when it succeeds, c is found by both its UUID and its ID and every lookup for any other key answers exactly as before.", "quantifier": "every manager state reachable by any history of API calls, and every connection c", "why_tests_cant": "Depends on the whole history of adds, updates and removals; tests sample a few.", "anchors": ["sql/net/conn_manager_impl.go:mgr.AddConn", "sql/net/conn_manager_impl.go:mgr.LookupConnByUID", "sql/net/conn_manager_impl.go:mgr.LookupConnByUUID"]}
{"id": "C03", "title": "UUID index and ID index of the connection manager always agree", "statement": "After every history of API calls in which a connection passed to RemoveConn, or replaced by UpdateConn, never shares just one of its two keys (UUID, ID) with a registered connection, a connection is found by its UUID iff it is found by its ID, Conns() lists exactly those connections, each once, and every call answers like a plain set of connections. (Without that client discipline the claim is false: a refuting history is proved too.)", "quantifier": "every finite history of AddConn/UpdateConn/RemoveConn/RemoveConnByUID/RemoveConnByUUID/Close calls", "why_tests_cant": "It is an invariant over all histories, including removals of connections that were never registered.", "anchors": ["sql/net/conn_manager_impl.go:mgr.AddConn", "sql/net/conn_manager_impl.go:mgr.UpdateConn", "sql/net/conn_manager_impl.go:mgr.RemoveConn", "sql/net/conn_manager_impl.go:mgr.Conns"]}
{"id": "C04", "title": "Index agreement survives every goroutine interleaving", "statement": "For any number of goroutines calling the manager concurrently whose connections have mutually identifying UUIDs and IDs, under every interleaving of their critical sections, the UUID index and the ID index still agree and hold the same connections. (With IDs reused for new connections the claim is false: a refuting schedule is proved too.)", "quantifier": "every number of goroutines, every program each runs, every interleaving of their lock regions", "why_tests_cant": "Schedules cannot be enumerated by tests; RemoveConnByUID and RemoveConnByUUID use two separate lock regions.", "anchors": ["sql/net/conn_manager_impl.go:mgr.RemoveConnByUID", "sql/net/conn_manager_impl.go:mgr.RemoveConnByUUID", "sql/net/conn_manager_impl.go:mgr.RemoveConn"]}
{"id": "C05", "title": "Stopping the manager closes every connection and unregisters exactly those that closed", "statement": "Close()/Stop() calls Close once on every registered connection; afterwards the manager holds exactly the connections whose Close reported an error; the call returns nil iff none did.", "quantifier": "every reachable manager state, every outcome of each underlying close, every iteration order of the Go map", "why_tests_cant": "Map iteration order and failing closes are nondeterministic.", "anchors": ["sql/net/conn_manager_impl.go:mgr.Close", "sql/net/conn_manager_impl.go:mgr.Stop"]}
{"id": "C06", "title": "Connection Close is idempotent and retried only after failure", "statement": "For every history of Close calls on a connection, the underlying network connection is closed successfully at most once, never touched again after a successful close, and every Close after a success returns nil.", "quantifier": "every finite history of Close calls with every sequence of underlying outcomes", "why_tests_cant": "Quantifies over arbitrary failure patterns.", "anchors": ["sql/net/conn_impl.go:conn.Close"]}
{"id": "C07", "title": "Connection schema list: no duplicates, insertion order, cleared by SetDatabase, and callers get a private copy", "statement": "For every history of SetDatabase/SetSchemas calls on a connection created without options, Schemas() lists each schema passed to SetSchemas since the last SetDatabase exactly once in first-mention order, Database() is the last one set, and writing into a slice returned by Schemas() never changes later answers.", "quantifier": "every finite history of SetDatabase/SetSchemas/SetUser calls and writes to returned slices", "why_tests_cant": "A history property over unbounded calls with arbitrary names.", "anchors": ["sql/net/conn_impl.go:conn.SetDatabase", "sql/net/conn_impl.go:conn.SetSchemas", "sql/net/conn_impl.go:conn.Schemas"]}
{"id": "C08", "title": "Iterating a result set yields exactly the LIMIT/OFFSET window", "statement": "For every list of rows, offset and limit (0 meaning none), the loop `for rs.Next() { rs.Row() }` visits exactly rows[offset : offset+limit] in order, each once, Row never fails inside the loop, and the loop ends - provided offset+limit and the row counter fit in a uint (without that the claim is false: an offset with the no-limit value 2^64-1 yields nothing and the largest offset loops for ever; both are proved).", "quantifier": "every row list, every unsigned offset and limit", "why_tests_cant": "Boundary combinations of size, offset and limit are unbounded, including machine-word wrap-around.", "anchors": ["sql/query/response/resultset/resultset_impl.go:resultset.Next", "sql/query/response/resultset/resultset_impl.go:resultset.Row"]}
{"id": "C09", "title": "An exhausted result set stays exhausted", "statement": "Once Next() has returned false, every later Next() returns false, and Row() reports ErrNoRows.", "quantifier": "every result set and every number of further calls", "why_tests_cant": "Quantifies over arbitrarily many calls after the end.", "anchors": ["sql/query/response/resultset/resultset_impl.go:resultset.Next", "sql/query/response/resultset/resultset_impl.go:resultset.Row"]}
{"id": "C10", "title": "A row's object view and value view agree", "statement": "For a row built from values and a schema, Object() maps the i-th schema column name to the i-th value; for a row built from an object and a schema, Values() lists the object's value for each schema column in order (nil when absent); ValueBy(name) and ValueAt(index) agree on both views, whichever is asked first.", "quantifier": "every row, schema with distinct column names, and every order of accessor calls", "why_tests_cant": "Lazy caching makes the answer depend on call history.", "anchors": ["sql/query/response/resultset/row_impl.go:row.Object", "sql/query/response/resultset/row_impl.go:row.Values", "sql/query/response/resultset/row_impl.go:row.ValueAt", "sql/query/response/resultset/row_impl.go:row.ValueBy"]}
{"id": "C11", "title": "Aggregation result cursor visits every row once", "statement": "For every fn.ResultSet, `for rs.Next() { rs.Row() }` visits all rows in order exactly once; Row before the first Next reports ErrNoData; after the last row Next keeps returning false and the last row stays current.", "quantifier": "every list of result rows and every number of Next/Row calls", "why_tests_cant": "Unbounded call histories.", "anchors": ["sql/fn/resultset_impl.go:resultset.Next", "sql/fn/resultset_impl.go:resultset.Row"]}
{"id": "C12", "title": "COUNT counts rows", "statement": "After Reset, aggregating any n rows (n < 2^53, the integers float64 holds exactly) without error and finalizing, an ungrouped COUNT over one argument yields the single value n, whatever the row values (NULL included).", "quantifier": "every finite sequence of rows", "why_tests_cant": "Unbounded number of rows and values.", "anchors": ["sql/fn/count.go:NewCount", "sql/fn/aggr_impl.go:aggrImpl.AggregateRow", "sql/fn/aggr_impl.go:aggrImpl.Finalize"]}
{"id": "C13", "title": "SUM and AVG are the left-to-right float64 sum and that sum over the row count", "statement": "After Reset and any sequence of successful rows, ungrouped SUM yields the left-to-right float64 sum of the values (NULL counting as 0), which is the exact sum for integers as long as every partial sum is below 2^53 in magnitude, and AVG yields that sum divided by the number of rows; for no rows SUM is 0 and AVG is NULL.", "quantifier": "every finite sequence of rows of convertible values", "why_tests_cant": "Quantifies over all row sequences; rounding makes order matter.", "anchors": ["sql/fn/sum.go:NewSum", "sql/fn/avg.go:NewAvg", "sql/fn/aggr_impl.go:aggrImpl.AggregateRow"]}
{"id": "C14", "title": "MIN and MAX return an extreme element", "statement": "After Reset and any non-empty sequence of rows of non-NaN float64 values (a NULL counting as the value 0), ungrouped MAX yields a value that is one of the aggregated values and is not smaller than any of them, and MIN one that is not greater, provided they are not all +Inf (then MIN yields MaxFloat64: proved); for no rows they yield NULL.", "quantifier": "every finite sequence of rows", "why_tests_cant": "All orders and all float64 values including infinities.", "anchors": ["sql/fn/min.go:NewMin", "sql/fn/max.go:NewMax"]}
{"id": "C15", "title": "Row order does not change COUNT, MIN and MAX", "statement": "For any permutation of the aggregated rows, ungrouped COUNT, MIN and MAX accept the same rows and yield the same result (without NaN, and 0 = -0); SUM does not have this property in float64 (a witness is proved).", "quantifier": "every sequence of rows and every permutation of it", "why_tests_cant": "Permutations cannot be enumerated.", "anchors": ["sql/fn/count.go:NewCount", "sql/fn/min.go:NewMin", "sql/fn/max.go:NewMax", "sql/fn/sum.go:NewSum"]}
{"id": "C16", "title": "GROUP BY partitions the rows", "statement": "With GROUP BY columns, finalizing yields exactly one row per distinct tuple of group values (compared as texts) among the input rows; its leading columns are that tuple and its aggregate columns equal the aggregate of exactly the rows with that tuple - provided there is one group column or no group text contains a comma, and the caller does not reuse the row slices it passed (without either guard the claim is false: both refutations are proved).", "quantifier": "every sequence of rows, every number of group and value columns", "why_tests_cant": "Unbounded rows and groups; the code identifies a group by a joined string, so distinct tuples can collide.", "anchors": ["sql/fn/aggr_impl.go:aggrImpl.AggregateRow", "sql/fn/aggr_impl.go:aggrImpl.Finalize", "sql/fn/groupby.go:NewGroupBySetKey"]}
{"id": "C17", "title": "Reset forgets everything", "statement": "After Reset an aggregator behaves as a new one with the same configuration: whatever was aggregated before has no effect on later results. The configuration is that of the last option for arguments and the last for groups (empty group names do not count), or what it was before; Reset and the constructors refuse exactly when a further argument list follows two or more arguments, an option fails, or neither arguments nor groups are left.", "quantifier": "every aggregator state and every later sequence of rows", "why_tests_cant": "Universally quantified over earlier histories.", "anchors": ["sql/fn/aggr_impl.go:aggrImpl.Reset"]}
{"id": "C18", "title": "A rejected row leaves the aggregation unchanged", "statement": "If AggregateRow returns an error, the results of finalizing later are the same as if the row had never been passed.", "quantifier": "every aggregator state and every rejected row", "why_tests_cant": "Failure at each column position of rows of any width.", "anchors": ["sql/fn/aggr_impl.go:aggrImpl.AggregateRow"]}
{"id": "C19", "title": "Ordered finalization sorts the groups", "statement": "Finalize with ascending (descending) order returns the group rows sorted by group key in that order, and the set of rows does not depend on the order requested.", "quantifier": "every aggregator state, every map iteration order", "why_tests_cant": "Depends on Go map iteration order and on the sort's comparator being a strict weak order.", "anchors": ["sql/fn/aggr_impl.go:aggrImpl.Finalize"]}
{"id": "C20", "title": "Aggregating maps is aggregating rows", "statement": "AggregateMap(m) has the same effect as AggregateRow on the row of values of the aggregator's columns (group columns, then arguments).", "quantifier": "every aggregator, every map", "why_tests_cant": "All column sets and maps.", "anchors": ["sql/fn/aggr_impl.go:aggrImpl.AggregateMap", "sql/fn/map.go:NewMapWithRow"]}
{"id": "C21", "title": "An aggregator set returns, per group, the results of its members side by side", "statement": "AggregatorSet.Finalize returns columns and rows of equal width in which every group row contains the group values and then each member's aggregate for that same group.", "quantifier": "every set of aggregators over the same rows", "why_tests_cant": "Members iterate their group maps independently in nondeterministic order.", "anchors": ["sql/fn/aggr_set.go:aggrSet.Finalize"]}
{"id": "C22", "title": "Every registered function name resolves to its own function", "statement": "For every registered function name, in any letter case, the executor (or aggregator) returned by name lookup is the one named by it, and a name that is not registered is rejected.", "quantifier": "every string", "why_tests_cant": "All strings and all letter cases; the lookup matches by prefix in a fixed order.", "anchors": ["sql/fn/executor_func.go:NewExecutorForName", "sql/fn/aggr_func.go:NewAggregatorForName", "sql/fn/names.go:IsRegisteredFunction"]}
{"id": "C23", "title": "Functions reject a wrong number of arguments and never panic", "statement": "Every built-in executor returns an error for every argument list of the wrong length, and returns a value or an error (no panic) for every argument list.", "quantifier": "every built-in function, every argument list", "why_tests_cant": "All argument lists; division by zero is input dependent.", "anchors": ["sql/fn/math_func.go", "sql/fn/arith_func.go", "sql/fn/string_func.go", "sql/fn/arith.go", "sql/fn/math.go"]}
{"id": "C24", "title": "Executing on a map resolves each argument by column name", "statement": "Execute(map) calls the function on the list obtained by replacing each declared argument by the map's value of that name, or by the argument's own text if the map has no such name, in declaration order; Execute of a list calls it on the list and Execute of one other value on that value alone. ExecuteFunction(name, list) does the same for the function of that name, which has no declared arguments: given a map it calls the function on no value at all (proved).", "quantifier": "every executor, argument list and map", "why_tests_cant": "All maps and argument lists.", "anchors": ["sql/fn/executor_impl.go:execImpl.ExecuteMap", "sql/fn/executor_impl.go:execImpl.Execute"]}
{"id": "C25", "title": "Column lookup returns the first case-insensitive match", "statement": "LookupColumn(name) returns the first column whose name equals name ignoring ASCII case, and an error iff there is none; LookupIndexOfColumn returns its index.", "quantifier": "every column list and every name", "why_tests_cant": "All lists and names.", "anchors": ["sql/query/columns.go:ColumnList.LookupColumn", "sql/query/columns.go:ColumnList.LookupIndexOfColumn"]}
{"id": "C26", "title": "ALTER TABLE applied to a schema does what it says", "statement": "Schema.Alter with ADD COLUMN appends that column, with DROP COLUMN removes exactly the named column (error if absent), likewise for indexes, and on error the schema is unchanged.", "quantifier": "every schema and every alter statement", "why_tests_cant": "All schemas and names; the error paths follow partial updates.", "anchors": ["sql/query/schema.go:schema.Alter", "sql/query/schema.go:schema.DropColumn", "sql/query/schema.go:schema.DropIndex", "sql/query/schema.go:schema.AddColumn"]}
{"id": "C27", "title": "Data type names round-trip and parsing is case- and space-insensitive", "statement": "For every data type with a name, parsing its printed name in any letter case (and with spaces removed) returns that type; parsing never depends on map iteration order; unknown names are rejected.", "quantifier": "every data type, every string, every map iteration order", "why_tests_cant": "The parser ranges over a Go map, whose order is random.", "anchors": ["sql/query/data_type.go:NewDataTypeFromString", "sql/query/data_type.go:DataType.String"]}
{"id": "C28", "title": "Data definitions print and parse back", "statement": "For every data type with a name and every length 0 < n < 2^63, the definition prints as TYPE(n), and the tokens TYPE ( n ) (TYPE in any case, with or without its spaces, as one token) parse back to the same type and length; TYPE alone parses to the type with no length. (Two-word names given word by word and unbalanced parentheses are misread: both refutations are proved.)", "quantifier": "every data type and every length", "why_tests_cant": "All lengths.", "anchors": ["sql/query/column_def.go:NewDataDefFromStrings", "sql/query/column_def.go:dataDef.String"]}
{"id": "C29", "title": "Setting a typed column value converts it to the declared type or reports an error", "statement": "SetValue on a column with a declared integer, float, double or boolean type stores the value converted to that type, or returns an error and keeps the value given; other types store the value unchanged.", "quantifier": "every declared type and every value", "why_tests_cant": "All types and values.", "anchors": ["sql/query/column.go:Column.SetValue", "sql/query/column.go:Column.SetDefinition"]}
{"id": "C30", "title": "Column copies are independent", "statement": "Changing a column obtained by Copy never changes what the original reports, and vice versa.", "quantifier": "every column and every sequence of later SetValue calls on either", "why_tests_cant": "Aliasing shows only in some histories.", "anchors": ["sql/query/column.go:Column.Copy", "sql/query/columns.go:ColumnList.Copy"]}
{"id": "C31", "title": "Fully qualified table names", "statement": "FullTableName() is schema.table when a schema is set, the table name is non-empty and has no dot; otherwise the table name; IsFullTableName/IsTableName/IsSchemaName compare ignoring case; so distinct unqualified (schema, table) pairs have distinct full names.", "quantifier": "all schema and table names", "why_tests_cant": "All names, dots included.", "anchors": ["sql/query/table.go:Table.FullTableName", "sql/query/tables.go:TableList.HasTable"]}
{"id": "C32", "title": "Selector classification", "statement": "HasFunction() is true iff some selector is a function; HasExecutor() is true iff some selector is a function with an executor; HasFunctionWithType(t), Functions(), LookupFunction(name), Executors(), ExecutorsForType(t) and LookupExecutor(name) agree with the list of function selectors.", "quantifier": "every selector list", "why_tests_cant": "All lists.", "anchors": ["sql/query/selectors_helper.go:Selectors.HasFunction", "sql/query/selectors_helper.go:Selectors.Functions"]}
{"id": "C33", "title": "Quoting helpers undo each other", "statement": "UnEscapeString(EscapeString(s)) = s and UnEscapeNameString(EscapeNameString(s)) = s.", "quantifier": "every string", "why_tests_cant": "All strings, including those with quotes at their ends.", "anchors": ["sql/util/strings/strings.go:EscapeString", "sql/util/strings/strings.go:UnEscapeString"]}
{"id": "C34", "title": "Rendered WHERE conditions determine the condition", "statement": "Two conditions with the same rendered text are the same condition, so String() of a condition means what the condition means.", "quantifier": "every pair of condition trees", "why_tests_cant": "Trees of every depth; rendering puts no parentheses.", "anchors": ["sql/query/expr_and.go:AndExpr.String", "sql/query/expr_or.go:OrExpr.String", "sql/query/expr_cmp.go:CmpExpr.String"]}
{"id": "C35", "title": "Rendered SELECT puts its clauses in SQL order", "statement": "Select.String() prints the present clauses in the order SELECT, FROM, WHERE, GROUP BY, ORDER BY, LIMIT accepted by the grammar.", "quantifier": "every SELECT statement", "why_tests_cant": "All combinations of clauses and contents.", "anchors": ["sql/query/select.go:selectStmt.String"]}
{"id": "C36", "title": "Parameter binding puts the i-th parameter in the i-th placeholder", "statement": "For every query text made of literal pieces separated by ? placeholders and every parameter list of the same length, the bound query is the pieces with the i-th parameter's literal in the i-th gap; likewise $1..$n by number; with too many parameters it is an error.", "quantifier": "every query text, every parameter list", "why_tests_cant": "All texts and parameter values; replacement is sequential so values can be mistaken for placeholders.", "anchors": ["sql/stmt/bind_impl.go:bindStmt.Statements", "sql/stmt/bind_param_impl.go:bindParam.String"]}
{"id": "C37", "title": "A bound string parameter stays one string literal", "statement": "Whatever string value is bound, the text it is rendered to is read back by the lexer as exactly one string literal token denoting that value.", "quantifier": "every string value", "why_tests_cant": "All strings, including those containing quotes.", "anchors": ["sql/stmt/bind_param_impl.go:bindParam.String"]}
{"id": "C38", "title": "information_schema.columns query round-trip", "statement": "For every database name and table names, parsing the SELECT generated for a schema-columns statement yields the same database and tables.", "quantifier": "every database name and list of table names", "why_tests_cant": "All names and list lengths.", "anchors": ["sql/system/schema_columns_stmt_impl.go:schemaColumnsStmt.generateSelectStatement", "sql/system/schema_columns_stmt_impl.go:schemaColumnsStmt.traverseSelectStatement"]}
{"id": "C39", "title": "Schema-columns result set reports each table's own columns", "statement": "The result set built from table schemas has one row per column of each schema, in order, carrying that schema's own table name, column name and type.", "quantifier": "every list of table schemas", "why_tests_cant": "All lists.", "anchors": ["sql/system/schema_columns_resutset_from.go:NewSchemaColumnsResultSetFromSchemas"]}
{"id": "C40", "title": "Error codes and classes have faithful names", "statement": "String() of every declared error code is the name of its constant written in words, different constants have different codes and names, each code has five characters that start with a documented class, String() of a class is its documented name, and every other text is reported as unknown.", "quantifier": "every value (text) of the code and class types", "why_tests_cant": "Every text is a value of the types.", "anchors": ["sql/errors/class.go:Class.String", "sql/errors/code.go:Code.String"]}
{"id": "C41", "title": "Lexing loses nothing", "statement": "The token texts (hidden ones included) produced for any input concatenate to the input, every token is non-empty, and lexing never gets stuck.", "quantifier": "every input text", "why_tests_cant": "All byte strings.", "anchors": ["sql/parser/sqlite/antlr/SQLiteLexer.g4", "sql/parser/sqlite/parser_antlr.go:Parser.ParseString"]}
{"id": "C42", "title": "A parser can be reused", "statement": "The result of ParseString(q) depends only on q, not on the strings parsed before by the same parser.", "quantifier": "every history of ParseString calls", "why_tests_cant": "Histories of calls with failures.", "anchors": ["sql/parser/sqlite/parser_antlr.go:Parser.ParseString", "sql/parser/sqlite/parser_antlr_error_listener.go:errorListener.SyntaxError"]}
{"id": "C43", "title": "Statements print and parse back", "statement": "For every statement of the supported forms (names that are words, or any text in double quotes or brackets, and in back quotes where the parser keeps them; literals that are numbers, signed numbers, NULL/TRUE/FALSE/CURRENT_*, or strings whose single quotes come in pairs and that neither begin nor end with a quote; at most two comparisons in a condition; GROUP BY without ORDER BY and LIMIT; schema-qualified tables in SELECT, DELETE, UPDATE, COPY, ALTER TABLE and DROP INDEX only; primary keys as the only indexes of CREATE TABLE; column types other than BINARY, DOUBLE PRECISION and NAME), parsing its String() yields exactly that one statement again. Outside these forms the claim is false; refutations are proved.", "quantifier": "every supported statement: DDL, transaction, INSERT, UPDATE, DELETE, SELECT", "why_tests_cant": "All statements of every size.", "anchors": ["sql/parser/sqlite/parser_antlr_visitor.go", "sql/query/insert.go:insertStmt.String", "sql/query/select.go:selectStmt.String", "sql/query/create_table.go:createTableStmt.String"]}
{"id": "C44", "title": "A batch parses to its statements in order", "statement": "Parsing the texts of any number of supported statements, separated by one or more semicolons and any blanks, with any blanks and semicolons before and after, yields exactly those statements, in order. Blanks and semicolons before any text that begins with a word, supported or not, change nothing.", "quantifier": "every list of supported statements", "why_tests_cant": "Lists of every length.", "anchors": ["sql/parser/sqlite/parser_antlr_visitor.go:newStatementListWith"]}
{"id": "C45", "title": "INSERT pairs the i-th column with the i-th value", "statement": "For every INSERT with n columns and rows of literal values, each row of the statement pairs the i-th column with the i-th value, for i up to the shorter of the two; with n values per row the columns are exactly the n names in order holding the n values. (Surplus values are dropped without an error: proved.)", "quantifier": "every column list and value list of equal length", "why_tests_cant": "All lengths.", "anchors": ["sql/parser/sqlite/parser_antlr_visitor.go:newInsertWith"]}
{"id": "C46", "title": "Projecting a row on the result columns", "statement": "For every stored row and every list of result columns with distinct names, ResultSet.Row yields a row whose i-th value is the scalar function's result for a function column and the stored value (nil when absent) for a plain column; if some function fails, Row reports the first failure.", "quantifier": "every stored object, every list of result columns, every behaviour of the scalar functions", "why_tests_cant": "Quantifies over all rows, column lists and function behaviours.", "anchors": ["sql/query/response/resultset/row_helper.go:NewRowFromObject", "sql/query/response/resultset/resultset_impl.go:resultset.Row"]}
{"id": "C47", "title": "Map view of an aggregation row pairs columns with values by position", "statement": "For every aggregation result row and distinct columns, Map() gives the i-th column the i-th value (nil when the row is shorter) and has no other key.", "quantifier": "every column list and every row of any length", "why_tests_cant": "All lengths and values.", "anchors": ["sql/fn/map.go:NewMapWithRow", "sql/fn/resultset_impl.go:resultSet.Map"]}
{"id": "C48", "title": "FLOOR, CEIL and ROUND return the right integer", "statement": "For every finite number whose result fits a 64-bit integer, FLOOR returns the largest integer not above it, CEIL the smallest not below it, ROUND the nearest one with ties away from zero.", "quantifier": "every finite float64 value", "why_tests_cant": "2^64 values.", "anchors": ["sql/fn/math_func.go:NewFloor", "sql/fn/math_func.go:NewCeil", "sql/fn/math_func.go:NewRound"]}
{"id": "C49", "title": "Domains of the mathematical functions", "statement": "On finite numbers SQRT, LOG and LOG10 fail exactly for arguments that are not positive, MOD exactly for a zero divisor, POWER only for a negative base; ABS, FLOOR, CEIL, ROUND, EXP, SIN, COS, TAN and + - * / never fail. (In particular SQRT(0) is an error: proved.)", "quantifier": "every finite float64 argument", "why_tests_cant": "All argument values.", "anchors": ["sql/fn/math_func.go", "sql/fn/arith_func.go"]}
{"id": "C50", "title": "A function knows its type", "statement": "A function created by name, in any letter case, reports the type (mathematical, aggregate, arithmetic, time, string) of the function its name stands for.", "quantifier": "every string", "why_tests_cant": "All names in all cases.", "anchors": ["sql/fn/func_impl.go:WithFunctionName", "sql/fn/type.go:NewFunctionTypeForName"]}
{"id": "C51", "title": "Arithmetic on integers is exact", "statement": "For all integer operands, + - * (and / of a multiple, and % with a non-zero divisor) return exactly the mathematical result whenever it is below 2^53 in magnitude; % truncates towards zero.", "quantifier": "every pair of integer operands", "why_tests_cant": "All pairs of integers.", "anchors": ["sql/fn/arith_func.go:NewAddOperator", "sql/fn/arith_func.go:NewSubOperator", "sql/fn/arith_func.go:NewMulOperator", "sql/fn/arith_func.go:NewDivOperator", "sql/fn/arith_func.go:NewModOperator"]}
{"id": "C52", "title": "What UPPER, LOWER, TRIM and ABS return", "statement": "UPPER (LOWER) changes every ASCII lower-case (upper-case) letter of its argument to the other case and nothing else, TRIM removes exactly the leading and trailing white space, ABS returns the absolute value.", "quantifier": "every ASCII text, every finite number", "why_tests_cant": "All texts and numbers.", "anchors": ["sql/fn/string_func.go:NewUpper", "sql/fn/string_func.go:NewLower", "sql/fn/string_func.go:NewTrim", "sql/fn/math_func.go:NewAbs"]}
{"id": "C53", "title": "Column access by position", "statement": "ColumnAt(n) returns the n-th column for every 0 <= n < length and an error for every other n.", "quantifier": "every column list and every integer", "why_tests_cant": "All integers.", "anchors": ["sql/query/columns.go:columnList.ColumnAt"]}
{"id": "C54", "title": "Index lookup returns the first case-insensitive match", "statement": "LookupIndex(name) returns the first index whose name equals name ignoring ASCII case, and an error iff there is none; LookupIndexOfIndex returns its position.", "quantifier": "every index list and every name", "why_tests_cant": "All lists and names.", "anchors": ["sql/query/indexes.go:Indexes.LookupIndex", "sql/query/indexes.go:Indexes.LookupIndexOfIndex"]}
{"id": "C55", "title": "Table list membership ignores case", "statement": "HasTable(names...) is true iff some table's unqualified name equals one of the names ignoring ASCII case; HasSchemaTable likewise for schema names.", "quantifier": "every table list and every list of names", "why_tests_cant": "All lists and names.", "anchors": ["sql/query/tables.go:tables.HasTable", "sql/query/tables.go:tables.HasSchemaTable"]}
{"id": "C56", "title": "SetSchema gives each column its schema definition", "statement": "If SetSchema succeeds, every column has the definition of the first schema column of its name (ignoring case); it fails if some column is not in the schema; names, literals and functions of the columns do not change.", "quantifier": "every column list, every schema, every conversion behaviour", "why_tests_cant": "All lists and schemas.", "anchors": ["sql/query/columns.go:columnList.SetSchema", "sql/query/column.go:columnImpl.SetDefinition"]}
{"id": "C57", "title": "CREATE INDEX and DROP INDEX as ALTER TABLE", "statement": "A CREATE INDEX converted with NewAlterTableFrom and applied to any schema adds exactly that index and nothing else; DROP INDEX removes exactly that index; both name the same table; any other statement is rejected.", "quantifier": "every CREATE INDEX or DROP INDEX statement and every schema", "why_tests_cant": "All statements and schemas.", "anchors": ["sql/query/alter_table_from.go:NewAlterTableFrom", "sql/query/schema.go:schema.Alter"]}
{"id": "C58", "title": "Column constraints are independent flags and print by name", "statement": "IsPrimaryKey, IsNotNull and IsUnique report exactly the constraints that were combined, and String() names each of them.", "quantifier": "every combination of constraints", "why_tests_cant": "Small enumeration, but part of the rendering of every schema.", "anchors": ["sql/query/constraint.go:Constraint.String"]}
{"id": "C59", "title": "Syntax errors exactly for texts outside the grammar", "statement": "A new parser reports a syntax error for a text that is neither empty nor a lone semicolon iff the text's tokens are not a sentence of the grammar; the empty text and the lone semicolon give the empty-query error; there are no other errors.", "quantifier": "every text", "why_tests_cant": "Backtracking on ambiguous or deep inputs could reject a sentence or accept a non-sentence for some input no test contains.", "anchors": ["sql/parser/sqlite/parser_antlr.go:Parser.ParseString", "sql/parser/sqlite/antlr/SQLiteParser.g4"]}
{"id": "C60", "title": "ParseString never panics", "statement": "Whatever the text, ParseString returns statements or an error; it does not panic.", "quantifier": "every text", "why_tests_cant": "The panics are nil dereferences on optional parts of the parse tree: every combination of optional clauses of the grammar would have to be tried.", "anchors": ["sql/parser/sqlite/parser_antlr_visitor.go"]}
{"id": "C61", "title": "No accepted clause is dropped", "statement": "If a DELETE or UPDATE with a WHERE clause is accepted, the statement object carries that condition; an accepted statement is never reported as another one or not at all.", "quantifier": "every text", "why_tests_cant": "The visitor only looks at some forms of expression; every other form would have to be tried.", "anchors": ["sql/parser/sqlite/parser_antlr_visitor.go:newExprWith", "sql/parser/sqlite/parser_antlr_visitor.go:newDeleteWith", "sql/parser/sqlite/parser_antlr_visitor.go:newUpdateWith"]}
{"id": "C62", "title": "White space between words is insignificant", "statement": "In every text, each run of spaces, tabs and newlines between two parts can be replaced by any other non-empty run without changing what ParseString returns, and white space around a text is ignored, where a part is a text whose tokens are no comments, no stray characters (such as an unclosed quote) and no two minus signs or slash and star in a row. (Within a comment white space matters: refutation proved.)", "quantifier": "every supported statement, every choice of white space", "why_tests_cant": "Unboundedly many layouts.", "anchors": ["sql/parser/sqlite/antlr/SQLiteLexer.g4", "sql/parser/sqlite/parser_antlr.go:Parser.ParseString"]}
{"id": "C63", "title": "Statements report the names they were written with", "statement": "For all schema, table and column names, the table of the statement read from a text has the schema name and the full name it was written with, and tables and columns are reported by their names whether or not an alias follows.", "quantifier": "every schema, table and column name and every condition", "why_tests_cant": "Unboundedly many names; which names are kept depends on the statement.", "anchors": ["sql/parser/sqlite/parser_antlr_visitor.go:newSelectWith", "sql/parser/sqlite/parser_antlr_visitor.go:newInsertWith", "sql/parser/sqlite/parser_antlr_visitor.go:newDeleteWith", "sql/query/table.go:table.FullTableName"]}
{"id": "C64", "title": "Aggregating a result set gives the aggregates of its rows", "statement": "NewAggregatedResultSetFrom returns, for a SELECT list with aggregates, a result set with the list's headings and, per group (one group without GROUP BY), one row that holds each aggregate of exactly the source's rows of that group; for a list without aggregates it returns the source unchanged; a source row that cannot be read or that does not hold a number for an aggregate is an error.", "quantifier": "every source result set, table schema, SELECT list and GROUP BY column, and every earlier use of the same selectors", "why_tests_cant": "Unboundedly many rows, lists and histories of reuse.", "anchors": ["sql/query/response/resultset/resultset_aggr.go:NewAggregatedResultSetFrom", "sql/query/selectors_helper.go:selectors.Aggregators"]}
{"id": "C65", "title": "The schema of a query's result follows its SELECT list", "statement": "A result schema built from a table schema and a SELECT list has the table's name and one column per selector, in order: for a plain selector the table's column of that name ignoring case (name, type, constraints), for a function a column headed by its text that holds the function; it fails iff some plain selector is not a column of the table or some function has no result type; a schema built from a map has one column per entry, with the entry's name and type.", "quantifier": "every table schema, every SELECT list, every map", "why_tests_cant": "All lists and schemas.", "anchors": ["sql/query/response/resultset/schema_helper.go:NewSchemaFrom", "sql/query/response/resultset/column_from.go", "sql/query/response/resultset/schema_impl.go:WithSchemaSelectors", "sql/query/response/resultset/schema_impl.go:WithSchemaObject"]}
{"id": "C66", "title": "The aggregators of a SELECT", "statement": "Aggregators() of a SELECT yields one aggregator per function of the SELECT list, in order, of the function's kind and argument, grouping by exactly the GROUP BY column (by none without one) and empty, whatever an earlier use left in them; the functions keep these aggregators.", "quantifier": "every SELECT list of columns and aggregate calls, every GROUP BY column, every state of the functions", "why_tests_cant": "All lists and histories of reuse.", "anchors": ["sql/query/select_helper.go", "sql/query/selectors_helper.go:selectors.Aggregators", "sql/fn/func_impl.go"]}
{"id": "C67", "title": "A result set is what its options say", "statement": "NewResultSetFrom, given any options in any order, returns a result set whose schema, rows, rows affected, offset, limit and GROUP BY are those of the last option of each kind, or fails iff some rows option has an unsupported type; with a schema, reading it gives, for exactly the rows in the LIMIT/OFFSET window, the value of every schema column.", "quantifier": "every list of options, every schema of distinct column names, every behaviour of scalar functions", "why_tests_cant": "All orders and repetitions of options.", "anchors": ["sql/query/response/resultset/resultset_impl.go:NewResultSetFrom", "sql/query/response/resultset/resultset_helper.go:WithResultSetRowsOf"]}
{"id": "C68", "title": "Scan converts the values in order and stops at the first failure", "statement": "Scan(destinations...) on a row converts value i into destination i; it succeeds iff every destination has a value that converts; on failure the destinations before the failing one are converted, the others are untouched, and the error is that of the failing conversion or ErrNotExist if there is no value; ScanAt and ScanBy convert what ValueAt and ValueBy return.", "quantifier": "every row, every list of destinations, every conversion behaviour", "why_tests_cant": "All rows and conversions.", "anchors": ["sql/query/response/resultset/row_impl.go:row.Scan", "sql/query/response/resultset/row_impl.go:row.ScanAt", "sql/query/response/resultset/row_impl.go:row.ScanBy"]}
{"id": "C69", "title": "Upper and lower case of keywords do not matter", "statement": "Two texts that differ in upper and lower case only are both read, both rejected with the same error, or both panic, and their parse trees are the same but for case; if they agree in the user's own words (names, types, literals, parameters, the columns of a query, tables, arithmetic, GROUP BY, ORDER BY and LIMIT expressions) they are read as the same statements.", "quantifier": "every pair of texts that differ in the case of letters only", "why_tests_cant": "Unboundedly many texts and spellings of each.", "anchors": ["sql/parser/sqlite/antlr/SQLiteLexer.g4", "sql/parser/sqlite/parser_antlr_visitor.go", "sql/parser/sqlite/parser_antlr.go:Parser.ParseString"]}
{"id": "C70", "title": "Errors can be told apart and say what they are about", "statement": "An error made by one of the packages' error functions is, for errors.Is, the error variable the function is named after and no other variable of any package; its text holds the value it is about, says what is wrong in the words of that variable, and is different for different values.", "quantifier": "every error function and every value", "why_tests_cant": "All values: the texts depend on them, and the identity of an error must not.", "anchors": ["sql/errors/errors.go", "sql/errors/query.go", "sql/query/errors.go", "sql/fn/errors.go", "sql/net/errors.go", "sql/system/errors.go"]}
{"id": "C71", "title": "A result column is what its options say, and its definition can be used in CREATE TABLE", "statement": "A result column made from any options has the name, type, constraint and function of the last option of each kind (or none), the arguments of that function, is the asterisk iff that is its name and a function iff it has one; CREATE TABLE IF NOT EXISTS with the definition strings of any result columns is read as a table with columns of these names, types and constraints.", "quantifier": "every list of options; every non-empty list of columns", "why_tests_cant": "All orders and repetitions of options, all names and types.", "anchors": ["sql/query/response/resultset/column_impl.go:NewColumn", "sql/query/response/resultset/column_impl.go:column.IsFunction", "sql/query/response/resultset/column_impl.go:column.DefinitionString"]}
{"id": "C72", "title": "GROUP BY names joined to a set come back", "statement": "The list of names read from the set text of a list of GROUP BY names is that list exactly if no name has a comma and the list is not that of one empty name; such lists with the same set text are the same.", "quantifier": "every list of names", "why_tests_cant": "All lists and names: the names are joined with commas.", "anchors": ["sql/fn/groupby.go:NewGroupBySet", "sql/fn/groupby.go:NewGroupBysFromGroupBySet"]}
{"id": "C73", "title": "Texts are split into tokens by the rules of the lexer grammar", "statement": "For every text the tokens the parser works on are exactly those the rules of the published lexer grammar prescribe: at each place the longest text any rule generates, and of the rules that generate it the first; upper and lower case of letters in the rules do not matter; only white space and comments are left out.", "quantifier": "every text", "why_tests_cant": "Unboundedly many texts; the rules overlap (keywords are names, numbers may begin with a dot, quotes may be doubled), so which rule wins depends on everything that follows.", "anchors": ["sql/parser/sqlite/antlr/SQLiteLexer.g4", "sql/parser/sqlite/parser_antlr.go:Parser.ParseString"]}
{"id": "C74", "title": "A name in quotes stands for the text between the quotes", "statement": "For every text b and every place where a statement has the name of a table, column, index or database, writing the name in quotes means the name b; so that different statements about a name in quotes are about the same table. (Proved for back quotes in INSERT INTO, CREATE TABLE, DROP TABLE, CREATE INDEX, DROP INDEX and RENAME TO, for texts without back quotes that neither begin nor end with a single quote or parenthesis; refuted elsewhere, for every text.)", "quantifier": "every text between the quotes, every list of tables, columns and rows", "why_tests_cant": "Unboundedly many names; the quotes are taken off in some statements and not in others.", "anchors": ["sql/parser/sqlite/parser_antlr_visitor.go:newDropTableWith", "sql/parser/sqlite/parser_antlr_visitor.go:newInsertWith", "sql/util/strings/strings.go:UnEscapeNameString", "sql/parser/sqlite/antlr/SQLiteLexer.g4:IDENTIFIER"]}
{"id": "C75", "title": "A query that passes the sqltest checks is read and printed as written", "statement": "A query string that passes sqltest's strict check is read as exactly one statement whose String() has the same bytes but for white space, semicolons and the case of letters; one that passes the default check is, or its String() is read again and printed with the same bytes; one that passes the parse-only check is read as at least one statement; whatever a statement of the supported forms prints passes all checks; the queries of a query file are all tested, in order, and the file passes iff all of them do. (A condition the parser drops is not found by the default check, a semicolon in a string ends the query, and what follows a comment line is not tested: refutations proved.)", "quantifier": "every query string, every configuration, every query file", "why_tests_cant": "The checks are the project's own test oracle: which wrong programs they let pass depends on every text.", "anchors": ["sqltest/test_helper.go:TestQueryString", "sqltest/query_file_helper.go", "sqltest/config.go"]}
{"id": "C76", "title": "Functions and executors are what their options say, and are found by name", "statement": "An executor made from any options has the name, type and function of the last option of each kind, and executing it gives exactly what that function gives for the same arguments; NewExecutorForName finds exactly the built-in executors, by name ignoring case, and fails with the not supported error for every other name; a function made from options keeps the name, type, arguments, executor and aggregator given to it. CAST given a type converts the value to it. (The aggregator given to a function is never returned, and NULL and maps cannot be cast: refutations proved.)", "quantifier": "every list of options, every name, every argument", "why_tests_cant": "All orders and repetitions of options, all names and values.", "anchors": ["sql/fn/executor_impl.go", "sql/fn/executor_func.go", "sql/fn/cast.go", "sql/fn/func_impl.go", "sql/fn/args.go"]}
{"id": "C77", "title": "A column answers for what it holds", "statement": "A column made from any options has the name, definition, literal, function and arguments of the last option of each kind; it has a value iff it has a literal, and then Value(), ValueType() and ValueString() are the literal's; Equal holds iff the literal is not NULL and equal to the value; a list of columns or selectors is the asterisk iff it is empty or its only member is named *; a column is the asterisk iff it is named * and a place holder iff it was written as one. (Asking a column without literal for its value panics, IsAsterisk looks at the value instead of the name, and the string '?' is taken for a place holder: refutations proved.)", "quantifier": "every list of options, every column, every value", "why_tests_cant": "All columns and values.", "anchors": ["sql/query/column.go", "sql/query/literal.go", "sql/query/columns.go", "sql/query/selectors.go"]}
{"id": "C78", "title": "SELECT, ALTER TABLE and COPY statements are what their options say", "statement": "A SELECT made from selectors, tables, condition and any options has these selectors, tables and condition and the ORDER BY, LIMIT and GROUP BY of the last option of each kind; an ALTER TABLE has the table and, of each kind, the last change given; a COPY has the table, source, and the last columns and the last known format given; their texts hold all of it. (The index to drop is not in the text of ALTER TABLE, and asking for the text panics if the column to add has no definition: refutations proved.)", "quantifier": "every list of options", "why_tests_cant": "All orders and repetitions of options.", "anchors": ["sql/query/select.go:NewSelectWith", "sql/query/alter_table.go", "sql/query/copy.go"]}
{"id": "C79", "title": "A column of the information schema is what its options say", "statement": "NewColumn of package system, given any options in any order, returns a column whose catalog, schema, table, name, type and constraint are those of the last option of each kind, or fails iff some option fails, with the error of the first that does; a column read from a row of the information schema is the one made from the values of the row. (The constraint is not kept: refutation proved.)", "quantifier": "every list of options, every conversion behaviour, every row", "why_tests_cant": "All orders and repetitions of options, all failing places.", "anchors": ["sql/system/schema_column_impl.go", "sql/system/schema_columns_resutset_from.go"]}
{"id": "C80", "title": "The files of a directory are all listed, and tested", "statement": "Listing a directory yields every file at any depth below it that is asked for (all, those of an extension, those that match a regular expression), each once and no others, and an error for what is no directory; testing a directory of query files succeeds iff every file that matches can be read and passes. (An entry removed meanwhile panics, a directory that cannot be read is left out without an error, a link to a directory is listed as one file, and an extension without its dot lists other extensions: refutations proved.)", "quantifier": "every directory tree, every filter, every content of the files", "why_tests_cant": "Unboundedly deep trees, all names.", "anchors": ["sqltest/util/file.go", "sqltest/query_file_helper.go:TestQueryDirectoryWithRegex"]}
{"id": "C81", "title": "The clauses of a SELECT are read as written", "statement": "For every SELECT with any selectors, tables, condition, GROUP BY columns, HAVING condition, orderings and window, written in the order of SQL, ParseString returns one SELECT statement whose selectors, tables, condition, grouping column, orderings with their directions, limit and offset are those written. (Proved when there is no DISTINCT and no HAVING, at most one grouping column, a direction with every ordering and no LIMIT a, b. Refuted otherwise, for every such query: DISTINCT, HAVING, all grouping columns but the first and every ordering without ASC or DESC are dropped, LIMIT a, b is read as LIMIT a OFFSET b, and LIMIT 0 as no limit.)", "quantifier": "every query over names and literals of any length, any number of selectors, tables, grouping columns and orderings", "why_tests_cant": "All combinations of clauses, all names, numbers and texts.", "anchors": ["sql/parser/sqlite/parser_antlr_visitor.go:newSelectWith", "sql/query/select.go"]}
{"id": "C82", "title": "CREATE TABLE is read as written", "statement": "For every CREATE TABLE with any name, columns, types, lengths, column constraints and table keys, ParseString returns one CREATE TABLE statement with that name, whose columns have, in order, the names, types and lengths written, and which has the keys and constraints written. (Proved for names, IF NOT EXISTS, column order and primary keys without condition, and for types and lengths when the type is a known one and has at most one length, within an int. Refuted otherwise, for every such declaration: NOT NULL, NULL, UNIQUE, DEFAULT, AUTOINCREMENT and UNIQUE (...) leave no trace; a type with precision and scale, with too long a length or that is not known becomes the unknown type, without an error.)", "quantifier": "every declaration over names, type words and literals of any length, any number of columns, constraints and keys", "why_tests_cant": "All combinations of columns, types, numbers and constraints.", "anchors": ["sql/parser/sqlite/parser_antlr_visitor.go:newCreateTableWith", "sql/parser/sqlite/parser_antlr_visitor.go:newColumnWith", "sql/query/column_def.go:NewDataDefFromStrings", "sql/query/schema.go"]}
{"id": "C83", "title": "The values of INSERT and UPDATE are read as written", "statement": "For every INSERT, with or without a list of columns, and every UPDATE whose values are literals, columns, arithmetic on a column, function calls or numbers in parentheses, ParseString returns one statement in which each column has the value written for it, or an error. (Proved for INSERT of literals with a list of columns, one value for each, and for UPDATE of literals and arithmetic. Refuted otherwise, for every such statement: INSERT skips the other values, so that the values after them move to the columns before theirs, and loses all values if no columns are named; UPDATE leaves the column without a value; none of them is an error.)", "quantifier": "every INSERT with any number of columns, rows and values, every UPDATE with any number of assignments and any condition", "why_tests_cant": "All combinations of values, names and numbers.", "anchors": ["sql/parser/sqlite/parser_antlr_visitor.go:newInsertWith", "sql/parser/sqlite/parser_antlr_visitor.go:newUpdateWith"]}
{"id": "C84", "title": "A result schema is what its options say", "statement": "NewSchema with any options gives the database and table of the last option that names one (a table's schema naming its table) and the columns of the last option that gives columns (a column list, a SELECT list against the table's schema given before it, or a row object whose values all have a type); NewSchemaFrom gives the same schema if every option about columns gives some, and an error otherwise. LookupColumn finds the first column of exactly that name, and NewColumnFrom keeps the name, type and constraint of the table's column. (A name that was selected in another case is not found again; NewColumnFrom drops the function and the length: proved.)", "quantifier": "every list of options, every table schema, name and column", "why_tests_cant": "All orders and repetitions of options, all places of options that fail, all column lists.", "anchors": ["sql/query/response/resultset/schema_impl.go:NewSchema", "sql/query/response/resultset/schema_impl.go:NewSchemaFrom", "sql/query/response/resultset/schema_impl.go:LookupColumn", "sql/query/response/resultset/schema_helper.go:WithSchemaSelectors", "sql/query/response/resultset/column_from.go:NewColumnFrom"]}
{"id": "C85", "title": "A WHERE clause is kept, or the statement is refused", "statement": "For every DELETE, UPDATE and SELECT with a WHERE clause, ParseString returns one statement whose condition is the test written, or an error: no statement with a WHERE clause is read as one for all rows. (Proved for one comparison of a column with a literal and for two joined by AND or OR. Refuted for every other test of these forms: ==, IS, IS NOT, LIKE, GLOB, REGEXP and MATCH and their negations, tests for NULL, BETWEEN, IN, NOT before a condition, a column alone, and any of these or a condition in parentheses are dropped without an error, so that the statement is the one for all rows. After two comparisons a further AND or OR is refused, whatever follows it.)", "quantifier": "every table, list of assignments, list of selected columns, and every test of the forms named; every text after the second AND or OR", "why_tests_cant": "All tests, literals, list lengths and continuations.", "anchors": ["sql/parser/sqlite/parser_antlr_visitor.go:newExprWith", "sql/parser/sqlite/parser_antlr_visitor.go:newDeleteWith", "sql/parser/sqlite/parser_antlr_visitor.go:newUpdateWith", "sql/parser/sqlite/parser_antlr_visitor.go:newSelectWith", "sql/parser/sqlite/antlr/SQLiteParser.g4:expr"]}
{"id": "C86", "title": "Conditions a statement cannot hold are refused", "statement": "If the WHERE clause of a DELETE, SELECT or UPDATE, or the ON clause of a join, begins with a column of a named table that is compared, a column compared with a column, a call or something in parentheses, a number or a call that is compared, a column with a number added, multiplied etc. and compared, a comparison with arithmetic or another comparison sign after it, a test that is no comparison before AND or OR, or such a test after AND or OR, ParseString returns a syntax error whatever follows: no rows are selected or changed by a part of such a condition. (Arithmetic on two columns is not among them: it is read and dropped, which is proved too.)", "quantifier": "every name, literal, sign and test, every text after it", "why_tests_cant": "All conditions and all texts after them: the parser could find another way to read the rest.", "anchors": ["sql/parser/sqlite/antlr/SQLiteParser.g4:expr", "sql/parser/sqlite/parser_antlr.go:ParseString", "sql/parser/sqlite/parser_antlr_visitor.go:newExprWith"]}
{"id": "C87", "title": "Texts that begin with no statement are refused", "statement": "If the first word of a text, whatever its case, is not one that begins a statement, or the second word is not one that can come after the first (CREATE USER, DROP ROLE, INSERT t, DELETE t, ...), ParseString returns a syntax error whatever follows; each of the first words does begin some text that is read.", "quantifier": "every word, every text after it", "why_tests_cant": "All words and all texts after them.", "anchors": ["sql/parser/sqlite/antlr/SQLiteParser.g4:sql_stmt", "sql/parser/sqlite/antlr/SQLiteLexer.g4:IDENTIFIER", "sql/parser/sqlite/parser_antlr.go:ParseString"]}
{"id": "C88", "title": "The optional words of a statement are kept, or refused, or mean nothing", "statement": "BEGIN, COMMIT, END, ROLLBACK, TRUNCATE, ALTER TABLE ... RENAME and COPY are read as the same statement with and without the words SQL lets one leave out (TRANSACTION, TABLE, COLUMN, WITH, FORMAT, TEXT, a mode or a name of the transaction), and COPY has the columns and the format written; every word that does change what a statement means is found in the statement read, or the statement is refused. (The latter is refuted for every statement of these forms: ROLLBACK TO a savepoint is read as ROLLBACK, VACUUM INTO a file as VACUUM, DROP TABLE ... CASCADE and DROP TABLE or ALTER DATABASE with a schema as without, a UNIQUE or partial index as a plain one without its collations and directions, and REPLACE INTO, INSERT OR IGNORE and the like, and INSERT into a table of a named schema, as a plain INSERT; EXPLAIN and EXPLAIN QUERY PLAN before any text that begins with another word make no difference.)", "quantifier": "every name, list of columns, rows, condition and choice of optional words", "why_tests_cant": "All combinations of optional words with all names and lists.", "anchors": ["sql/parser/sqlite/antlr/SQLiteParser.g4:begin_stmt", "sql/parser/sqlite/antlr/SQLiteParser.g4:rollback_stmt", "sql/parser/sqlite/antlr/SQLiteParser.g4:insert_stmt", "sql/parser/sqlite/antlr/SQLiteParser.g4:create_index_stmt", "sql/parser/sqlite/antlr/SQLiteParser.g4:sql_stmt", "sql/parser/sqlite/parser_antlr_visitor.go"]}
{"id": "C89", "title": "A connection is what its options say, and keeps its data to itself", "statement": "A new connection has the user, the database, the schemas, the ID and the tracer context of the last option of each kind, until they are set; its creation time and UUID never change; SetSchemas adds the schemas that are not there, in order, and SetDatabase clears them; nothing a caller writes into a slice it holds, and nothing done to another connection, changes what it answers, and no call writes into a slice of a caller; Span works on every connection. (Refuted: the slice given with WithConnSchemas is shared both ways, two connections given one slice with room behind it replace each other's schemas, and Span panics without a tracer context.)", "quantifier": "every list of options, every memory in which the slices lie, every capacity the runtime chooses for a grown array, every sequence of calls and of writes by the caller", "why_tests_cant": "Depends on histories of calls and on how slices overlap in memory, which tests of single calls do not vary.", "anchors": ["sql/net/conn_impl.go:NewConnWith", "sql/net/conn_impl.go:WithConnSchemas", "sql/net/conn_impl.go:conn.SetSchemas", "sql/net/conn_impl.go:conn.Schemas", "sql/net/conn_impl.go:conn.Span"]}
{"id": "C90", "title": "Close called by several goroutines closes once", "statement": "If any number of goroutines call Close on one connection, the underlying connection is closed with success at most once; each call returns nil only after it has been closed with success and an error only after an attempt failed; when all calls have returned the connection counts as closed iff an attempt succeeded, and later calls do not touch the underlying connection. (At most once is refuted: n goroutines can close it n times. The rest is proved.)", "quantifier": "every number of goroutines, every schedule of their steps, every outcome of the underlying calls", "why_tests_cant": "All interleavings; a test sees few of them, and seldom the harmful ones.", "anchors": ["sql/net/conn_impl.go:Close"]}
{"id": "C91", "title": "The type of a statement says what it is", "statement": "Every statement type has a name of its own. The text of a statement begins with the name of its type, so two statements with the same text have the same type, and every statement ParseString returns has a text. If a text is accepted, its first statement has the type that the first words of the text say (SELECT, VALUES, INSERT, REPLACE, UPDATE, DELETE, BEGIN, COMMIT, END, ROLLBACK, USE, COPY, TRUNCATE, VACUUM; CREATE, ALTER and DROP with DATABASE, TABLE or INDEX), whatever their case and whatever follows them.", "quantifier": "every statement, every text", "why_tests_cant": "All texts that begin with the words.", "anchors": ["sql/query/statement_type.go:StatementType.String", "sql/query/statement.go:Statement", "sql/parser/sqlite/parser_antlr_visitor.go:newStatementWith"]}
{"id": "C92", "title": "Statements are separated by semicolons", "statement": "If a statement follows another one without a semicolon in between, ParseString returns a syntax error.", "quantifier": "every pair of statements", "why_tests_cant": "All statements, and all words that can follow them.", "anchors": ["sql/parser/sqlite/antlr/SQLiteParser.g4", "sql/parser/sqlite/parser_antlr.go:Parser.ParseString"]}
{"id": "C93", "title": "The sources of a query are kept, or it is refused", "statement": "Every query ParseString accepts is reported with all the tables and queries it reads from, and every statement with a condition on the result of another query with that condition; otherwise ParseString returns an error. (Proved for lists of tables. Refuted for all names: of a JOIN of any kind, with or without USING, and of a query over a subquery no table is reported at all; WITH, a subquery after a table, UNION, INTERSECT and EXCEPT after a WHERE clause, and UNION ALL are dropped with the query after them; DELETE, UPDATE and SELECT with [NOT] IN or [NOT] EXISTS and a subquery are read as the statement for all rows.)", "quantifier": "every name of a table or column and every number in the statements of these forms", "why_tests_cant": "All names in all the positions.", "anchors": ["sql/parser/sqlite/antlr/SQLiteParser.g4:select_core", "sql/parser/sqlite/antlr/SQLiteParser.g4:join_clause", "sql/parser/sqlite/antlr/SQLiteParser.g4:common_table_stmt", "sql/parser/sqlite/parser_antlr_visitor.go:newSelectWith"]}
{"id": "C94", "title": "What a change is told to do is kept, or it is refused", "statement": "An INSERT, UPDATE, DELETE or CREATE TABLE that ParseString accepts is reported with what it says about conflicts, other tables to read from, rows to return and columns to take from a query; otherwise ParseString returns an error. (Refuted for all names and numbers: ON CONFLICT DO NOTHING and DO UPDATE, RETURNING, UPDATE OR, UPDATE ... FROM and the alias of the table of an INSERT are dropped, and CREATE TABLE ... AS SELECT is a table without columns. Proved for UPDATE and DELETE without these.)", "quantifier": "every name and number in the statements of these forms", "why_tests_cant": "All names in all the positions.", "anchors": ["sql/parser/sqlite/antlr/SQLiteParser.g4:upsert_clause", "sql/parser/sqlite/antlr/SQLiteParser.g4:update_stmt", "sql/parser/sqlite/antlr/SQLiteParser.g4:delete_stmt", "sql/parser/sqlite/antlr/SQLiteParser.g4:create_table_stmt", "sql/parser/sqlite/parser_antlr_visitor.go:newInsertWith", "sql/parser/sqlite/parser_antlr_visitor.go:newUpdateWith", "sql/parser/sqlite/parser_antlr_visitor.go:newDeleteWith", "sql/parser/sqlite/parser_antlr_visitor.go:newCreateTableWith"]}
{"id": "C95", "title": "A selector is the column or call that was written, or it is refused", "statement": "If a query is accepted, each of its selectors is a column of the name written, or a call of the function with the arguments written and all that was said about the call; an expression that is neither is refused, and all that is said about an ordering is kept. (Proved for columns and calls. Refuted for all names: NOT, COLLATE, LIKE, GLOB, REGEXP, MATCH, IS, tests for NULL, BETWEEN, CAST and CASE are reported as a column whose name is the text without blanks; DISTINCT in a call, FILTER, OVER and the alias of a call are dropped, and NULLS FIRST and NULLS LAST as well.)", "quantifier": "every name and number in the queries of these forms", "why_tests_cant": "All names in all the positions.", "anchors": ["sql/parser/sqlite/antlr/SQLiteParser.g4:result_column", "sql/parser/sqlite/antlr/SQLiteParser.g4:expr", "sql/parser/sqlite/antlr/SQLiteParser.g4:ordering_term", "sql/parser/sqlite/parser_antlr_visitor.go:newSelectWith"]}
{"id": "C96", "title": "ALTER TABLE read from a text changes the schema as it says", "statement": "If ParseString accepts an ALTER TABLE and Schema.Alter is called with it, then the column or index it adds is the last one and nothing else changes; the column it drops is gone and no other; the table or column it renames has the new name. (Proved for adding. Refuted for every name: DROP COLUMN c is reported as dropping a column named DROPCOLUMNc and removes the first column of the schema, whichever was named; renames are accepted and then fail as not implemented.)", "quantifier": "every schema and every name of a table, column or index", "why_tests_cant": "All schemas and names, through parser and schema.", "anchors": ["sql/parser/sqlite/parser_antlr_visitor.go:newAlterTableWith", "sql/query/alter_table.go:AlterTable", "sql/query/schema.go:Schema.DropColumn"]}
{"id": "C97", "title": "The clauses of a query come in their order, or it is refused", "statement": "If a query of a column of a table has clauses (WHERE with a comparison of a column with a number, GROUP BY a column, ORDER BY a column with a direction or without, LIMIT with a number; any of them, in this order) after which another clause of the same kind, or of a kind that comes before it, begins, then ParseString returns a syntax error, whatever is written after that.", "quantifier": "every name and number in such queries, every set of clauses given and every text after them", "why_tests_cant": "All names, all combinations of clauses and all texts after them.", "anchors": ["sql/parser/sqlite/antlr/SQLiteParser.g4:select_core", "sql/parser/sqlite/antlr/SQLiteParser.g4:select_stmt", "sql/parser/sqlite/parser_antlr.go:Parser.ParseString"]}
{"id": "C98", "title": "After the name in a statement only the words of the grammar are accepted", "statement": "After UPDATE t only AS, INDEXED, NOT and SET, after UPDATE t SET c no word, after INSERT INTO t only AS, DEFAULT, SELECT, VALUES and WITH, after CREATE TABLE t only AS, after CREATE INDEX i only ON, after CREATE UNIQUE only INDEX, after ALTER TABLE t only ADD, DROP and RENAME, after ALTER DATABASE d only RENAME, then only TO, and after COPY t only AS, FROM, INDEXED and NOT, in letters of any case, can be the next word: with any other word ParseString returns a syntax error, whatever is written after it.", "quantifier": "every name, every word and every text after it", "why_tests_cant": "All words and all texts after them.", "anchors": ["sql/parser/sqlite/antlr/SQLiteParser.g4", "sql/parser/sqlite/antlr/SQLiteLexer.g4", "sql/parser/sqlite/parser_antlr.go:Parser.ParseString"]}
