# Formal model of cybergarage/go-sqlparser in Rocq

## Layout

`rocq/theories/`

| file | contents |
|---|---|
| `GoBase.v` | Go values, errors, the part of package `strings` the code uses (definitions only) |
| `Model*.v` | the model, function by function, each definition citing file:lines of /repo |
| `Spec*.v` | small specifications written without the model's helpers |
| `Proof*.v` | lemmas and proofs |
| `Props*.v` | the property theorems only: statement, `exact lemma.`, `Print Assumptions`, and an `Example` showing the hypotheses are met |

Only Coq's standard library is imported.

## Modelling conventions

* A Go `string` is a Coq `string` (a byte sequence). `strings.ToUpper`, `strings.EqualFold` are modelled on ASCII
  letters; bytes >= 128 are left alone (simplification: Unicode case folding is not modelled).
* A method that mutates its receiver is a function returning the new state. Errors are values. `nil` is an explicit case.
* A Go map is an association list with last-write-wins lookup; map *iteration* is modelled as an arbitrary permutation of
  the entries, quantified in the theorem, never as a fixed order.
* External packages (`safecast`, `time`, `net.Conn`, `uuid`) are function arguments (oracles) of the model; any law a theorem needs
  is a hypothesis in the theorem's own statement.
* float64: theorems that do not depend on rounding quantify over an arbitrary arithmetic; those that do use
  `Coq.Floats.SpecFloat` (the axiom-free IEEE-754 binary64 of the standard library).
* uint is modelled with explicit `mod 2^64` where wrap-around matters.
* Goroutines: a state machine whose atomic steps are the regions under one lock acquisition.

## Trusted base

* Coq 8.16.1: its kernel, which checks every proof, including the `vm_compute` conversions in examples, witnesses and
  some decision steps over finite tables (the VM is part of the kernel).
* `Print Assumptions` follows every theorem of `Props*.v` and answers `Closed under the global context` for all of them:
  no theorem rests on an axiom, neither of ours nor of the standard library. (A scan of everything that is loaded lists
  the seven parameters of `Coq.ssr.ssrunder`, which the standard library's `ssreflect` declares; no theorem uses them.)
* No `Axiom`, `Parameter`, `Admitted`, section-less `Variable`, functor or module type is used, and no kernel check is
  switched off.
* That the model says what the Go code does. This is by reading: every definition cites the lines it models. The grammar
  (`ModelGrammar.v`), the lexer rules (`SpecLexer.v`) and the tables of error codes (`ModelErr.v`) were written out by a script that translates the source
  one to one.
* That ANTLR's runtime (not in the repository) parses as `ModelEbnf.v` says: at each decision the lowest-numbered
  alternative, respectively the greedy choice, with which the rest of the input can be parsed; any failure is a syntax error
  reported to the error listener. The trees ANTLR builds by error recovery are not modelled, since ParseString returns
  the error.
* That Go's own library does what the definitions in `GoBase.v`, `ModelNum.v` and the comments say (`strings`, `strconv`,
  `fmt` of integers and strings, maps, `sort`).

## What is modelled

| code in /repo/sql | model |
|---|---|
| util/stack.go, util/strings/strings.go | `ModelUtil.v` |
| net/conn_impl.go, net/conn_manager_impl.go (sequential and by lock region) | `ModelNet.v` |
| net/conn_impl.go: options, tracer context, slices shared with callers | `ModelConn.v` |
| query/response/resultset: cursor, rows, projection | `ModelResultSet.v` |
| query/response/resultset: schemas, options, Scan, aggregated result sets | `ModelAggregate.v`, `ModelOptions.v` |
| fn: aggregators, aggregator sets, ordering, maps | `ModelAggr.v` (fn/map.go in `ModelResultSet.v`) |
| fn: names, types, executors, arithmetic, mathematical, string and time functions | `ModelFn.v` |
| query: literals, columns, types, constraints, indexes, schemas, tables, selectors, conditions, all statements, their String methods, ALTER TABLE | `ModelQuery.v` |
| parser/sqlite: SQLiteLexer.g4 | `ModelLex.v` (proved equal to the rules as translated in `SpecLexer.v`: C73) |
| parser/sqlite: SQLiteParser.g4 | `ModelGrammar.v`, `ModelEbnf.v` |
| parser/sqlite: parser_antlr.go, parser_antlr_visitor.go, error listener | `ModelVisitor.v` |
| stmt/ (bound parameters) | `ModelBind.v` |
| system/ (information_schema.columns) | `ModelSystem.v` |
| errors/code.go, errors/class.go | `ModelErr.v` |
| query/response/resultset/column_impl.go | `ModelColumn.v` |
| fn/groupby.go | `ModelGroup.v` |
| sqltest/test_helper.go, query_file_helper.go, config.go (the checks) | `ModelSqltest.v` |
| sqltest/util/file.go, query_file_helper.go: TestQueryDirectoryWithRegex | `ModelFile.v` |
| fn/executor_impl.go, executor_func.go, cast.go, func_impl.go, args.go | `ModelFunc.v` |
| query/column.go, literal.go, select.go, alter_table.go, copy.go, system/schema_column_impl.go (options and answers) | `ModelMake.v` |
| errors/errors.go, errors/query.go, {fn,net,parser,query,stmt,system}/errors.go | `ModelErrors.v` |

## What is not modelled

* The generated ANTLR lexer and parser (Go code made from the two grammars) and the ANTLR runtime: replaced by the grammars
  and the reading above. Positions (line, column) and the wording of syntax errors are not modelled.
* `%T` formatting. In all models but `ModelErrors.v` errors are the constructors of `err` and have no text;
  `ModelErrors.v` has the error functions with their texts and what `errors.Is` finds, and `fmt.Errorf` for formats
  of plain verbs.
* Conversions of `safecast`, formatting of float64 and time.Time values, the values of EXP, LOG, SIN and the like, NOW and
  RAND: they are arguments of the model, and a theorem that needs a law of theirs states it.
* Unicode: case folding beyond ASCII, and multi-byte characters outside quotes (one token per byte in the model).
* What a tracer context does with spans, how UUIDs and timestamps come about (they are arguments), the interfaces of executor.go, and the test helpers
  (sqltest/) other than the checks of `ModelSqltest.v` and the listing of `ModelFile.v`: skipping tests is not modelled; reading a file and
  matching a regular expression are arguments; filepath.Walk is modelled as its documentation describes it.
* Two objects that share a mutable part, except where a theorem is about that (C07, C16, C30, C89): selectors that share one
  function object, or destinations of Scan that are the same variable.
* Memory exhaustion and data races below the lock regions of `ModelNet.v`.

## Testing the theorems

`seeded/LOG.jsonl` has one line per wrong program tried: the definition edited, the edit, the claim it breaks, the theorems
that failed and those that were tightened. An edit that no theorem caught has a line of its own with nothing under `failed`;
the same edit tried again after the theorems were tightened is another line. (Until the edits of `apply_fopt` and `squeeze`
only the last attempt was logged; the one edit this concerns is that of `time_text`.) An edit that does not type-check tests
nothing and is not logged.

Besides that the model was compared with the project's own test data: evaluated with `vm_compute` (outside this
repository's build), the model's default check passes all 255 queries of the files in sqltest/res/ of less than 16 KB, as
the project's tests require. This is a test of the model against expected results, not a proof, and the larger files were
not tried.

## Plan per property

Where the unchanged code violates the property as a user would state it, the plan is a theorem `..._refuted` with a concrete witness
and a theorem `..._partial` proving the property under the weakest natural guard.

| id | modelled | proof |
|---|---|---|
| C01 | stack.go | refinement to a list stack, induction over the operation list |
| C02 | conn_manager_impl.go | case analysis on the two maps, in every state reachable from the empty manager |
| C03 | conn_manager_impl.go | invariant by induction over histories; refuted for histories that remove or update with a foreign connection |
| C04 | same, split into lock regions | invariant over interleavings; refuted by a RemoveConnByUID race |
| C05 | mgr.Close with an arbitrary iteration order and an arbitrary close outcome | induction over the snapshot |
| C06 | conn.Close | induction over the outcome list |
| C07 | conn.SetDatabase/SetSchemas/Schemas | induction over histories, refinement to a set-in-order spec |
| C08 | resultset.Next/Row with uint64 arithmetic | loop invariant on the cursor; refuted when offset+limit wraps |
| C09 | same | invariant; Row after LIMIT refuted |
| C10 | row_impl.go with its caches | invariant on the caches |
| C11 | fn/resultset_impl.go | loop invariant |
| C12-C15 | fn aggregators | fold invariants; permutation lemmas; SpecFloat witness for SUM |
| C16 | grouping in AggregateRow/Finalize | simulation with the list of rows seen so far; refuted by key collision, proved for injective keys |
| C17 | Reset, the constructors | equality of states up to the stale group keys, plus irrelevance of those; induction over the options |
| C18 | AggregateRow error paths | refuted; proved for errors found in the first column and for length errors |
| C19 | Finalize ordering | `sort.Slice` as any function returning a permutation sorted w.r.t. the comparator when that is a strict weak order; DESC comparator refuted as an order |
| C20 | AggregateMap | proved without GROUP BY, refuted with it |
| C21 | aggr_set.go | proved for one group column and order-consistent members, refuted otherwise |
| C22-C24 | executor lookup, executors | decision over the prefix list for every string; panics as an explicit result |
| C25-C32 | query model | structural induction / case analysis; refuted: DropColumn, HasFunction, Copy aliasing, String clauses |
| C33 | strings.go | induction; refuted for quote-terminated strings |
| C34, C35 | String methods | refuted by AND/OR nesting and clause order; proved for the forms the parser can produce |
| C36, C37 | stmt/ | induction over the pieces; refuted by capture and quote injection |
| C38, C39 | system/ | round trip by induction over table names |
| C40 | errors/ | finite enumeration lifted to all integers |
| C41 | SQLiteLexer.g4 as an executable maximal-munch lexer | induction on input length |
| C42 | parser object state machine | refuted (the error listener is never reset); partial: until the first error |
| C43, C44 | lexer + grammar subset + visitor + String | round-trip proof per statement kind; leading semicolons by relating the two runs of the recogniser |
| C45 | newInsertWith | induction over the two lists |
| C46 | row_helper.go | induction over the columns; the row answers like a table of the column values |
| C47 | fn/map.go | induction over the columns |
| C48, C49, C51, C52 | math.go, arith.go, string.go on SpecFloat numbers | bounds on the exact value of a float (`ProofFloat*.v`); case analysis; induction over the text |
| C50 | type.go, func_impl.go | decision over the name lists for every string |
| C53-C56 | columns.go, indexes.go, tables.go | induction over the lists |
| C57 | alter_table_from.go, schema.go | case analysis; DROP refuted for every schema |
| C58 | constraint.go | bit arithmetic; combinations refuted |
| C59 | SQLiteParser.g4 as data (`ModelGrammar.v`), a parser for such data (`ModelEbnf.v`) | soundness and completeness of the parser against a declarative derivation relation (`SpecParse.v`) |
| C60, C61 | parser_antlr_visitor.go on parse trees | exact characterisation by a predicate on parse trees; witnesses as texts, and families of texts with any names in them (SpecNone), by symbolic execution of the parser |
| C62 | lexer and parser | the token list is independent of the white space between parts; lifted through the parser |
| C63 | parser and visitor with schema-qualified names | round-trip proofs as for C43; refuted for INSERT, CREATE and DROP TABLE |
| C64, C66 | resultset_aggr.go, select_helper.go, selectors_helper.go, aggregators | the source loop is a fold of aggregators in one-argument form (`one`); refuted for GROUP BY, several aggregates, names in lower case |
| C65 | schema_impl.go, schema_helper.go | induction over the selectors; maps in any iteration order |
| C67 | resultset_impl.go, resultset_helper.go | fold over the options; C08 and C46 for reading |
| C68 | row_impl.go Scan | induction over the destinations |
| C69 | lexer, grammar and visitor as for C41 and C59 | every lexer rule is blind to case; the parser depends on token kinds only (logical relation on runs); the visitor agrees on trees with the same own words (SpecCase.v) |
| C70 | the error variables and functions, fmt.Errorf, errors.Is | case analysis over the functions with the value left a variable; the expected variable of each is in SpecErrors.v |
| C71 | resultset/column_impl.go | induction over the options; the definitions through the read-back theorem of C43 |
| C72 | fn/groupby.go | splitting at commas undoes joining with commas: induction over the list |
| C73 | the lexer of C41; the rules of SQLiteLexer.g4, translated by a script, are the specification (SpecLexer.v) | each matcher of the model finds the longest match of its rule; longest match and first rule by induction over the rules |
| C74 | lexer, grammar and visitor, strings.go UnEscapeNameString | reading proofs as for C43 with any name in quotes (ProofQuoted.v); which text a name stands for is in SpecQuoted.v; the places that keep the quotes through C43 |
| C75 | sqltest/test_helper.go, query_file_helper.go, config.go | what two texts that formalizeQuery makes equal have in common (essence: the bytes but white space, semicolons and case); supported statements pass by C43; induction over the file for the queries tested |
| C76 | fn/executor_impl.go, executor_func.go, cast.go, func_impl.go, args.go | `is_last` (the value of the last option of a kind) by induction over the options; case analysis over the built-in names |
| C77 | query/column.go, literal.go; columns and selectors | `is_last` over the options; case analysis over what the column holds; refutations on parsed statements |
| C78 | query/select.go, alter_table.go, copy.go | `is_last` over the options |
| C79 | system/schema_column_impl.go, schema_columns_resutset_from.go | `is_last` over the options, induction for the first failing option |
| C80 | sqltest/util/file.go, query_file_helper.go | induction over directory trees; the files of a tree are a relation of their own (`file_at`) |
| C81 | SELECT in parser_antlr_visitor.go with the grammar and lexer | the text of a query is a specification of its own (`query_text`); its tokens are read as one tree by the grammar (symbolic execution with arbitrary continuations), of which the visitor makes the statement |
| C82 | CREATE TABLE in parser_antlr_visitor.go with the grammar and lexer | the text of a declaration is a specification of its own (`table_text`); its tokens are read as one tree by the grammar, of which the visitor makes the schema; what is dropped is shown by the equality of two parses |
| C83 | INSERT and UPDATE in parser_antlr_visitor.go with the grammar and lexer | the texts are a specification of their own (`insert_text`, `update_text`); every value is read as one expression of the grammar, and the visitor keeps the literals (and, for UPDATE, arithmetic); what is dropped is shown by the equality of two parses |
| C84 | resultset/schema_impl.go, schema_helper.go, column_from.go | induction from the right over the options with `gives` as the specification of one option; lookups by induction over the columns |
| C85 | parser_antlr_visitor.go:newExprWith, the grammar's `expr` | the machine of C43 run over each form of test (ProofTest, ProofTest2), texts as pieces (ProofTest3), the three statements (ProofTest3, ProofTest4); refusal: `fronts` (ProofRefuse) follows all ways to read a prefix to the places where the condition starts, where no alternative of `expr` goes past the second AND or OR (ProofTest5); a prefix is lexed the same whatever text follows it |
| C86 | the grammar's `expr` after WHERE and ON | the kinds of the tokens of each beginning (ProofRefuse3, ProofRefuse4) and a search over classes of kinds, proved sound for all texts after them (`mays`, ProofRefuse2); the spec is the list of beginnings in SpecRefuse |
| C87 | the grammar's `sql_stmt`, the lexer's keywords | the words of SpecStart against the keywords of the lexer; the kinds of all other words cannot begin a text (`mays`), ProofStart |
| C88 | the grammar's `begin_stmt`, `commit_stmt`, `rollback_stmt`, `truncate_stmt`, `vacuum_stmt`, `copy_stmt`, `drop_stmt`, `create_index_stmt`, `insert_stmt` and their visitors | the texts of SpecSpell (`spelling`, `lost`), read piece by piece with symbolic execution of the recogniser, ProofSpell, ProofSpell2, ProofSpell3; EXPLAIN before any text by relating the runs of the recogniser on both token lists (`run_alike`, ProofExplain) |
| C89 | net/conn_impl.go | slices as array, offset, length and capacity in a memory of arrays, append as the Go specification has it (ModelConn); an invariant that no array of the connection is held by the caller, induction over the calls; the answers expected are SpecConn's |
| C90 | sql/net/conn_impl.go (Close) | goroutines as program counters, each access to the flag and the underlying call one step, sequentially consistent (ModelClose); an invariant over all schedules; the race is a schedule built by induction on the number of goroutines |
| C91 | sql/query/statement_type.go, the String and StatementType methods, the grammar and the visitor | names by cases; texts by a lemma about joined words; first words: of the 33 rules a statement can have, all but one are excluded by the first tokens (the exclusion test of the parser machine), and the report of C61 gives the type; the LIMIT refutation by symbolic execution |
| C92 | the grammar rules parse, sql_stmt_list, use_stmt and the visitor | two runs of the parser are compared continuation by continuation (ProofExplain.alike): the trees differ in the USE node in front |
| C93 | the grammar rules of queries, joins, subqueries, WITH and set operations; the visitor of SELECT, DELETE and UPDATE | every form of statement in SpecSource is a list of words with names for parameters; the parser is run symbolically on it (ProofAlias.is_read), so the result holds for all names |
| C94 | the grammar rules of INSERT, UPDATE, DELETE and CREATE TABLE and their visitors | as C93, the statement with the clause and the one without it give the same result |
| C95 | the grammar rules of result columns, expressions and orderings; the visitor of SELECT | as C93; the name of the column is the concatenation of the words |
| C96 | the grammar rule alter_table_stmt, its visitor, sql/query/alter_table.go, sql/query/schema.go | the round trip of C43 for what is added or renamed, symbolic parsing for DROP COLUMN; then the schema functions of C26 on the statement that was read |
| C97 | the grammar rules select_stmt, select_core, order_by_stmt and limit_stmt | for each set of clauses and each word that is too late the kinds of the tokens, and the search of C86 over kinds (`mays`), proved sound for all texts after them |
| C98 | the grammar rules of UPDATE, INSERT, CREATE, ALTER and COPY, the lexer's keywords | as C87: the kinds of all words that are not listed cannot go on (`mays`), PropsAfter |

