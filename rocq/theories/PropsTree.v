(** Properties C60 and C61: what can go wrong between an accepted text and its statements. *)
From Verif Require Import GoBase ModelUtil ModelNum ModelFn ModelQuery ModelEbnf ModelGrammar ModelLex ModelVisitor
  SpecParse SpecPanic SpecLost ProofParse ProofPanic ProofLost.

(** C60: the texts on which ParseString panics are those whose parse tree has an INSERT without VALUES,
    an index or primary key on an expression, or an UPDATE of a list of columns; it panics on no other. *)
Theorem C60_panics_partial : forall entries q,
  parse entries q = Panic <->
  ~ (q = "" \/ q = ";")%string /\
  exists d, parse_tree (token_stream q) = Found [(""%string, Node "parse" d)] /\ unreadable (Node "parse" d).
Proof. exact panics. Qed.
Print Assumptions C60_panics_partial.
(** so it does not panic on a text without the words INSERT, REPLACE, UPDATE and CREATE *)
Theorem C60_calm_partial : forall entries q,
  (forall t, In t (token_stream q) -> ~ In (tk t) ["INSERT_"; "REPLACE_"; "UPDATE_"; "CREATE_"]%string) ->
  parse entries q <> Panic.
Proof. exact calm. Qed.
Print Assumptions C60_calm_partial.
Theorem C60_never_panics_refuted : forall entries,
  parse entries "INSERT INTO t (a) SELECT b FROM u" = Panic /\
  parse entries "INSERT INTO t DEFAULT VALUES" = Panic /\
  parse entries "CREATE INDEX i ON t (a + 1)" = Panic /\
  parse entries "UPDATE t SET (a, b) = 1" = Panic.
Proof. intro entries. vm_compute. repeat split. Qed.
Print Assumptions C60_never_panics_refuted.
Example C60_example :
  parse data_type_strings "CREATE TABLE t (a INT, PRIMARY KEY (a + 1))" = Panic /\
  parse data_type_strings "SELECT a FROM t WHERE a IN (1, 2) ORDER BY a DESC" <> Panic /\
  forallb (fun t => negb (existsb (String.eqb (tk t)) ["INSERT_"; "REPLACE_"; "UPDATE_"; "CREATE_"]%string))
    (token_stream "SELECT a FROM t WHERE a IN (1, 2) ORDER BY a DESC") = true.
Proof. vm_compute. repeat split. discriminate. Qed.

(** C61: the statements of an accepted text are reported in order and as what they are, but for the kinds
    that are never reported; a statement has a condition exactly if its text has one that is a comparison,
    or two of them with AND or OR in between. *)
Theorem C61_report_partial : forall entries q ss, parse entries q = Ok ss ->
  exists d, parse_tree (token_stream q) = Found [(""%string, Node "parse" d)] /\ report ss (statements (Node "parse" d)).
Proof. exact reported. Qed.
Print Assumptions C61_report_partial.
(** Any other condition is dropped: the statement is then read as the same one without a condition. *)
Theorem C61_condition_refuted : forall entries,
  let same a b := parse entries a = parse entries b /\ exists s, parse entries b = Ok [s] in
  same "DELETE FROM t WHERE a IS NULL" "DELETE FROM t"%string /\
  same "DELETE FROM t WHERE (a = 1)" "DELETE FROM t"%string /\
  same "DELETE FROM t WHERE NOT a = 1" "DELETE FROM t"%string /\
  same "DELETE FROM t WHERE a IN (1, 2)" "DELETE FROM t"%string /\
  same "DELETE FROM t WHERE a LIKE 'x'" "DELETE FROM t"%string /\
  same "UPDATE t SET a = 1 WHERE a BETWEEN 1 AND 2" "UPDATE t SET a = 1"%string /\
  same "SELECT a FROM t WHERE a IS NULL" "SELECT a FROM t"%string.
Proof. intro entries. cbv zeta. repeat split; try (eexists; vm_compute; reflexivity); vm_compute; reflexivity. Qed.
Print Assumptions C61_condition_refuted.
(** So are other clauses, and some statements as a whole. *)
Theorem C61_clause_refuted : forall entries,
  let same a b := parse entries a = parse entries b /\ exists s, parse entries b = Ok [s] in
  same "SELECT DISTINCT a FROM t" "SELECT a FROM t"%string /\
  same "SELECT a FROM t ORDER BY a" "SELECT a FROM t"%string /\
  same "SELECT a FROM t GROUP BY a HAVING a > 1" "SELECT a FROM t GROUP BY a"%string /\
  same "SELECT a FROM t GROUP BY a, b" "SELECT a FROM t GROUP BY a"%string /\
  same "INSERT OR IGNORE INTO t (a) VALUES (1)" "INSERT INTO t (a) VALUES (1)"%string /\
  same "INSERT INTO s.t (a) VALUES (1)" "INSERT INTO t (a) VALUES (1)"%string /\
  same "REPLACE INTO t (a) VALUES (1)" "INSERT INTO t (a) VALUES (1)"%string /\
  same "CREATE UNIQUE INDEX i ON t (a)" "CREATE INDEX i ON t (a)"%string /\
  same "EXPLAIN DELETE FROM t" "DELETE FROM t"%string.
Proof. intro entries. cbv zeta. repeat split; try (eexists; vm_compute; reflexivity); vm_compute; reflexivity. Qed.
Print Assumptions C61_clause_refuted.
Theorem C61_statement_refuted : forall entries,
  parse entries "PRAGMA x" = Ok [] /\ parse entries "ANALYZE" = Ok [] /\
  parse entries "CREATE VIEW v AS SELECT a FROM t" = Ok [] /\ parse entries "BEGIN; SAVEPOINT s; COMMIT" = Ok [SBegin; SCommit].
Proof. intro entries. vm_compute. repeat split. Qed.
Print Assumptions C61_statement_refuted.
(** a report with a condition that is kept, one that is dropped and a statement that is passed over *)
Example C61_example : exists ss,
  parse data_type_strings "DELETE FROM t WHERE a = 1; PRAGMA x; DELETE FROM t WHERE a IS NULL" = Ok ss /\
  map kind ss = ["delete_stmt"; "delete_stmt"]%string /\ map where_of ss = [Some (ECmp OpEQ (new_column "a") (Some (mkLit (VStr "1") UnknownLiteral))); None].
Proof. eexists. split; [vm_compute; reflexivity|]. split; reflexivity. Qed.
