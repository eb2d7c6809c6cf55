(** C60, C61: the statements that make ParseString panic, and those of which nothing is reported, with any names in them. *)
From Verif Require Import GoBase ModelFn ModelQuery ModelVisitor SpecRound SpecSelect SpecSpell SpecNone ProofRound3 ProofWhere ProofNone ProofNone2.
Local Open Scope string_scope.
Local Open Scope list_scope.

(** INSERT of a query or of DEFAULT VALUES, UPDATE of two columns or more at once and an index on an
    arithmetic expression make ParseString panic, whatever the names. *)
Theorem C60_panicking_refuted : forall entries ws, panicking ws -> parse entries (line ws) = Panic.
Proof. exact panic. Qed.
Print Assumptions C60_panicking_refuted.

(** PRAGMA, ANALYZE, REINDEX, SAVEPOINT, RELEASE, ATTACH, DETACH, DROP VIEW, DROP TRIGGER, CREATE VIEW and
    CREATE VIRTUAL TABLE are accepted, and no statement is returned for them, whatever the names. *)
Theorem C61_nothing_refuted : forall entries ws, unreported ws -> parse entries (line ws) = Ok [].
Proof. exact none. Qed.
Print Assumptions C61_nothing_refuted.

Lemma same_text entries a b r : parse entries a = r -> b = a -> parse entries b = r.
Proof. intros H ->. exact H. Qed.
Lemma checked : forall x, In x ["s"; "t"; "u"; "a"; "b"; "i"] -> any_name x.
Proof. intros x H. left; left. apply name_checked. cbn [In] in H. repeat (destruct H as [<-|H]; [vm_compute; reflexivity|]). contradiction. Qed.
Example C60_panicking_example :
  parse [] "INSERT OR IGNORE INTO s.t DEFAULT VALUES" = Panic /\ parse [] "REPLACE INTO t (a, b) SELECT a FROM u" = Panic
  /\ parse [] "UPDATE t SET (a, b) = u" = Panic /\ parse [] "CREATE UNIQUE INDEX i ON t (a * b)" = Panic.
Proof.
  assert (N : forall x, In x ["s"; "t"; "u"; "a"; "b"; "i"] -> any_name x) by exact checked.
  assert (S : any_name "s") by (apply N; cbn; tauto). assert (T : any_name "t") by (apply N; cbn; tauto). assert (U : any_name "u") by (apply N; cbn; tauto).
  assert (A : any_name "a") by (apply N; cbn; tauto). assert (B : any_name "b") by (apply N; cbn; tauto). assert (I : any_name "i") by (apply N; cbn; tauto).
  assert (C1 : conflict ["INSERT"; "OR"; "IGNORE"]) by (right; right; exists "IGNORE"; split; [cbn; tauto|reflexivity]).
  assert (C2 : conflict ["REPLACE"]) by (right; left; reflexivity).
  assert (L1 : some any_name ["b"]) by (split; [discriminate|apply Forall_cons; [exact B|apply Forall_nil]]).
  assert (L2 : some any_name ["a"; "b"]) by (split; [discriminate|apply Forall_cons; [exact A|apply Forall_cons; [exact B|apply Forall_nil]]]).
  assert (O : In "*" ["+"; "-"; "*"; "/"; "%"]) by (cbn; tauto).
  split; [|split; [|split]].
  - exact (same_text _ _ _ _ (C60_panicking_refuted [] _ (pa_default _ _ C1 (ob_dotted "s" "t" S T))) eq_refl).
  - exact (same_text _ _ _ _ (C60_panicking_refuted [] _ (pa_select_columns _ _ _ _ _ C2 (ob_name "t" T) L2 A U)) eq_refl).
  - exact (same_text _ _ _ _ (C60_panicking_refuted [] _ (pa_update _ _ _ _ T A L1 U)) eq_refl).
  - exact (same_text _ _ _ _ (C60_panicking_refuted [] _ (pa_index true _ _ _ _ _ I T O A B)) eq_refl).
Qed.
Example C61_nothing_example :
  parse [] "PRAGMA s.t = u" = Ok [] /\ parse [] "DROP VIEW IF EXISTS t" = Ok [] /\ parse [] "CREATE TEMP VIEW s.t AS SELECT a FROM u" = Ok [].
Proof.
  assert (N : forall x, In x ["s"; "t"; "u"; "a"; "b"; "i"] -> any_name x) by exact checked.
  assert (S : any_name "s") by (apply N; cbn; tauto). assert (T : any_name "t") by (apply N; cbn; tauto). assert (U : any_name "u") by (apply N; cbn; tauto). assert (A : any_name "a") by (apply N; cbn; tauto).
  assert (W : In "VIEW" ["VIEW"; "TRIGGER"]) by (cbn; tauto). assert (P : In ["TEMP"] [[]; ["TEMP"]; ["TEMPORARY"]]) by (cbn; tauto).
  split; [|split].
  - exact (same_text _ _ _ _ (C61_nothing_refuted [] _ (un_pragma_set _ _ (ob_dotted "s" "t" S T) U)) eq_refl).
  - exact (same_text _ _ _ _ (C61_nothing_refuted [] _ (un_drop _ true _ W (ob_name "t" T))) eq_refl).
  - exact (same_text _ _ _ _ (C61_nothing_refuted [] _ (un_view _ false _ _ _ P (ob_dotted "s" "t" S T) A U)) eq_refl).
Qed.
