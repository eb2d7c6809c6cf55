(** Property C96: ALTER TABLE read from a text and applied to a schema; C26 and C43 for all names. *)
From Coq Require Import Lia Permutation.
From Verif Require Import GoBase ModelUtil ModelNum ModelFn ModelQuery ModelEbnf ModelGrammar ModelLex ModelVisitor SpecFn SpecQuery SpecRound SpecSelect SpecSpell SpecNone SpecSource
  FactsBase ProofFn ProofQuery ProofEbnf ProofMachine ProofLex ProofParse ProofRound ProofRound2 ProofRound3 ProofRound4 ProofRound5 ProofRound8 ProofRound10 ProofRound11 ProofRound13 ProofSelect2 ProofSpell ProofNone ProofNone3 ProofWhere ProofAlias ProofSource4.
Local Open Scope string_scope.
Local Open Scope list_scope.

(** ALTER TABLE t DROP COLUMN c, with the word COLUMN or without it *)
Definition drop_column_words (column : bool) (t c : string) : list string := ["ALTER"; "TABLE"; t; "DROP"] ++ given column "COLUMN" ++ [c].
(** the name which is reported as the one of the column to drop *)
Definition run_together (column : bool) (c : string) : string := ("DROP" ++ (if column then "COLUMN" else "") ++ c)%string.

Lemma drop_column_read entries b t c : plain t -> plain c ->
  parse entries (line (drop_column_words b t c)) = Ok [SAlterTable (only_drop_column (new_table t) (new_column (run_together b c)))].
Proof.
  intros Pt Pc. unfold drop_column_words, run_together, only_drop_column. destruct b.
  - is_so [kw ["ALTER"]; kw ["TABLE"]; [PWord t]; kw ["DROP"]; kw ["COLUMN"]; [PWord c]].
  - is_so [kw ["ALTER"]; kw ["TABLE"]; [PWord t]; kw ["DROP"]; [PWord c]].
Qed.

(** C43: no statement that drops a column is read back as it was, whatever the table and the column. *)
Theorem C43_every_drop_column_refuted : forall entries t c, any_name t -> any_name c ->
  stmt_string (SAlterTable (only_drop_column (new_table t) (new_column c))) = Ok (line (drop_column_words false t c))
  /\ exists a, parse entries (line (drop_column_words false t c)) = Ok [SAlterTable a] /\ al_drop_column a = Some (new_column ("DROP" ++ c)%string) /\ al_drop_column a <> Some (new_column c).
Proof.
  intros entries t c Ht Hc. known. split.
  - unfold line, drop_column_words. cbn -[full_table_name]. rewrite full_name_of_name. repeat rewrite sapp_assoc. reflexivity.
  - eexists. split; [apply drop_column_read; assumption|]. split; [reflexivity|]. cbn. intros E. injection E as E.
    apply (f_equal String.length) in E. cbn in E. clear -E. lia.
Qed.
Print Assumptions C43_every_drop_column_refuted.

(** C96: a column that is added by a text is the last one of the schema. *)
Theorem C96_add_column_partial : forall entries s t c q, Permutation entries data_type_strings -> any_name t -> definition_ok c ->
  stmt_string (SAlterTable (only_add_column (new_table t) c)) = Ok q ->
  exists a, parse entries q = Ok [SAlterTable a] /\ alter_schema s a = (mkSchema (s_table s) (s_columns s ++ [c]) (s_indexes s), Ok tt).
Proof.
  intros entries s t c q P Ht Hc E. destruct (supported_parse entries (SAlterTable (only_add_column (new_table t) c)) P) as (q' & Q & R).
  { constructor. apply (ao_add_column "" t c); [|exact Hc]. apply fu_name, Ht. }
  rewrite E in Q. injection Q as <-. eexists. split; [exact R|reflexivity].
Qed.
Print Assumptions C96_add_column_partial.

(** So is an index. *)
Theorem C96_add_index_partial : forall entries s t i q, Permutation entries data_type_strings -> any_name t -> index_ok i ->
  stmt_string (SAlterTable (only_add_index (new_table t) i)) = Ok q ->
  exists a, parse entries q = Ok [SAlterTable a] /\ alter_schema s a = (mkSchema (s_table s) (s_columns s) (s_indexes s ++ [i]), Ok tt).
Proof.
  intros entries s t i q P Ht Hi E. destruct (supported_parse entries (SAlterTable (only_add_index (new_table t) i)) P) as (q' & Q & R).
  { constructor. apply (ao_add_index "" t i); [|exact Hi]. apply fu_name, Ht. }
  rewrite E in Q. injection Q as <-. eexists. split; [exact R|reflexivity].
Qed.
Print Assumptions C96_add_index_partial.
Example C96_add_index_example : exists a, parse data_type_strings "ALTER TABLE t ADD INDEX i (c)" = Ok [SAlterTable a]
  /\ map i_name (s_indexes (fst (alter_schema (new_schema "t" [new_column "c"] [mkIdx "j" SecondaryIndex [new_column "c"]]) a))) = ["j"; "i"].
Proof. eexists. split; [vm_compute; reflexivity|]. reflexivity. Qed.

(** DROP COLUMN c removes the first column of the schema, whichever column is named. *)
Theorem C96_drop_column_refuted : forall entries b s x xs t c, any_name t -> any_name c ->
  s_columns s = x :: xs -> ~ same_text (c_name x) (run_together b c) ->
  exists a, parse entries (line (drop_column_words b t c)) = Ok [SAlterTable a]
    /\ alter_schema s a = (mkSchema (s_table s) xs (s_indexes s), Ok tt).
Proof.
  intros entries b s x xs t c Ht Hc E N. known. eexists. split; [apply drop_column_read; assumption|].
  unfold alter_schema. cbn. unfold drop_column. rewrite E. cbn.
  destruct (equal_fold (c_name x) _) eqn:F; [|reflexivity]. destruct N. apply equal_fold_iff, F.
Qed.
Print Assumptions C96_drop_column_refuted.
Example C96_drop_column_example : exists a, parse data_type_strings "ALTER TABLE t DROP COLUMN b" = Ok [SAlterTable a]
  /\ alter_schema (new_schema "t" [new_column "a"; new_column "b"] []) a = (new_schema "t" [new_column "b"] [], Ok tt).
Proof. eexists. split; [vm_compute; reflexivity|]. reflexivity. Qed.

(** A table or column that is renamed by a text is not: the schema stays as it was and there is an error. *)
Theorem C96_rename_refuted : forall entries s t u c d q, Permutation entries data_type_strings -> any_name t -> bare_name u -> any_name c -> any_name d ->
  stmt_string (SAlterTable (only_rename_to (new_table t) (new_table u))) = Ok q \/ stmt_string (SAlterTable (only_rename_column (new_table t) (new_column c) (new_column d))) = Ok q ->
  exists a, parse entries q = Ok [SAlterTable a] /\ alter_schema s a = (s, Err ErrNotImplemented).
Proof.
  intros entries s t u c d q P Ht Hu Hc Hd [E|E].
  - destruct (supported_parse entries (SAlterTable (only_rename_to (new_table t) (new_table u))) P) as (q' & Q & R).
    { constructor. apply (ao_rename "" t u); [|exact Hu]. apply fu_name, Ht. }
    rewrite E in Q. injection Q as <-. eexists. split; [exact R|reflexivity].
  - destruct (supported_parse entries (SAlterTable (only_rename_column (new_table t) (new_column c) (new_column d))) P) as (q' & Q & R).
    { constructor. apply (ao_rename_column "" t c d); [|exact Hc|exact Hd]. apply fu_name, Ht. }
    rewrite E in Q. injection Q as <-. eexists. split; [exact R|reflexivity].
Qed.
Print Assumptions C96_rename_refuted.
Example C96_rename_example : stmt_string (SAlterTable (only_rename_to (new_table "t") (new_table "u"))) = Ok "ALTER TABLE t RENAME TO u"
  /\ stmt_string (SAlterTable (only_rename_column (new_table "t") (new_column "c") (new_column "d"))) = Ok "ALTER TABLE t RENAME COLUMN c TO d".
Proof. split; reflexivity. Qed.
Example C96_add_column_example : exists a, parse data_type_strings "ALTER TABLE t ADD COLUMN c INT" = Ok [SAlterTable a]
  /\ map c_name (s_columns (fst (alter_schema (new_schema "t" [new_column "b"] []) a))) = ["b"; "c"].
Proof. eexists. split; [vm_compute; reflexivity|]. reflexivity. Qed.

(** C26: a statement that adds a column or an index and renames adds it, and then fails, whatever the schema. *)
Theorem C26_always_half_done_refuted : forall s t c i u,
  alter_schema s (mkAlter t (Some u) None (Some c) None None None) = (mkSchema (s_table s) (s_columns s ++ [c]) (s_indexes s), Err ErrNotImplemented)
  /\ alter_schema s (mkAlter t (Some u) None None (Some i) None None) = (mkSchema (s_table s) (s_columns s) (s_indexes s ++ [i]), Err ErrNotImplemented)
  /\ mkSchema (s_table s) (s_columns s ++ [c]) (s_indexes s) <> s /\ mkSchema (s_table s) (s_columns s) (s_indexes s ++ [i]) <> s.
Proof.
  assert (L : forall (A : Type) (l : list A) x, l ++ [x] <> l).
  { intros A l x E. apply (f_equal (@List.length A)) in E. rewrite app_length in E. cbn in E. lia. }
  intros s t c i u. split; [reflexivity|]. split; [reflexivity|]. split; intros E.
  - apply (f_equal s_columns) in E. exact (L _ _ _ E).
  - apply (f_equal s_indexes) in E. exact (L _ _ _ E).
Qed.
Print Assumptions C26_always_half_done_refuted.
