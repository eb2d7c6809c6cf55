(** C82: CREATE TABLE is read as it is written. *)
From Coq Require Import Lia Permutation.
From Verif Require Import GoBase ModelUtil ModelNum ModelFn ModelQuery ModelEbnf ModelGrammar ModelLex ModelVisitor
  SpecFn SpecQuery SpecRound SpecSelect SpecTable ProofQuery ProofParse ProofWhere ProofTable ProofTable2 ProofTable3.

(** Whatever the declaration, one statement comes out of it: a CREATE TABLE of that name, with its columns by name and in
    order, a primary index for each of its primary keys and no other. *)
Theorem C82_table_is_read : forall entries t, Permutation entries data_type_strings -> table_decl_ok t ->
  exists s, parse entries (table_text t) = Ok [SCreateTable s (tb_if_not_exists t)]
    /\ s_table s = new_table (tb_name t)
    /\ map c_name (s_columns s) = map cl_name (tb_columns t)
    /\ Forall2 is_primary_over (table_keys t) (s_indexes s).
Proof.
  intros entries t HP H. exists (table_schema entries t). split; [apply table_reads; assumption|]. split; [reflexivity|]. split; [|apply table_keys_read; exact H].
  unfold table_schema. cbn [s_columns new_schema]. rewrite map_map. destruct H as [_ [_ C] _].
  induction C as [|c cs (N & _) _ IH]; [reflexivity|]. cbn [map]. rewrite IH. f_equal. exact (proj2 (ProofRound3.bare_is _ N)).
Qed.
Print Assumptions C82_table_is_read.

(** Its columns have the types and lengths of their declarations when those are types the parser knows, with one length at
    most and that within an int.  Missing for the full property: the rest, which the theorems below show to be dropped. *)
Theorem C82_as_declared_partial : forall entries t, Permutation entries data_type_strings -> table_decl_ok t ->
  Forall fits (tb_columns t) ->
  exists s, parse entries (table_text t) = Ok [SCreateTable s (tb_if_not_exists t)]
    /\ s_table s = new_table (tb_name t)
    /\ Forall2 as_declared (tb_columns t) (s_columns s)
    /\ Forall2 is_primary_over (table_keys t) (s_indexes s).
Proof.
  intros entries t HP H F. exists (table_schema entries t). split; [apply table_reads; assumption|]. split; [reflexivity|]. split; [|apply table_keys_read; exact H].
  unfold table_schema. cbn [s_columns new_schema]. destruct H as [_ [_ C] _].
  induction C as [|c cs D _ IH]; [constructor|]. inversion F; subst. constructor; [apply kdef_declared; assumption|apply IH; assumption].
Qed.
Print Assumptions C82_as_declared_partial.

(** Nothing else of the declaration is kept.  NOT NULL, NULL, UNIQUE, DEFAULT, AUTOINCREMENT and UNIQUE (...) leave no trace:
    the statement is the one without them. *)
Theorem C82_constraints_refuted : forall entries t, Permutation entries data_type_strings -> table_decl_ok t ->
  parse entries (table_text t) = parse entries (table_text (only_keys t)).
Proof.
  intros entries t HP H. rewrite (table_reads entries t HP H), (table_reads entries _ HP (only_keys_ok t H)), only_keys_schema. reflexivity.
Qed.
Print Assumptions C82_constraints_refuted.

(** A column with a precision and a scale, with a length beyond an int or of a type the parser does not know has no type at
    all: its word and its numbers are lost, without an error. *)
Theorem C82_type_refuted : forall entries t i c, Permutation entries data_type_strings -> table_decl_ok t ->
  nth_error (tb_columns t) i = Some c -> ~ fits c ->
  exists s, parse entries (table_text t) = Ok [SCreateTable s (tb_if_not_exists t)]
    /\ nth_error (s_columns s) i = Some (new_def_column (cl_name c) unknown_data_def).
Proof.
  intros entries t i c HP H E U. exists (table_schema entries t). split; [apply table_reads; assumption|].
  unfold table_schema. cbn [s_columns new_schema]. rewrite nth_error_map, E. cbn [option_map]. f_equal. apply kdef_unfit; [exact HP| |exact U].
  destruct H as [_ [_ C] _]. exact (proj1 (Forall_forall _ _) C c (nth_error_In _ _ E)).
Qed.
Print Assumptions C82_type_refuted.
(** so two declarations that differ in nothing but such numbers are the same *)
Theorem C82_precision_refuted : forall entries n b x w p q p' q', Permutation entries data_type_strings -> bare_name n -> bare_name x -> type_name w ->
  parse entries (table_text (mkTable n b [mkDecl x w (Precision p q) []] [])) = parse entries (table_text (mkTable n b [mkDecl x w (Precision p' q') []] [])).
Proof.
  intros entries n b x w p q p' q' HP N X W.
  assert (O : forall p q, decl_ok (mkDecl x w (Precision p q) [])) by (intros; split; [exact X|split; [exact W|constructor]]).
  assert (T : forall p q, table_decl_ok (mkTable n b [mkDecl x w (Precision p q) []] [])).
  { intros p0 q0. split; [exact N|split; [discriminate|constructor; [apply O|constructor]]|constructor]. }
  rewrite !table_reads by (assumption || apply T). unfold table_schema. cbn [tb_columns tb_name tb_keys map tb_if_not_exists].
  rewrite !kdef_unfit; [reflexivity|assumption|apply O|intros [_ []]|assumption|apply O|intros [_ []]].
Qed.
Print Assumptions C82_precision_refuted.

Definition example_table : table_decl :=
  mkTable "users" true
    [mkDecl "id" "bigint" NoSize [PrimaryKey true; NotNull]; mkDecl "email" "VarChar" (Length 64) [Unique; Default (mkLit (VStr "none") StringLiteral)];
     mkDecl "note" "text" NoSize [Nullable]]
    [PrimaryOver ["id"; "email"]; UniqueOver ["email"]]%string.
Example C82_example_text : table_text example_table =
  "CREATE TABLE IF NOT EXISTS users (id bigint PRIMARY KEY AUTOINCREMENT NOT NULL, email VarChar(64) UNIQUE DEFAULT 'none', note text NULL, PRIMARY KEY (id, email), UNIQUE (email))"%string.
Proof. vm_compute. reflexivity. Qed.
Lemma example_bare x : In x ["users"; "id"; "email"; "note"]%string -> bare_name x.
Proof. intro H. apply bare_checked. cbn [In] in H. repeat (destruct H as [<-|H]; [vm_compute; reflexivity|]). contradiction. Qed.
Example C82_example_ok : table_decl_ok example_table /\ Forall fits (tb_columns example_table) /\ only_keys example_table <> example_table.
Proof.
  split; [split|split; [|discriminate]].
  - apply example_bare. cbn. tauto.
  - split; [discriminate|]. cbn [example_table tb_columns]. apply Forall_cons; [|apply Forall_cons; [|apply Forall_cons; [|constructor]]].
    + split; [apply example_bare; cbn; tauto|]. split; [left; apply name_checked; vm_compute; reflexivity|].
      apply Forall_cons; [exact I|]. apply Forall_cons; [exact I|constructor].
    + split; [apply example_bare; cbn; tauto|]. split; [left; apply name_checked; vm_compute; reflexivity|].
      apply Forall_cons; [exact I|]. apply Forall_cons; [|constructor]. apply lo_text. apply ProofRound3.quoteless_plain.
      intros c H. cbn in H. repeat (destruct H as [<-|H]; [split; discriminate|]). contradiction.
    + split; [apply example_bare; cbn; tauto|]. split; [right; left; vm_compute; reflexivity|]. apply Forall_cons; [exact I|constructor].
  - cbn [example_table tb_keys]. apply Forall_cons; [|apply Forall_cons; [|constructor]]; (split; [discriminate|]); cbn [key_columns].
    + apply Forall_cons; [|apply Forall_cons; [|constructor]]; apply example_bare; cbn; tauto.
    + apply Forall_cons; [|constructor]; apply example_bare; cbn; tauto.
  - cbn [example_table tb_columns]. apply Forall_cons; [|apply Forall_cons; [|apply Forall_cons; [|constructor]]].
    + split; [exists BigIntType, "BIGINT"%string; split; [vm_compute; tauto|left; vm_compute; reflexivity]|exact I].
    + split; [exists VarCharType, "VARCHAR"%string; split; [vm_compute; tauto|left; vm_compute; reflexivity]|vm_compute; reflexivity].
    + split; [exists TextType, "TEXT"%string; split; [vm_compute; tauto|left; vm_compute; reflexivity]|exact I].
Qed.
(** a column that does not fit *)
Example C82_unfit_example : ~ fits (mkDecl "price" "DECIMAL" (Precision 10 2) []) /\ ~ fits (mkDecl "id" "uuid" NoSize []).
Proof.
  split; [intros [_ []]|]. intros [(t & n & N & S) _]. cbn [cl_type] in S. unfold named_type in N. cbn [type_names In] in N.
  repeat (destruct N as [N|N]; [injection N as <- <-; destruct S as [S|S]; vm_compute in S; discriminate S|]). contradiction.
Qed.
