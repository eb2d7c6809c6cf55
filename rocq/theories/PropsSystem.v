(** Properties C38 and C39: the statements and result sets of information_schema.columns. *)
From Coq Require Import Permutation.
From Verif Require Import GoBase FactsBase ModelUtil ModelNum ModelFn ModelQuery ModelEbnf ModelGrammar ModelLex ModelVisitor ModelResultSet
  ModelSystem SpecFn SpecQuery SpecRound SpecSystem ProofQuery ProofRound3 ProofRound13 ProofWhere ProofSystem ProofSystem2.

(** C38: for a database with a name, and no table or one, the generated SELECT asks for the columns of
    that database and table, and a statement made from that SELECT, or from its text, has them again. *)
Theorem C38_roundtrip_partial : forall entries db tables, Permutation entries data_type_strings ->
  db <> ""%string -> plain_text db -> Forall plain_text tables -> length tables <= 1 ->
  exists s, new_columns_stmt entries db tables None = Ok (mkColumnsStmt s db tables) /\
    is_schema_columns_query s = true /\
    (forall db' tables', new_columns_stmt entries db' tables' (Some s) = Ok (mkColumnsStmt s db tables)) /\
    exists q, stmt_string (SSelect s) = Ok q /\ parse entries q = Ok [SSelect s].
Proof.
  intros entries db tables P N D T L.
  assert (R : forall w, condition_ok w -> exists q, stmt_string (SSelect (columns_select w)) = Ok q /\ parse entries q = Ok [SSelect (columns_select w)])
    by (intros w W; exact (supported_parse entries _ P (columns_supported w W))).
  destruct tables as [|t [|u ts]]; [| |cbn in L; lia].
  - eexists. split; [apply generated_none; assumption|]. split; [reflexivity|]. split.
    + intros. eapply read_where; [reflexivity|]. split; [reflexivity|]. eexists. split; [constructor|]. cbn. split.
      * apply (di_last db' [] _ db []); [reflexivity|intros ? ? []].
      * apply ti_other; [intros H; vm_compute in H; discriminate|constructor].
    + apply R. constructor. now apply text_eq_ok.
  - inversion_clear T as [|? ? T' _]. eexists. split; [apply generated_one; assumption|]. split; [reflexivity|]. split.
    + intros. eapply read_where; [reflexivity|]. split; [reflexivity|]. eexists. split; [constructor; constructor|]. cbn. split.
      * apply (di_last db' [] _ db [_]); [reflexivity|]. intros ? ? I X. destruct I as [I|[]]. injection I as <- <-. vm_compute in X. discriminate.
      * apply ti_other; [intros H; vm_compute in H; discriminate|]. apply ti_here; [reflexivity|constructor].
    + apply R. constructor; now apply text_eq_ok.
Qed.
Print Assumptions C38_roundtrip_partial.
Example C38_roundtrip_example : exists s,
  new_columns_stmt data_type_strings "my db" ["users"] None = Ok (mkColumnsStmt s "my db" ["users"]%string) /\
  stmt_string (SSelect s) = Ok "SELECT * FROM information_schema.COLUMNS WHERE TABLE_SCHEMA = 'my db' AND TABLE_NAME = 'users'" /\
  plain_text "my db" /\ plain_text "users".
Proof.
  assert (PT : plain_text "my db" /\ plain_text "users").
  { assert (Q : forall t, forallb (fun c => negb (Ascii.eqb c "'"%char) && negb (Ascii.eqb c dquote_char)) (list_ascii_of_string t) = true -> plain_text t).
    { intros t H. rewrite forallb_forall in H.
      assert (A : forall c, In c (list_ascii_of_string t) -> c <> "'"%char /\ c <> dquote_char).
      { intros c I. specialize (H c I). apply andb_true_iff in H as [H1 H2]. apply negb_true_iff in H1, H2. rewrite Ascii.eqb_neq in H1, H2. auto. }
      apply quoteless_plain, A. }
    split; apply Q; vm_compute; reflexivity. }
  destruct PT as [P1 P2].
  eexists. split; [apply generated_one; [apply Permutation_refl|exact P1|discriminate|exact P2]|]. split; [reflexivity|]. split; assumption.
Qed.

(** A statement made from any SELECT: it succeeds exactly when the condition is a conjunction of
    equations of a column and a text, and then has the last database and all the tables they name. *)
Theorem C38_read : forall entries s e db tables r, sel_where s = Some e ->
  (new_columns_stmt entries db tables (Some s) = Ok r <->
   cs_select r = s /\ exists p, equations e p /\ database_in db p (cs_db r) /\ tables_in p (cs_tables r)).
Proof. exact read_where. Qed.
Print Assumptions C38_read.
(** Otherwise it fails, also without a condition. *)
Theorem C38_read_error : forall entries s db tables,
  (sel_where s = None -> new_columns_stmt entries db tables (Some s) = Err ErrInvalid) /\
  (forall e, sel_where s = Some e -> ~ lacks_literal e -> (forall p, ~ equations e p) ->
     new_columns_stmt entries db tables (Some s) = Err ErrInvalid).
Proof.
  intros entries s db tables. split.
  - intros W. cbn. unfold traverse_select. rewrite W. reflexivity.
  - intros e W L N. exact (read_fails entries s e db tables W L N).
Qed.
Print Assumptions C38_read_error.
Example C38_read_example : exists s r,
  parse data_type_strings "SELECT * FROM information_schema.columns WHERE table_name = 'a' AND table_schema = 'd'" = Ok [SSelect s] /\
  is_schema_columns_query s = true /\
  new_columns_stmt data_type_strings "x" ["y"] (Some s) = Ok r /\ cs_db r = "d"%string /\ cs_tables r = ["a"]%string.
Proof. eexists _, _. split; [vm_compute; reflexivity|]. split; [reflexivity|]. split; [reflexivity|]. split; reflexivity. Qed.

(** The SELECT for table names: everything for none, and the table names for one or two. *)
Theorem C38_table_names_partial : forall entries tables, Permutation entries data_type_strings -> Forall plain_text tables -> length tables <= 2 ->
  exists s, table_names_query entries tables = Ok s /\ is_schema_columns_query s = true /\
    match tables with
    | [] => sel_where s = None
    | [t] => sel_where s = Some (text_eq "TABLE_NAME" t)
    | t :: u :: _ => sel_where s = Some (EOr (text_eq "TABLE_NAME" t) (text_eq "TABLE_NAME" u))
    end.
Proof.
  intros entries tables P T L. destruct tables as [|t [|u [|x ts]]]; [| | |cbn in L; lia].
  - eexists. split; [apply names_none, P|]. split; reflexivity.
  - inversion_clear T as [|? ? T' _]. eexists. split; [apply names_one; assumption|]. split; reflexivity.
  - inversion_clear T as [|? ? T' U]. inversion_clear U as [|? ? U' _]. eexists. split; [apply names_two; assumption|]. split; reflexivity.
Qed.
Print Assumptions C38_table_names_partial.

(** No statement can be made for two tables or more, whatever their names, *)
Theorem C38_two_tables_refuted : forall entries db t u ts, db <> ""%string -> paired db ->
  new_columns_stmt entries db (t :: u :: ts) None = Err ErrParse.
Proof. exact several_refused. Qed.
Print Assumptions C38_two_tables_refuted.
(** nor for tables without a database, *)
Theorem C38_no_database_refuted : forall entries t ts, new_columns_stmt entries "" (t :: ts) None = Err ErrParse.
Proof. exact no_database_refused. Qed.
Print Assumptions C38_no_database_refuted.
(** and without either the SELECT is for another table. *)
Theorem C38_nothing_refuted : exists s, new_columns_stmt data_type_strings "" [] None = Ok (mkColumnsStmt s "" []) /\
  is_schema_columns_query s = false.
Proof. eexists. split; vm_compute; reflexivity. Qed.
Print Assumptions C38_nothing_refuted.
(** A quote in the name changes what the SELECT asks for: here the database a, and the table b. *)
Theorem C38_quote_refuted : forall entries a b, Permutation entries data_type_strings -> plain_text a -> plain_text b ->
  exists s, new_columns_stmt entries (a ++ "' AND TABLE_NAME = '" ++ b) [] None = Ok (mkColumnsStmt s (a ++ "' AND TABLE_NAME = '" ++ b) []) /\
    forall db tables, new_columns_stmt entries db tables (Some s) = Ok (mkColumnsStmt s a [b]).
Proof. exact quote_read. Qed.
Print Assumptions C38_quote_refuted.
(** No SELECT can be made for three table names or more, and the one for two cannot be read as a statement. *)
Theorem C38_three_names_refuted : forall entries t u v ts, paired t -> paired u -> table_names_query entries (t :: u :: v :: ts) = Err ErrParse.
Proof. exact three_refused. Qed.
Print Assumptions C38_three_names_refuted.
Theorem C38_two_names_refuted : forall entries t u, Permutation entries data_type_strings -> plain_text t -> plain_text u ->
  exists s, table_names_query entries [t; u] = Ok s /\ forall db tables, new_columns_stmt entries db tables (Some s) = Err ErrInvalid.
Proof. intros entries t u P T U. eexists. split; [apply names_two; assumption|]. intros. reflexivity. Qed.
Print Assumptions C38_two_names_refuted.
(** the cases: names without quotes, with quotes in pairs, and with no text at all *)
Example C38_refuted_example : Permutation data_type_strings data_type_strings /\ "db"%string <> ""%string /\ paired "db" /\ paired "it''s" /\ plain_text "a" /\ plain_text "b" /\
  generated_query "it''s" ["a"; "b"] = "SELECT * FROM information_schema.COLUMNS WHERE TABLE_SCHEMA = 'it''s' AND TABLE_NAME IN ('a','b')"%string /\
  table_names_query_text ["a"; "b"; "c"] = "SELECT * FROM information_schema.COLUMNS WHERE TABLE_NAME = 'a' OR TABLE_NAME = 'b' OR TABLE_NAME = 'c'"%string.
Proof.
  assert (Q : forall t, forallb (fun c => negb (Ascii.eqb c "'" || Ascii.eqb c """")) (list_ascii_of_string t) = true -> plain_text t).
  { intros t H. apply quoteless_plain. intros c I. rewrite forallb_forall in H. specialize (H c I). split; intros ->; discriminate H. }
  split; [apply Permutation_refl|]. split; [discriminate|]. split; [apply (Q "db"); reflexivity|].
  split; [|split; [apply Q; reflexivity|split; [apply Q; reflexivity|split; reflexivity]]].
  repeat constructor; discriminate.
Qed.

(** C39: the result set made from schemas has a row for each column of each schema, in order, with the
    name and the type of that column. *)
Theorem C39_rows_partial : forall entries to_str other schemas,
  Permutation entries data_type_strings -> (forall s, to_str (Some (VStr s)) = Some s) ->
  Forall typed_schema schemas -> (N.of_nat (S (length (concat (map s_columns schemas)))) < 2 ^ 64)%N ->
  exists rs fuel out, result_set_from_schemas schemas = Ok rs /\
    columns_from_result_set entries to_str other fuel columns_schema rs = Some (Ok out) /\
    Forall2 describes out (concat (map s_columns schemas)).
Proof.
  intros entries to_str other schemas P S T B. destruct (from_schemas entries to_str other schemas P S T B) as (rs & R & C).
  exists rs. eexists. eexists. split; [exact R|]. split; [exact C|].
  assert (D : forall c, In c (concat (map s_columns schemas)) -> exists df n, c_def c = Some df /\ named_type (d_type df) n).
  { intros c I. apply in_concat in I as (l & I & J). apply in_map_iff in I as (s & <- & I). rewrite Forall_forall in T. exact (T s I c J). }
  clear - D. induction (concat (map s_columns schemas)) as [|c cs IH]; constructor; [|apply IH; intros; apply D; right; assumption].
  destruct (D c (or_introl eq_refl)) as (df & n & E & _). unfold sys_described. rewrite E. split; [reflexivity|]. exists df. split; [exact E|reflexivity].
Qed.
Print Assumptions C39_rows_partial.
(** But each row claims to be about the table information_schema.COLUMNS, whatever the schema's table is. *)
Theorem C39_table_refuted : forall entries to_str other schemas,
  Permutation entries data_type_strings -> (forall s, to_str (Some (VStr s)) = Some s) ->
  Forall typed_schema schemas -> (N.of_nat (S (length (concat (map s_columns schemas)))) < 2 ^ 64)%N ->
  exists rs fuel out, result_set_from_schemas schemas = Ok rs /\
    columns_from_result_set entries to_str other fuel columns_schema rs = Some (Ok out) /\
    Forall (fun d => sc_table d = "COLUMNS"%string /\ sc_schema d = "information_schema"%string /\ sc_catalog d = "def"%string) out.
Proof.
  intros entries to_str other schemas P S T B. destruct (from_schemas entries to_str other schemas P S T B) as (rs & R & C).
  exists rs. eexists. eexists. split; [exact R|]. split; [exact C|].
  apply Forall_forall. intros d I. apply in_map_iff in I as (c & <- & _). repeat split.
Qed.
Print Assumptions C39_table_refuted.
Definition read_str (v : option value) : option string := match v with Some (VStr s) => Some s | _ => None end.
Example C39_example :
  let s := new_schema "users" [new_def_column "id" (new_data_def IntType (-1)); new_def_column "n" (new_data_def VarCharType 8)] [] in
  let t := new_schema "items" [new_def_column "id" (new_data_def DoublePrecisionType (-1))] [] in
  Forall typed_schema [s; t] /\
  exists rs, result_set_from_schemas [s; t] = Ok rs /\
    columns_from_result_set data_type_strings read_str (fun _ => Err ErrInvalid) 9 columns_schema rs =
    Some (Ok [mkSysColumn "def" "information_schema" "COLUMNS" "id" IntType;
              mkSysColumn "def" "information_schema" "COLUMNS" "n" VarCharType;
              mkSysColumn "def" "information_schema" "COLUMNS" "id" DoublePrecisionType]).
Proof.
  cbv zeta. split.
  - repeat constructor; intros c I; cbn in I; repeat destruct I as [<-|I]; try contradiction;
      eexists; (exists "INT"%string + exists "VARCHAR"%string + exists "DOUBLE PRECISION"%string); split; try reflexivity;
      apply named_type_iff; cbn; tauto.
  - refine (ex_intro _ _ (conj eq_refl _)). vm_compute. reflexivity.
Qed.
(** A schema with a column without definition makes it panic, *)
Theorem C39_undefined_refuted : forall schemas s c, In s schemas -> In c (s_columns s) -> c_def c = None ->
  result_set_from_schemas schemas = Panic.
Proof.
  intros schemas s c I J D. unfold result_set_from_schemas. rewrite (objects_panic _ c); [reflexivity| |exact D].
  apply in_concat. exists (s_columns s). split; [now apply in_map|exact J].
Qed.
Print Assumptions C39_undefined_refuted.
Example C39_undefined_example : let s := new_schema "t" [new_column "a"] [] in
  In (new_column "a") (s_columns s) /\ c_def (new_column "a") = None.
Proof. split; [left|]; reflexivity. Qed.
(** A column is looked up by its name, ignoring case; the first one is found, of whichever table. *)
Theorem C39_lookup : forall cs n,
  (forall c, sys_lookup_column cs n = Ok c -> exists i, first_match (fun c => same_text (sc_name c) n) cs i c) /\
  (forall i c, first_match (fun c => same_text (sc_name c) n) cs i c -> sys_lookup_column cs n = Ok c) /\
  (no_match (fun c => same_text (sc_name c) n) cs -> sys_lookup_column cs n = Err ErrNotFound).
Proof. exact sys_lookup. Qed.
Print Assumptions C39_lookup.
