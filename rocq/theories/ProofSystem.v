(** Proofs about sql/system. *)
From Coq Require Import Permutation.
From Verif Require Import GoBase FactsBase ModelUtil ModelNum ModelFn ModelQuery ModelEbnf ModelGrammar ModelLex ModelVisitor ModelResultSet
  ModelSystem SpecFn SpecQuery SpecResultSet SpecRound SpecSystem ProofFn ProofQuery ProofResultSet ProofRound13 ProofWhere ProofInsert.

(** ** Reading a condition *)

Lemma fold_same a b : equal_fold a b = true <-> same_text a b.
Proof. apply equal_fold_iff. Qed.

Lemma equations_fun e p : equations e p -> forall q, equations e q -> p = q.
Proof.
  induction 1; intros q' H'; inversion H'; subst; [reflexivity|].
  f_equal; auto.
Qed.
Lemma tables_in_fun p l : tables_in p l -> forall l', tables_in p l' -> l = l'.
Proof. induction 1; intros l' H'; inversion H'; subst; try contradiction; f_equal; auto. Qed.

Fixpoint tables_of (p : list (string * string)) : list string :=
  match p with [] => [] | (c, t) :: p' => if equal_fold c "TABLE_NAME" then t :: tables_of p' else tables_of p' end.
Fixpoint database_of (db : string) (p : list (string * string)) : string :=
  match p with [] => db | (c, d) :: p' => database_of (if equal_fold c "TABLE_SCHEMA" then d else db) p' end.

Lemma tables_of_in p : tables_in p (tables_of p).
Proof.
  induction p as [|[c t] p IH]; cbn [tables_of]; [constructor|].
  destruct (equal_fold c "TABLE_NAME") eqn:E; constructor; auto.
  - now apply fold_same. - intro S. apply fold_same in S. congruence.
Qed.
Lemma database_none p : (forall c d, In (c, d) p -> ~ same_text c "TABLE_SCHEMA") -> forall db, database_of db p = db.
Proof.
  induction p as [|[c d] p IH]; intros H db; cbn [database_of]; [reflexivity|].
  destruct (equal_fold c "TABLE_SCHEMA") eqn:E; [apply fold_same in E; exfalso; eapply H; [left; reflexivity|exact E]|].
  apply IH. intros; eapply H; right; eassumption.
Qed.
Lemma database_app p q : forall db, database_of db (p ++ q) = database_of (database_of db p) q.
Proof. induction p as [|[c d] p IH]; intros; cbn; auto. Qed.
Lemma tables_app p q : tables_of (p ++ q) = tables_of p ++ tables_of q.
Proof. induction p as [|[c d] p IH]; cbn; [reflexivity|]. destruct (equal_fold c "TABLE_NAME"); cbn; now rewrite IH. Qed.
Lemma database_in_of db p d : database_in db p d -> d = database_of db p.
Proof.
  intros [p' H|p' c d' q S H]; [symmetry; now apply database_none|].
  rewrite database_app. cbn [database_of]. apply fold_same in S. rewrite S. symmetry. now apply database_none.
Qed.
Lemma database_of_in p : forall db, database_in db p (database_of db p).
Proof.
  induction p as [|[c d] p IH] using rev_ind; intro db; [constructor; intros ? ? []|].
  rewrite database_app. cbn [database_of].
  destruct (equal_fold c "TABLE_SCHEMA") eqn:E.
  - apply (di_last db p c d []); [now apply fold_same|intros ? ? []].
  - specialize (IH db). revert IH. generalize (database_of db p). intros x IH. destruct IH as [p H|p c' d' q S H].
    + constructor. intros c' d' I. apply in_app_or in I. destruct I as [I|[I|[]]]; [eapply H; exact I|].
      injection I as <- <-. intro S. apply fold_same in S. congruence.
    + rewrite <- app_assoc. cbn [app]. apply di_last; [exact S|].
      intros c'' d'' I. apply in_app_or in I. destruct I as [I|[I|[]]]; [eapply H; exact I|].
      injection I as <- <-. intro S'. apply fold_same in S'. congruence.
Qed.

Lemma traverse_equations e p : equations e p -> forall db ts, traverse e db ts = Ok (database_of db p, ts ++ tables_of p).
Proof.
  induction 1 as [c t v|a b p q _ IHa _ IHb]; intros db ts; cbn [traverse].
  - cbn [l_value database_of tables_of].
    destruct (equal_fold (c_name c) "TABLE_SCHEMA") eqn:E; destruct (equal_fold (c_name c) "TABLE_NAME") eqn:E'; rewrite ?app_nil_r; try reflexivity.
    apply fold_same in E, E'. unfold same_text in E, E'. rewrite E in E'. vm_compute in E'. discriminate.
  - rewrite IHa. cbn [rbind fst snd]. rewrite IHb, database_app, tables_app, app_assoc. reflexivity.
Qed.
Lemma traverse_ok e : forall db ts r, traverse e db ts = Ok r -> exists p, equations e p.
Proof.
  induction e as [op c l|a IHa b IHb|]; intros db ts r H; cbn [traverse] in H.
  - destruct op, l as [[v t]|]; try discriminate. cbn [l_value] in H. destruct v; try discriminate. eexists. constructor.
  - destruct (traverse a db ts) as [[d' t']| |] eqn:A; cbn [rbind] in H; try discriminate.
    apply IHa in A as [p P]. apply IHb in H as [q Q]. eexists. constructor; eassumption.
  - discriminate.
Qed.
Lemma traverse_err e : ~ lacks_literal e -> forall db ts, (exists r, traverse e db ts = Ok r) \/ traverse e db ts = Err ErrInvalid.
Proof.
  induction e as [op c l|a IHa b IHb|]; intros L db ts; cbn [traverse].
  - destruct op, l as [[v t]|]; auto; [|exfalso; apply L; constructor]. cbn [l_value]. destruct v; auto. left.
    destruct (equal_fold _ _); [eauto|]. destruct (equal_fold _ _); eauto.
  - destruct (IHa (fun H => L (la_and_l a b H)) db ts) as [[r R]|R]; rewrite R; cbn [rbind]; [|auto].
    apply IHb. intro H. apply L. now apply la_and_r.
  - auto.
Qed.

Lemma read_where entries s e db tables r : sel_where s = Some e ->
  (new_columns_stmt entries db tables (Some s) = Ok r <->
   cs_select r = s /\ exists p, equations e p /\ database_in db p (cs_db r) /\ tables_in p (cs_tables r)).
Proof.
  intros W. cbn [new_columns_stmt]. unfold traverse_select. rewrite W. split.
  - intros H. destruct (traverse e db []) as [x| |] eqn:T; cbn [rbind] in H; try discriminate. injection H as <-. cbn.
    split; [reflexivity|]. destruct (traverse_ok _ _ _ _ T) as [p P]. exists p. rewrite (traverse_equations e p P) in T. injection T as <-. cbn.
    split; [exact P|]. split; [apply database_of_in|apply tables_of_in].
  - destruct r as [s' d ts]. cbn. intros (-> & p & P & D & T). rewrite (traverse_equations e p P). cbn.
    rewrite (database_in_of _ _ _ D), (tables_in_fun _ _ T _ (tables_of_in p)). reflexivity.
Qed.
Lemma read_fails entries s e db tables : sel_where s = Some e -> ~ lacks_literal e -> (forall p, ~ equations e p) ->
  new_columns_stmt entries db tables (Some s) = Err ErrInvalid.
Proof.
  intros W L N. cbn [new_columns_stmt]. unfold traverse_select. rewrite W.
  destruct (traverse_err e L db []) as [[r R]|R]; [|rewrite R; reflexivity].
  apply traverse_ok in R as [p P]. destruct (N _ P).
Qed.

(** ** The generated statements *)

Definition text_eq (c t : string) : expr := ECmp OpEQ (new_column c) (Some (mkLit (VStr t) StringLiteral)).
Definition columns_select (w : condition) : select :=
  mkSelect [mkTbl "information_schema" "information_schema.COLUMNS"] [SelCol (new_column "*")] w [] (mkLimit 0 0) "".

Lemma text_eq_ok c t : name_check c = true -> plain_text t -> comparison_ok (text_eq c t).
Proof. intros C T. constructor; [left; reflexivity|apply any_checked, C|now constructor]. Qed.
Lemma columns_supported w : condition_ok w -> supported (SSelect (columns_select w)).
Proof.
  intros W. constructor. constructor; cbn [sel_tables sel_selectors sel_where sel_order_by sel_limit sel_group_by columns_select].
  - split; [discriminate|]. constructor; [|constructor].
    apply (fo_full "information_schema" "COLUMNS"); apply any_checked; vm_compute; reflexivity.
  - split; [discriminate|]. repeat constructor.
  - exact W.
  - constructor.
  - left; reflexivity.
  - left; reflexivity.
Qed.
Lemma columns_text w : stmt_string (SSelect (columns_select w)) =
  Ok (schema_columns_query ++ match w with Some e => " WHERE " ++ expr_string e | None => "" end)%string.
Proof. destruct w; reflexivity. Qed.
Lemma columns_parse entries w q : Permutation entries data_type_strings -> condition_ok w ->
  q = (schema_columns_query ++ match w with Some e => " WHERE " ++ expr_string e | None => "" end)%string ->
  parse_select entries q = Ok (columns_select w).
Proof.
  intros P W E. destruct (supported_parse entries (SSelect (columns_select w)) P (columns_supported w W)) as (q' & Q & R).
  rewrite columns_text, <- E in Q. assert (q' = q) by congruence. subst q'. unfold parse_select. rewrite R. reflexivity.
Qed.

Lemma columns_query w : is_schema_columns_query (columns_select w) = true.
Proof. reflexivity. Qed.

Lemma generated_none entries db : Permutation entries data_type_strings -> plain_text db -> db <> ""%string ->
  new_columns_stmt entries db [] None = Ok (mkColumnsStmt (columns_select (Some (text_eq "TABLE_SCHEMA" db))) db []).
Proof.
  intros P D N. cbn [new_columns_stmt]. unfold generate_select.
  rewrite (columns_parse entries (Some (text_eq "TABLE_SCHEMA" db))); [reflexivity|exact P| |].
  - constructor. apply text_eq_ok; [reflexivity|exact D].
  - unfold generated_query. destruct db as [|x db]; [congruence|]. rewrite append_nil_r. reflexivity.
Qed.
Lemma generated_one entries db t : Permutation entries data_type_strings -> plain_text db -> db <> ""%string -> plain_text t ->
  new_columns_stmt entries db [t] None =
  Ok (mkColumnsStmt (columns_select (Some (EAnd (text_eq "TABLE_SCHEMA" db) (text_eq "TABLE_NAME" t)))) db [t]).
Proof.
  intros P D N T. cbn [new_columns_stmt]. unfold generate_select.
  rewrite (columns_parse entries (Some (EAnd (text_eq "TABLE_SCHEMA" db) (text_eq "TABLE_NAME" t)))); [reflexivity|exact P| |].
  - constructor; apply text_eq_ok; try exact D; try exact T; reflexivity.
  - unfold generated_query. destruct db as [|x db]; [congruence|]. replace ((0 <? String.length (String x db))%nat) with true by reflexivity.
    cbn [expr_string text_eq opt_literal_string literal_string l_type l_value show_value].
    unfold escape_string. rewrite !sapp_assoc. reflexivity.
Qed.

Lemma names_query entries ts w : Permutation entries data_type_strings -> condition_ok w ->
  table_names_query_text ts = (schema_columns_query ++ match w with Some e => " WHERE " ++ expr_string e | None => "" end)%string ->
  table_names_query entries ts = Ok (columns_select w).
Proof. intros P W E. unfold table_names_query. apply columns_parse; assumption. Qed.
Lemma names_none entries : Permutation entries data_type_strings -> table_names_query entries [] = Ok (columns_select None).
Proof. intros P. apply names_query; [exact P|constructor|reflexivity]. Qed.
Lemma names_one entries t : Permutation entries data_type_strings -> plain_text t ->
  table_names_query entries [t] = Ok (columns_select (Some (text_eq "TABLE_NAME" t))).
Proof.
  intros P T. apply names_query; [exact P|constructor; now apply text_eq_ok|].
  unfold table_names_query_text. cbn [or_names]. rewrite append_nil_r. reflexivity.
Qed.
Lemma names_two entries t u : Permutation entries data_type_strings -> plain_text t -> plain_text u ->
  table_names_query entries [t; u] = Ok (columns_select (Some (EOr (text_eq "TABLE_NAME" t) (text_eq "TABLE_NAME" u)))).
Proof.
  intros P T U. apply names_query; [exact P|constructor; now apply text_eq_ok|].
  unfold table_names_query_text. cbn [or_names expr_string text_eq opt_literal_string literal_string l_type l_value show_value].
  unfold escape_string. rewrite append_nil_r, !sapp_assoc. reflexivity.
Qed.

(** ** The result set *)

Definition described (c : column) : object value :=
  [("TABLE_CATALOG", Some (VStr "def")); ("TABLE_SCHEMA", Some (VStr "information_schema"));
   ("TABLE_NAME", Some (VStr "COLUMNS")); ("COLUMN_NAME", Some (VStr (c_name c)));
   ("DATA_TYPE", Some (VStr match c_def c with Some d => data_type_string (d_type d) | None => "" end))]%string.
Lemma objects_ok cs : (forall c, In c cs -> c_def c <> None) -> objects cs = Ok (map described cs).
Proof.
  induction cs as [|c cs IH]; intros H; [reflexivity|]. cbn [objects map]. unfold column_object, described at 1.
  destruct (c_def c) eqn:D; [|exfalso; eapply H; [left; reflexivity|exact D]]. cbn [rbind].
  rewrite IH by (intros; apply H; right; assumption). reflexivity.
Qed.
Lemma objects_panic cs c : In c cs -> c_def c = None -> objects cs = Panic.
Proof.
  induction cs as [|c' cs IH]; intros I D; [destruct I|]. cbn [objects]. unfold column_object.
  destruct I as [->|I]; [rewrite D; reflexivity|]. destruct (c_def c'); [|reflexivity]. cbn [rbind]. rewrite IH by assumption. reflexivity.
Qed.

Section ReadBack.
  Context (entries : list (dtype * string)) (to_str : option value -> option string) (other : option value -> result dtype).
  Lemma read_loop (f : object value -> result sys_column) rows cols :
    (N.of_nat (S (length rows)) < 2 ^ 64)%N ->
    (forall o, In o rows -> rbind (new_row_from_object cols o) (column_of_row entries to_str other) = f o) ->
    forall fuel k, k <= length rows -> length rows - k < fuel ->
    forall out, Forall2 (fun o c => f o = Ok c) (skipn k rows) out ->
    columns_from_result_set entries to_str other fuel cols (rs_advance k (new_rset rows 0 0)) = Some (Ok out).
  Proof.
    intros B F fuel. induction fuel as [|fuel IH]; intros k Hk Hf out O; [lia|].
    assert (W : window rows 0 0 = rows) by reflexivity.
    cbn [columns_from_result_set]. rewrite (surjective_pairing (rs_next _)), <- advance_S.
    pose proof (nth_next_spec rows 0 0 (S k) ltac:(cbn; lia)) as E. unfold nth_next in E.
    replace (S k - 1) with k in E by lia. rewrite W in E. rewrite E by (cbn; lia).
    destruct (Nat.leb_spec (S k) (length rows)).
    - destruct (nth_error rows k) as [o|] eqn:En; [|apply nth_error_None in En; lia].
      rewrite (skipn_cons_nth _ _ _ En) in O. inversion O as [|? c ? out' Fo O']; subst.
      unfold rs_row. rewrite current_spec by (rewrite ?W; cbn; lia). replace (S k - 1) with k by lia.
      change (skipn (N.to_nat 0) rows) with rows. rewrite En. cbn [rbind]. rewrite F by (eapply nth_error_In; exact En). rewrite Fo.
      rewrite (IH (S k)) with (out := out') by (try lia; assumption). reflexivity.
    - rewrite skipn_all2 in O by lia. inversion O. reflexivity.
  Qed.
End ReadBack.

Definition sys_described (c : column) : sys_column :=
  mkSysColumn "def" "information_schema" "COLUMNS" (c_name c) match c_def c with Some d => d_type d | None => UnknownData end.

Lemma typed_row entries to_str other c : Permutation entries data_type_strings -> (forall s, to_str (Some (VStr s)) = Some s) ->
  (exists df n, c_def c = Some df /\ named_type (d_type df) n) ->
  rbind (new_row_from_object columns_schema (described c)) (column_of_row entries to_str other) = Ok (sys_described c).
Proof.
  intros P S (df & n & D & T). unfold described, sys_described. rewrite D.
  assert (N : data_type_string (d_type df) = n).
  { apply named_type_iff in T. revert T. generalize (d_type df). intros t T.
    assert (A : forallb (fun e => String.eqb (data_type_string (fst e)) (snd e)) data_type_strings = true) by (vm_compute; reflexivity).
    rewrite forallb_forall in A. apply A in T. cbn in T. now apply String.eqb_eq in T. }
  rewrite N. cbn. unfold str_option. rewrite !S. cbn.
  destruct (data_type_parse entries n P) as [G _]. rewrite (G _ _ T) by (left; reflexivity). reflexivity.
Qed.

Lemma from_schemas entries to_str other schemas : Permutation entries data_type_strings -> (forall s, to_str (Some (VStr s)) = Some s) ->
  Forall typed_schema schemas -> (N.of_nat (S (length (concat (map s_columns schemas)))) < 2 ^ 64)%N ->
  exists rs, result_set_from_schemas schemas = Ok rs /\
    columns_from_result_set entries to_str other (S (length (concat (map s_columns schemas)))) columns_schema rs =
    Some (Ok (map sys_described (concat (map s_columns schemas)))).
Proof.
  intros P S T B. set (cs := concat (map s_columns schemas)) in *.
  assert (D : forall c, In c cs -> exists df n, c_def c = Some df /\ named_type (d_type df) n).
  { intros c I. apply in_concat in I as (l & I & J). apply in_map_iff in I as (s & <- & I). rewrite Forall_forall in T. exact (T s I c J). }
  exists (new_rset (map described cs) 0 0). split.
  - unfold result_set_from_schemas. fold cs. rewrite objects_ok; [reflexivity|]. intros c I E. destruct (D c I) as (df & n & E' & _). congruence.
  - change (new_rset (map described cs) 0 0) with (rs_advance 0 (new_rset (map described cs) 0 0)).
    apply (read_loop entries to_str other (fun o => rbind (new_row_from_object columns_schema o) (column_of_row entries to_str other))).
    + rewrite map_length. exact B.
    + reflexivity.
    + lia.
    + rewrite map_length. lia.
    + cbn [skipn]. clear B. induction cs as [|c cs IH]; constructor; [|apply IH; intros; apply D; right; assumption].
      apply typed_row; auto. apply D. left. reflexivity.
Qed.

Lemma sys_lookup cs n :
  (forall c, sys_lookup_column cs n = Ok c -> exists i, first_match (fun c => same_text (sc_name c) n) cs i c) /\
  (forall i c, first_match (fun c => same_text (sc_name c) n) cs i c -> sys_lookup_column cs n = Ok c) /\
  (no_match (fun c => same_text (sc_name c) n) cs -> sys_lookup_column cs n = Err ErrNotFound).
Proof.
  induction cs as [|c cs (IH1 & IH2 & IH3)]; cbn [sys_lookup_column].
  - split; [discriminate|]. split; [|reflexivity]. intros [|i] c ([=] & _).
  - destruct (equal_fold (sc_name c) n) eqn:E.
    + apply fold_same in E. split; [|split].
      * intros c' [= <-]. exists 0. split; [reflexivity|]. split; [exact E|lia].
      * intros [|i] c' (H & _ & F); [injection H as <-; reflexivity|]. destruct (F 0 c); [lia|reflexivity|exact E].
      * intros N. destruct (N c); [left; reflexivity|exact E].
    + assert (E' : ~ same_text (sc_name c) n) by (intro S; apply fold_same in S; congruence). split; [|split].
      * intros c' H. apply IH1 in H as (i & H & M & F). exists (S i). split; [exact H|]. split; [exact M|].
        intros [|m] y L Y; [injection Y as <-; exact E'|apply (F m); [lia|exact Y]].
      * intros [|i] c' (H & M & F); [injection H as <-; contradiction|]. apply (IH2 i). split; [exact H|]. split; [exact M|].
        intros m y L Y. apply (F (S m)); [lia|exact Y].
      * intros N. apply IH3. intros x I. apply N. right. exact I.
Qed.
