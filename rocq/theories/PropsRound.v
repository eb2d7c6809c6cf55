(** Properties C34, C43, C44 and C45: printing and reading statements. *)
From Coq Require Import Permutation.
From Verif Require Import GoBase ModelUtil ModelNum ModelFn ModelQuery ModelEbnf ModelGrammar ModelLex ModelVisitor
  SpecFn SpecRound SpecBatch SpecWhere ProofFn ProofRound3 ProofRound13 ProofWhere ProofInsert.

(** C34: two conditions over comparisons of a column with a literal have the same text exactly when they
    have the same comparisons and connectives in the same order. *)
Theorem C34_text_partial : forall c d, plain_expr c -> plain_expr d ->
  (expr_string c = expr_string d <-> groups c = groups d).
Proof. exact where_text. Qed.
Print Assumptions C34_text_partial.
(** Without an OR below an AND the text, read as SQL is, means what the condition means. *)
Theorem C34_meaning_partial : forall v e, or_of_ands e -> text_holds v (groups e) = holds v e.
Proof. exact text_meaning. Qed.
Print Assumptions C34_meaning_partial.
Theorem C34_same_meaning_partial : forall c d, plain_expr c -> plain_expr d -> or_of_ands c -> or_of_ands d ->
  expr_string c = expr_string d -> forall v, holds v c = holds v d.
Proof.
  intros c d C D Oc Od E v. apply (proj1 (where_text c d C D)) in E. rewrite <- (text_meaning v c Oc), <- (text_meaning v d Od), E. reflexivity.
Qed.
Print Assumptions C34_same_meaning_partial.
(** Otherwise it may mean something else: no parentheses are printed. *)
Definition eq_lit (c n : string) : expr := ECmp OpEQ (new_column c) (Some (mkLit (VStr n) UnknownLiteral)).
Theorem C34_or_below_and_refuted : forall a b c, plain_expr a -> plain_expr b -> plain_expr c ->
  plain_expr (EAnd a (EOr b c)) /\ plain_expr (EOr (EAnd a b) c) /\
  expr_string (EAnd a (EOr b c)) = expr_string (EOr (EAnd a b) c) /\
  forall v, holds v a = false -> holds v c = true -> holds v (EAnd a (EOr b c)) <> holds v (EOr (EAnd a b) c).
Proof.
  intros a b c A B C. split; [apply pe_and; [exact A|apply pe_or; assumption]|]. split; [apply pe_or; [apply pe_and; assumption|exact C]|]. split.
  - cbn [expr_string]. rewrite !sapp_assoc. reflexivity.
  - intros v Ha Hc. cbn [holds]. rewrite Ha, Hc. destruct (holds v b); discriminate.
Qed.
Print Assumptions C34_or_below_and_refuted.
Example C34_or_below_and_example : plain_expr (eq_lit "a" "1") /\ plain_expr (eq_lit "b" "2") /\ plain_expr (eq_lit "c" "3") /\
  exists v, holds v (eq_lit "a" "1") = false /\ holds v (eq_lit "c" "3") = true.
Proof.
  assert (P : forall c n, (c = "a" \/ c = "b" \/ c = "c")%string -> (n = "1" \/ n = "2" \/ n = "3")%string -> plain_expr (eq_lit c n)).
  { intros c n C N. constructor. constructor; [left; reflexivity|apply name_any|].
    - split.
      + destruct C as [->|[->| ->]]; (eexists _, _; split; [reflexivity|]; split; [right; left; cbn; lia|intros x []]).
      + intros (k & H). destruct C as [->|[->| ->]]; vm_compute in H; repeat destruct H as [H|H]; try discriminate; contradiction.
    - apply lo_number. left. destruct N as [->|[->| ->]]; (split; [discriminate|]; intros x [<-|[]]; unfold digit; cbn; lia). }
  split; [apply P; auto|]. split; [apply P; auto|]. split; [apply P; auto|].
  exists (fun e => match e with ECmp _ c _ => String.eqb (c_name c) "c" | _ => false end). split; reflexivity.
Qed.

(** C43: what a supported statement prints is read as that statement again. *)
Theorem C43_read_back : forall entries s, Permutation entries data_type_strings -> supported s ->
  exists q, stmt_string s = Ok q /\ parse entries q = Ok [s].
Proof. exact supported_parse. Qed.
Print Assumptions C43_read_back.
(** so that no two of them print the same *)
Theorem C43_distinct : forall s s', supported s -> supported s' -> stmt_string s = stmt_string s' -> s = s'.
Proof. exact supported_inj. Qed.
Print Assumptions C43_distinct.

Example C43_example :
  let s := SSelect (mkSelect [new_table "t"; new_table "u"] [SelFn (new_func "MAX" ["a"]); SelCol (new_column "b")]
                             (Some (EAnd (eq_lit "a" "1") (eq_lit "b" "2"))) [mkOrder "b" OrderDesc] (mkLimit 3 10) "") in
  supported s /\ stmt_string s = Ok "SELECT MAX(a), b FROM t, u WHERE a = 1 AND b = 2 ORDER BY b DESC LIMIT 10 OFFSET 3".
Proof.
  split; [|vm_compute; reflexivity]. constructor. constructor; cbn [sel_tables sel_selectors sel_where sel_order_by sel_limit sel_group_by].
  - split; [discriminate|]. constructor; [|constructor; [|constructor]]; apply fo_name, any_checked; vm_compute; reflexivity.
  - split; [discriminate|]. constructor; [|constructor; [|constructor]].
    + apply (se_function "MAX" ["a"]); [apply any_checked; vm_compute; reflexivity|reflexivity|]. constructor; [left; apply any_checked; vm_compute; reflexivity|constructor].
    + constructor. apply any_checked; vm_compute; reflexivity.
  - assert (P : forall c n, name_check c = true -> (n = "1" \/ n = "2")%string -> comparison_ok (eq_lit c n)).
    { intros c n C N. constructor; [left; reflexivity|apply any_checked; exact C|].
      apply lo_number. left. destruct N as [->| ->]; (split; [discriminate|]; intros x [<-|[]]; unfold digit; cbn; lia). }
    apply cn_and; apply P; auto; vm_compute; reflexivity.
  - constructor; [|constructor]. constructor; [apply any_checked; vm_compute; reflexivity|discriminate].
  - right. cbn. lia.
  - left. reflexivity.
Qed.
(** names in quotes *)
Example C43_quotes_example :
  let s := SDelete (new_table "`order`") (Some (ECmp OpEQ (new_column "[unit price]") (Some (mkLit (VStr "x") StringLiteral)))) in
  supported s /\ stmt_string s = Ok "DELETE FROM `order` WHERE [unit price] = 'x'".
Proof.
  split; [|vm_compute; reflexivity]. constructor.
  - constructor. right. apply (ib_back "order"). repeat (apply db_char; [discriminate|]). apply db_end.
  - constructor. constructor; [left; reflexivity| |].
    + left. right. apply (iq_bracket "unit price"). intros c I. cbn in I. repeat destruct I as [<-|I]; try discriminate. contradiction.
    + apply lo_text, quoteless_plain. intros c I. cbn in I. destruct I as [<-|[]]; split; discriminate.
Qed.
(** What is not in [supported] is left out for a reason: it is not read back. *)
Definition text_of_stmt (s : stmt) : string := match stmt_string s with Ok q => q | _ => "" end.
Definition reads_back (s : stmt) : Prop := parse data_type_strings (text_of_stmt s) = Ok [s].
(** a quote in a string *)
Theorem C43_quote_refuted : ~ reads_back (SDelete (new_table "t") (Some (ECmp OpEQ (new_column "a") (Some (mkLit (VStr "it's") StringLiteral))))).
Proof. unfold reads_back. vm_compute. discriminate. Qed.
Print Assumptions C43_quote_refuted.
(** GROUP BY and ORDER BY *)
Theorem C43_group_order_refuted : ~ reads_back (SSelect (mkSelect [new_table "t"] [SelCol (new_column "a")] None [mkOrder "a" OrderAsc] (mkLimit 0 0) "a")).
Proof. unfold reads_back. vm_compute. discriminate. Qed.
Print Assumptions C43_group_order_refuted.
(** three comparisons *)
Theorem C43_three_refuted : ~ reads_back (SDelete (new_table "t") (Some (EAnd (eq_lit "a" "1") (EAnd (eq_lit "b" "2") (eq_lit "c" "3"))))).
Proof. unfold reads_back. vm_compute. discriminate. Qed.
Print Assumptions C43_three_refuted.
(** BINARY columns *)
Theorem C43_binary_refuted : ~ reads_back (SCreateTable (new_schema "t" [new_def_column "a" (new_data_def BinaryType 8)] []) false).
Proof. unfold reads_back. vm_compute. discriminate. Qed.
Print Assumptions C43_binary_refuted.
(** a secondary index in CREATE TABLE *)
Theorem C43_table_index_refuted : ~ reads_back
  (SCreateTable (new_schema "t" [new_def_column "a" (new_data_def IntType (-1)); new_def_column "b" (new_data_def IntType (-1))] [secondary_index "i" [new_column "a"; new_column "b"]]) false).
Proof. unfold reads_back. vm_compute. discriminate. Qed.
Print Assumptions C43_table_index_refuted.
(** a table with a schema name *)
Theorem C43_schema_refuted : ~ reads_back (SInsert (mkTbl "db" "t") [[new_value_column "a" (mkLit (VStr "1") UnknownLiteral)]]).
Proof. unfold reads_back. vm_compute. discriminate. Qed.
Print Assumptions C43_schema_refuted.
(** dropping a column *)
Theorem C43_drop_column_refuted : ~ reads_back (SAlterTable (mkAlter (new_table "t") None None None None (Some (new_column "c")) None)).
Proof. unfold reads_back. vm_compute. discriminate. Qed.
Print Assumptions C43_drop_column_refuted.

(** C44: several statements with semicolons between them, with any blanks and further semicolons around. *)
Theorem C44_batch : forall entries lead ss text, Permutation entries data_type_strings -> gap lead -> batch ss text ->
  parse entries (lead ++ text) = Ok ss.
Proof. exact batch_back. Qed.
Print Assumptions C44_batch.

Example C44_example : batch [SBegin; SUse "db"; SCommit] "BEGIN;  USE db;;COMMIT ;" /\ gap " ; ".
Proof.
  assert (G : forall s, forallb (fun c => existsb (Nat.eqb (nat_of_ascii c)) [32; 9; 10; 13; 59]) (list_ascii_of_string s) = true -> gap s).
  { intros s H c I. rewrite forallb_forall in H. specialize (H c I). apply existsb_exists in H. destruct H as (n & N & E). apply Nat.eqb_eq in E.
    unfold blank_char. cbn [In] in *. destruct N as [<-|[<-|[<-|[<-|[<-|[]]]]]]; try (left; rewrite E; tauto).
    right. rewrite <- (ascii_nat_embedding c), E. reflexivity. }
  split; [|apply G; reflexivity].
  apply (b_more SBegin "BEGIN" ";  "); [constructor|reflexivity|split; [apply G; reflexivity|left; reflexivity]|].
  apply (b_more (SUse "db") "USE db" ";;"); [constructor; apply any_checked; vm_compute; reflexivity|reflexivity|split; [apply G; reflexivity|left; reflexivity]|].
  apply (b_last SCommit "COMMIT" " ;"); [constructor|reflexivity|apply G; reflexivity].
Qed.

(** C45: the values of an INSERT are paired with the columns in order, whatever their number. *)
Theorem C45_insert : forall entries t cols rows, bare_name t -> some any_name cols -> some (some literal_ok) rows ->
  parse entries ("INSERT INTO " ++ t ++ " (" ++ join ", " cols ++ ") VALUES "
                 ++ join ", " (map (fun r => "(" ++ join ", " (map literal_string r) ++ ")") rows))%string
  = Ok [SInsert (new_table t) (map (fun r => map (fun p => new_value_column (fst p) (snd p)) (combine cols r)) rows)].
Proof. exact insert_bare. Qed.
Print Assumptions C45_insert.
(** in particular, with as many values as columns the i-th column holds the i-th value *)
Theorem C45_pairs : forall entries t cols vals, bare_name t -> some any_name cols -> some literal_ok vals -> length vals = length cols ->
  exists row, parse entries ("INSERT INTO " ++ t ++ " (" ++ join ", " cols ++ ") VALUES (" ++ join ", " (map literal_string vals) ++ ")")%string
    = Ok [SInsert (new_table t) [row]] /\
  map c_name row = cols /\ map c_lit row = map Some vals.
Proof.
  intros entries t cols vals N C V L. eexists. split.
  - assert (R : some (some literal_ok) [vals]) by (split; [discriminate|constructor; [exact V|constructor]]).
    pose proof (insert_bare entries t cols [vals] N C R) as H.
    cbn [map join] in H. exact H.
  - rewrite !map_map. cbn [c_name c_lit new_value_column]. clear N C V. split.
    + revert vals L. induction cols as [|c cols IH]; intros [|v vals] L; try discriminate; [reflexivity|]. cbn [combine map fst]. rewrite IH by (cbn in L; lia). reflexivity.
    + revert vals L. induction cols as [|c cols IH]; intros [|v vals] L; try discriminate; [reflexivity|]. cbn [combine map snd]. rewrite IH by (cbn in L; lia). reflexivity.
Qed.
Print Assumptions C45_pairs.
Example C45_example : bare_name "t" /\ some any_name ["a"; "b"; "`c d`"] /\ some literal_ok [mkLit (VStr "1") UnknownLiteral; mkLit (VStr "x y") StringLiteral].
Proof.
  split; [apply bare_checked; vm_compute; reflexivity|].
  split; [split; [discriminate|]; constructor; [|constructor; [|constructor; [|constructor]]]; try (apply any_checked; vm_compute; reflexivity)|].
  { right. apply (ib_back "c d"). repeat (apply db_char; [discriminate|]). apply db_end. }
  split; [discriminate|]. constructor; [|constructor; [|constructor]].
  - apply lo_number. left. split; [discriminate|]. intros x [<-|[]]; unfold digit; cbn; lia.
  - apply lo_text, quoteless_plain. intros c I. cbn in I. destruct I as [<-|[<-|[<-|[]]]]; split; discriminate.
Qed.
(** values without a column are dropped without an error *)
Theorem C45_surplus_refuted : forall entries t cols vals, bare_name t -> some any_name cols -> some literal_ok vals -> length cols < length vals ->
  exists row, parse entries ("INSERT INTO " ++ t ++ " (" ++ join ", " cols ++ ") VALUES (" ++ join ", " (map literal_string vals) ++ ")")%string
    = Ok [SInsert (new_table t) [row]] /\
  map c_name row = cols /\ map c_lit row = map Some (firstn (length cols) vals).
Proof.
  intros entries t cols vals N C V L. eexists. split.
  - assert (R : some (some literal_ok) [vals]) by (split; [discriminate|constructor; [exact V|constructor]]).
    pose proof (insert_bare entries t cols [vals] N C R) as H.
    cbn [map join] in H. exact H.
  - rewrite !map_map. cbn [c_name c_lit new_value_column]. clear N C V. split.
    + revert vals L. induction cols as [|c cols IH]; intros [|v vals] L; try (cbn in L; lia); [reflexivity|]. cbn [combine map fst]. rewrite IH by (cbn in L; lia). reflexivity.
    + revert vals L. induction cols as [|c cols IH]; intros [|v vals] L; try (cbn in L; lia); [reflexivity|]. cbn [length combine map snd firstn]. rewrite IH by (cbn in L; lia). reflexivity.
Qed.
Print Assumptions C45_surplus_refuted.
