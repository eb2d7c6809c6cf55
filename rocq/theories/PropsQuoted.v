(** Property C74: a name in quotes stands for the text between the quotes. *)
From Coq Require Import Lia Permutation.
From Verif Require Import GoBase FactsBase ModelUtil ModelNum ModelFn ModelQuery ModelEbnf ModelGrammar ModelLex ModelVisitor
  SpecFn SpecQuery SpecRound SpecQuoted ProofFn ProofTime ProofQuery ProofLex ProofRound2 ProofRound3 ProofRound4 ProofRound13 ProofInsert ProofWhere ProofQuoted.

(** INSERT, CREATE and DROP TABLE, CREATE and DROP INDEX and the new name of ALTER TABLE RENAME take back quotes off. *)
Theorem C74_drop_table_partial : forall entries xs ns, Forall2 written xs ns -> xs <> [] ->
  parse entries ("DROP TABLE " ++ join ", " xs) = Ok [SDropTable (map new_table ns) false].
Proof. exact drop_table_written. Qed.
Print Assumptions C74_drop_table_partial.
Theorem C74_create_table_partial : forall entries x n cols, Permutation entries data_type_strings -> written x n -> Forall col_written cols -> cols <> [] ->
  parse entries ("CREATE TABLE " ++ x ++ " (" ++ columns_text cols ++ ")") = Ok [SCreateTable (new_schema n (columns_of cols) []) false].
Proof. exact create_table_written. Qed.
Print Assumptions C74_create_table_partial.
Theorem C74_insert_partial : forall entries x n cols rows, written x n -> some any_name cols -> some (some literal_ok) rows ->
  parse entries ("INSERT INTO " ++ x ++ " (" ++ join ", " cols ++ ") VALUES "
                 ++ join ", " (map (fun r => "(" ++ join ", " (map literal_string r) ++ ")") rows))%string
  = Ok [SInsert (new_table n) (map (fun r => map (fun p => new_value_column (fst p) (snd p)) (combine cols r)) rows)].
Proof. exact insert_written. Qed.
Print Assumptions C74_insert_partial.
Theorem C74_create_index_partial : forall entries i j t u cs ds, written i j -> written t u -> Forall2 written cs ds -> cs <> [] ->
  parse entries ("CREATE INDEX " ++ i ++ " ON " ++ t ++ "(" ++ join ", " cs ++ ")") = Ok [SCreateIndex (new_schema u [] [secondary_index j (map new_column ds)]) false].
Proof. exact create_index_written. Qed.
Print Assumptions C74_create_index_partial.
Theorem C74_drop_index_partial : forall entries x n, written x n -> parse entries ("DROP INDEX " ++ x) = Ok [SDropIndex "" n false].
Proof. exact drop_index_written. Qed.
Print Assumptions C74_drop_index_partial.
Theorem C74_rename_partial : forall entries t x n, any_name t -> written x n ->
  parse entries ("ALTER TABLE " ++ t ++ " RENAME TO " ++ x) = Ok [SAlterTable (mkAlter (new_table t) (Some (new_table n)) None None None None None)].
Proof. exact rename_written. Qed.
Print Assumptions C74_rename_partial.
Example C74_example : written "`unit price`" "unit price" /\ written "orders" "orders" /\ col_written (mkColText "`unit price`" "unit price" DoubleType)
  /\ parse data_type_strings "CREATE TABLE orders (`unit price` DOUBLE)" = Ok [SCreateTable (new_schema "orders" [new_def_column "unit price" (new_data_def DoubleType (-1))] []) false].
Proof.
  assert (B : written "`unit price`" "unit price").
  { apply (wr_back "unit price").
    - intros c I. cbn in I. repeat destruct I as [<-|I]; try discriminate. contradiction.
    - intros c r E. injection E as <- _. unfold edge. cbn. intuition discriminate.
    - intros c r E. apply (f_equal srev) in E. rewrite srev_append in E. vm_compute in E. injection E as <- _. unfold edge. cbn. intuition discriminate. }
  split; [exact B|]. split; [apply wr_word, name_checked; vm_compute; reflexivity|].
  split; [split; [exact B|split; cbn; intuition discriminate]|vm_compute; reflexivity].
Qed.

(** The other statements, and the columns of INSERT, keep the quotes: there the name is never the text between them. *)
Lemma enclosed_differ x b : enclosed x b -> x <> b.
Proof.
  assert (L : forall a b c, String a (b ++ String c "") <> b).
  { intros a b' c E. apply (f_equal String.length) in E. cbn [String.length] in E. rewrite slen_app in E. cbn in E. lia. }
  intros [b' _|b' _|b' _]; apply L.
Qed.
Lemma enclosed_any x b : enclosed x b -> any_name x.
Proof. intros [b' D|b' D|b' D]; [right|left; right|left; right]; constructor; exact D. Qed.
Theorem C74_kept_refuted : forall entries x b, Permutation entries data_type_strings -> enclosed x b -> x <> b /\
  parse entries ("SELECT " ++ x ++ " FROM " ++ x) = Ok [SSelect (mkSelect [new_table x] [SelCol (new_column x)] None [] (mkLimit 0 0) "")] /\
  parse entries ("DELETE FROM " ++ x) = Ok [SDelete (new_table x) None] /\
  parse entries ("TRUNCATE TABLE " ++ x) = Ok [STruncate [new_table x]] /\
  parse entries ("VACUUM " ++ x) = Ok [SVacuum (Some (new_table x))] /\
  parse entries ("USE " ++ x) = Ok [SUse x] /\
  parse entries ("UPDATE " ++ x ++ " SET " ++ x ++ " = 1") = Ok [SUpdate (new_table x) [new_value_column x (mkLit (VStr "1") UnknownLiteral)] None] /\
  parse entries ("INSERT INTO t (" ++ x ++ ") VALUES (1)") = Ok [SInsert (new_table "t") [[new_value_column x (mkLit (VStr "1") UnknownLiteral)]]].
Proof.
  intros entries x b HP E. pose proof (enclosed_any x b E) as X.
  assert (One : literal_ok (mkLit (VStr "1") UnknownLiteral)) by (apply lo_number; left; split; [discriminate|intros c [<-|[]]; split; cbn; lia]).
  assert (F : full_table_name (new_table x) = x) by apply full_name_of_name.
  assert (P : forall s q, supported s -> stmt_string s = Ok q -> parse entries q = Ok [s]).
  { intros s q S Q. destruct (supported_parse entries s HP S) as (q' & Q' & H). congruence. }
  split; [exact (enclosed_differ x b E)|]. clear E. 
  split; [|split; [|split; [|split; [|split; [|split]]]]].
  - apply P.
    + constructor. constructor; cbn [sel_tables sel_selectors sel_where sel_order_by sel_limit sel_group_by].
      * split; [discriminate|]. constructor; [apply fo_name; exact X|constructor].
      * split; [discriminate|]. constructor; [|constructor]. constructor. exact X.
      * constructor.
      * constructor.
      * left; reflexivity.
      * left; reflexivity.
    + cbn [stmt_string]. unfold select_string, tables_string. cbn [sel_tables map]. rewrite F. cbn. rewrite ?append_nil_r, ?sapp_assoc. reflexivity.
  - apply P; [constructor; [constructor; exact X|constructor]|]. cbn [stmt_string]. rewrite F. cbn. rewrite ?append_nil_r. reflexivity.
  - apply P; [constructor; split; [discriminate|constructor; [constructor; exact X|constructor]]|]. cbn [stmt_string]. unfold tables_string. cbn [map]. rewrite F. reflexivity.
  - apply P; [constructor; constructor; exact X|]. cbn [stmt_string]. rewrite F. reflexivity.
  - apply P; [constructor; exact X|]. reflexivity.
  - apply P; [constructor; [constructor; exact X| |constructor]|].
    + split; [discriminate|constructor; [constructor; [exact X|exact One]|constructor]].
    + cbn [stmt_string]. rewrite F. cbn. rewrite ?append_nil_r, ?sapp_assoc. reflexivity.
  - apply (insert_bare entries "t" [x] [[mkLit (VStr "1") UnknownLiteral]]).
    + apply bare_checked. vm_compute. reflexivity.
    + split; [discriminate|constructor; [exact X|constructor]].
    + split; [discriminate|]. constructor; [|constructor]. split; [discriminate|]. constructor; [exact One|constructor].
Qed.
Print Assumptions C74_kept_refuted.
(** Double quotes and brackets are kept everywhere. *)
Theorem C74_other_refuted : forall entries x b, in_quotes x -> enclosed x b -> x <> b /\
  parse entries ("DROP TABLE " ++ x) = Ok [SDropTable [new_table x] false] /\
  parse entries ("DROP INDEX " ++ x) = Ok [SDropIndex "" x false] /\
  parse entries ("INSERT INTO " ++ x ++ " (a) VALUES (1)") = Ok [SInsert (new_table x) [[new_value_column "a" (mkLit (VStr "1") UnknownLiteral)]]].
Proof.
  intros entries x b Q E. split; [exact (enclosed_differ x b E)|]. pose proof (bare_is x (or_intror Q)) as B. split; [|split].
  - pose proof (reads_parse _ _ _ (drop_table_any entries x [] false (proj1 B) (Forall_nil _))) as H. cbn [map] in H. rewrite (proj2 B) in H. rewrite <- H. f_equal.
    pose proof (drop_table_text x [] false) as T. apply ok_inj in T. rewrite <- T. unfold tables_string. cbn [map]. rewrite full_name_of_name. reflexivity.
  - pose proof (reads_parse _ _ _ (drop_index_any entries x (proj1 B))) as H. rewrite (proj2 B) in H. rewrite <- H. f_equal.
    rewrite glue_spaced. cbn [map]. rewrite glue_one. reflexivity.
  - apply (insert_bare entries x ["a"%string] [[mkLit (VStr "1") UnknownLiteral]]).
    + right. exact Q.
    + split; [discriminate|constructor; [apply any_checked; vm_compute; reflexivity|constructor]].
    + split; [discriminate|]. constructor; [|constructor]. split; [discriminate|]. constructor; [|constructor].
      apply lo_number; left; split; [discriminate|intros c [<-|[]]; split; cbn; lia].
Qed.
Print Assumptions C74_other_refuted.
(** Where they are taken off, so are parentheses and single quotes at the ends; a back quote that is written twice stays so;
    a column with the name of a key disappears; and the name is printed without quotes. *)
Theorem C74_ends_refuted : parse data_type_strings "DROP TABLE `(a)`" = Ok [SDropTable [new_table "a"] false].
Proof. vm_compute. reflexivity. Qed.
Print Assumptions C74_ends_refuted.
Theorem C74_twice_refuted : parse data_type_strings "DROP TABLE `a``b`" = Ok [SDropTable [new_table "a``b"] false].
Proof. vm_compute. reflexivity. Qed.
Print Assumptions C74_twice_refuted.
Theorem C74_key_refuted : parse data_type_strings "CREATE TABLE t (a INT, `KEY` INT)" = Ok [SCreateTable (new_schema "t" [new_def_column "a" (new_data_def IntType (-1))] []) false].
Proof. vm_compute. reflexivity. Qed.
Print Assumptions C74_key_refuted.
Theorem C74_printed_refuted : exists s q, parse data_type_strings "DROP TABLE `my table`" = Ok [s] /\ stmt_string s = Ok q /\ q = "DROP TABLE my table"%string
  /\ forall l, parse data_type_strings q <> Ok l.
Proof.
  exists (SDropTable [new_table "my table"] false), "DROP TABLE my table"%string. split; [vm_compute; reflexivity|]. split; [reflexivity|]. split; [reflexivity|].
  intros l. vm_compute. discriminate.
Qed.
Print Assumptions C74_printed_refuted.
