(** Property C63: the names a statement reports. *)
From Coq Require Import Permutation.
From Verif Require Import GoBase FactsBase ModelUtil ModelNum ModelFn ModelQuery ModelEbnf ModelGrammar ModelLex ModelVisitor
  SpecFn SpecQuery SpecRound ProofFn ProofRound3 ProofRound4 ProofRound11 ProofRound12 ProofRound13 ProofWhere.

(** the text of a condition, after a blank *)
Definition where_text (w : condition) : string := match w with Some e => " WHERE " ++ expr_string e | None => "" end.

Lemma full_only x : x <> ""%string -> full_table_name (new_table x) = x.
Proof. destruct x; [congruence|]. intros _. unfold full_table_name. cbn [t_name t_schema new_table]. destruct (negb _); reflexivity. Qed.
Lemma dotted_full s t : full_table_name (new_table (s ++ "." ++ t)) = (s ++ "." ++ t)%string.
Proof. apply full_only. destruct s; discriminate. Qed.

(** C63: a table that is written with its schema name has it in its full name, and SELECT and ALTER TABLE
    report it as the schema name. *)
Theorem C63_select : forall entries s t w, Permutation entries data_type_strings -> any_name s -> any_name t -> condition_ok w ->
  exists x, parse entries ("SELECT * FROM " ++ s ++ "." ++ t ++ where_text w) = Ok [SSelect (mkSelect [x] [SelCol (new_column "*")] w [] (mkLimit 0 0) "")] /\
    full_table_name x = (s ++ "." ++ t)%string /\ t_schema x = s.
Proof.
  intros entries s t w P S T W.
  assert (F : full_table_name (mkTbl s (s ++ "." ++ t)) = (s ++ "." ++ t)%string) by (apply dotted_name, any_is, S).
  exists (mkTbl s (s ++ "." ++ t)). split; [|split; [exact F|reflexivity]].
  destruct (supported_parse entries (SSelect (mkSelect [mkTbl s (s ++ "." ++ t)] [SelCol (new_column "*")] w [] (mkLimit 0 0) "")) P) as (q & Q & R).
  { constructor. constructor; cbn [sel_tables sel_selectors sel_where sel_order_by sel_limit sel_group_by].
    - split; [discriminate|]. constructor; [|constructor]. now apply fo_full.
    - split; [discriminate|]. repeat constructor.
    - exact W.
    - constructor.
    - left; reflexivity.
    - left; reflexivity. }
  rewrite <- R. f_equal.
  cbn [stmt_string] in Q. unfold select_string in Q. cbn [sel_tables] in Q. unfold tables_string in Q. cbn [map] in Q. rewrite F in Q.
  injection Q as <-. unfold where_text. destruct w; cbn; rewrite ?append_nil_r, ?sapp_assoc; reflexivity.
Qed.
Print Assumptions C63_select.
Theorem C63_alter : forall entries s t u, Permutation entries data_type_strings -> bare_name s -> any_name t -> chars (fun c => c <> "."%char) t -> bare_name u ->
  exists x, parse entries ("ALTER TABLE " ++ s ++ "." ++ t ++ " RENAME TO " ++ u) =
      Ok [SAlterTable (mkAlter x (Some (new_table u)) None None None None None)] /\ full_table_name x = (s ++ "." ++ t)%string /\ t_schema x = s /\ t_name x = t.
Proof.
  intros entries s t u P S T D U.
  assert (F : full_table_name (mkTbl s t) = (s ++ "." ++ t)%string) by (apply full_schema; [apply bare_is|apply any_is|]; assumption).
  exists (mkTbl s t). split; [|split; [exact F|split; reflexivity]].
  destruct (supported_parse entries (SAlterTable (mkAlter (mkTbl s t) (Some (new_table u)) None None None None None)) P) as (q & Q & R).
  { constructor. constructor; [apply fu_full; assumption|assumption]. }
  rewrite <- R. f_equal.
  cbn [stmt_string] in Q. unfold alter_string in Q. cbn [al_table al_rename_to al_rename_column al_add_column al_add_index al_drop_column] in Q.
  rewrite F, full_only in Q by (destruct (bare_is u U) as [[H _] _]; intros ->; discriminate H).
  injection Q as <-. cbn. rewrite ?sapp_assoc. reflexivity.
Qed.
Print Assumptions C63_alter.
(** DELETE, UPDATE and COPY keep it in the full name, but report no schema name. *)
Theorem C63_delete_partial : forall entries s t w, Permutation entries data_type_strings -> any_name s -> any_name t -> condition_ok w ->
  exists x, parse entries ("DELETE FROM " ++ s ++ "." ++ t ++ where_text w) = Ok [SDelete x w] /\ full_table_name x = (s ++ "." ++ t)%string /\ t_schema x = ""%string.
Proof.
  intros entries s t w P S T W. exists (new_table (s ++ "." ++ t)). split; [|split; [apply dotted_full|reflexivity]].
  destruct (supported_parse entries (SDelete (new_table (s ++ "." ++ t)) w) P) as (q & Q & R).
  { constructor; [now apply ta_full|exact W]. }
  rewrite <- R. f_equal. cbn [stmt_string] in Q. rewrite dotted_full in Q. injection Q as <-.
  unfold where_text. destruct w; cbn; rewrite ?append_nil_r, ?sapp_assoc; reflexivity.
Qed.
Print Assumptions C63_delete_partial.
Theorem C63_update_partial : forall entries s t c l w, Permutation entries data_type_strings -> any_name s -> any_name t -> any_name c -> literal_ok l -> condition_ok w ->
  exists x, parse entries ("UPDATE " ++ s ++ "." ++ t ++ " SET " ++ c ++ " = " ++ literal_string l ++ where_text w) =
      Ok [SUpdate x [new_value_column c l] w] /\ full_table_name x = (s ++ "." ++ t)%string /\ t_schema x = ""%string.
Proof.
  intros entries s t c l w P S T C L W. exists (new_table (s ++ "." ++ t)). split; [|split; [apply dotted_full|reflexivity]].
  destruct (supported_parse entries (SUpdate (new_table (s ++ "." ++ t)) [new_value_column c l] w) P) as (q & Q & R).
  { constructor; [now apply ta_full| |exact W]. split; [discriminate|]. constructor; [now apply so_value|constructor]. }
  rewrite <- R. f_equal. cbn [stmt_string] in Q. rewrite dotted_full in Q. injection Q as <-.
  unfold where_text, set_string. destruct w; cbn; rewrite ?append_nil_r, ?sapp_assoc; cbn [append]; rewrite ?sapp_assoc; reflexivity.
Qed.
Print Assumptions C63_update_partial.
Example C63_example : any_name "shop" /\ any_name "orders" /\ any_name "total" /\ condition_ok (Some (ECmp OpEQ (new_column "id") (Some (mkLit (VStr "7") UnknownLiteral)))) /\ parse data_type_strings "DELETE FROM shop.orders WHERE id = 7" =
  Ok [SDelete (new_table "shop.orders") (Some (ECmp OpEQ (new_column "id") (Some (mkLit (VStr "7") UnknownLiteral))))].
Proof.
  do 3 (split; [apply any_checked; vm_compute; reflexivity|]). split; [|vm_compute; reflexivity].
  constructor. constructor; [left; reflexivity|apply any_checked; vm_compute; reflexivity|]. apply lo_number. left. split; [discriminate|].
  intros x [<-|[]]. unfold digit. cbn. lia.
Qed.

(** INSERT, DROP TABLE and CREATE TABLE lose it: they are about the table of that name without schema. *)
Theorem C63_lost_refuted :
  parse data_type_strings "INSERT INTO s.t (a) VALUES (1)" = parse data_type_strings "INSERT INTO t (a) VALUES (1)" /\ parse data_type_strings "DROP TABLE s.t" = Ok [SDropTable [new_table "t"] false] /\ parse data_type_strings "CREATE TABLE s.t (a INT)" = parse data_type_strings "CREATE TABLE t (a INT)".
Proof. split; [|split]; vm_compute; reflexivity. Qed.
Print Assumptions C63_lost_refuted.
(** An alias becomes a part of the name. *)
Theorem C63_alias_refuted : exists s, parse data_type_strings "SELECT a AS b, c FROM t AS u" = Ok [SSelect s] /\ sel_selectors s = [SelCol (new_column "aASb"); SelCol (new_column "c")] /\ sel_tables s = [new_table "tASu"].
Proof. eexists. split; [vm_compute; reflexivity|]. split; reflexivity. Qed.
Print Assumptions C63_alias_refuted.
Theorem C63_bare_alias_refuted : exists s, parse data_type_strings "SELECT a FROM t u WHERE a = 1" = Ok [SSelect s] /\ sel_tables s = [new_table "tu"].
Proof. eexists. split; [vm_compute; reflexivity|]. reflexivity. Qed.
Print Assumptions C63_bare_alias_refuted.
