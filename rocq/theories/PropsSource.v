(** Properties C93, C94, C95 and C63: what is lost of accepted statements. *)
From Coq Require Import Lia Permutation.
From Verif Require Import GoBase ModelUtil ModelNum ModelFn ModelQuery ModelEbnf ModelGrammar ModelLex ModelVisitor SpecRound SpecSelect SpecSpell SpecNone SpecSource
  FactsBase ProofQuery ProofRound3 ProofWhere ProofAlias ProofSource ProofSource2 ProofSource3 ProofSource4.
Local Open Scope string_scope.
Local Open Scope list_scope.

(** C93: the tables of a query which lists them are reported. *)
Theorem C93_listed_tables_partial : forall entries c ts, Permutation entries data_type_strings -> any_name c -> some any_name ts ->
  exists s, parse entries (line ["SELECT"; c; "FROM"; join ", " ts]) = Ok [SSelect s] /\ sel_selectors s = [SelCol (new_column c)]
    /\ map full_table_name (sel_tables s) = ts /\ sel_where s = None.
Proof.
  intros entries c ts P C [Tn Ts]. set (s := mkSelect (map new_table ts) [SelCol (new_column c)] None [] (mkLimit 0 0) "").
  assert (N : map full_table_name (map new_table ts) = ts) by (rewrite map_map, (map_ext _ (fun x => x) full_name_of_name); apply map_id).
  exists s. split; [|split; [reflexivity|split; [|reflexivity]]].
  - destruct (supported_parse entries (SSelect s) P) as (q & Q & R).
    { constructor. constructor; cbn [s sel_tables sel_selectors sel_where sel_order_by sel_limit sel_group_by].
      - split; [destruct ts; [contradiction|discriminate]|]. apply Forall_map. revert Ts. apply Forall_impl. intros t. apply fo_name.
      - split; [discriminate|]. constructor; [apply se_column, C|constructor].
      - constructor.
      - constructor.
      - left. reflexivity.
      - left. reflexivity. }
    rewrite <- R. f_equal. injection Q as <-. unfold s, select_string. cbn -[join]. unfold tables_string. rewrite N. reflexivity.
  - exact N.
Qed.
Print Assumptions C93_listed_tables_partial.
Example C93_listed_tables_example : exists s, parse data_type_strings "SELECT a FROM t, u, v" = Ok [SSelect s] /\ map full_table_name (sel_tables s) = ["t"; "u"; "v"].
Proof. eexists. split; [vm_compute; reflexivity|]. reflexivity. Qed.

(** Of a join or a query over the result of another one no table is reported at all. *)
Theorem C93_sourceless_refuted : forall entries ws, sourceless ws -> exists s, parse entries (line ws) = Ok [SSelect s] /\ sel_tables s = [].
Proof. intros entries ws H. destruct (sourceless_read entries ws H) as [c E]. eexists. split; [exact E|reflexivity]. Qed.
Print Assumptions C93_sourceless_refuted.

(** Conditions on the result of another query, WITH, set operations and subqueries after a table are dropped. *)
Theorem C93_narrowed_refuted : forall entries ws ws', narrowed ws ws' -> exists s, parse entries (line ws) = Ok [s] /\ parse entries (line ws') = Ok [s].
Proof. exact narrowed_read. Qed.
Print Assumptions C93_narrowed_refuted.
Example C93_refuted_example : sourceless ["SELECT"; "a"; "FROM"; "t"; "LEFT"; "JOIN"; "u"; "USING"; "(k)"]
  /\ narrowed ["DELETE"; "FROM"; "t"; "WHERE"; "k"; "NOT"; "IN"; "(SELECT"; "b"; "FROM"; "u)"] ["DELETE"; "FROM"; "t"].
Proof.
  split.
  - apply (sl_using ["LEFT"; "JOIN"] "a" "t" "u" "k"); [right; right; left; reflexivity|apply any_checked; vm_compute; reflexivity..].
  - apply (na_test "t" ["DELETE"; "FROM"; "t"] ["k"; "NOT"; "IN"; "(SELECT"; "b"; "FROM"; "u)"]); [apply any_checked; vm_compute; reflexivity|constructor|].
    apply (qt_in true "k" "b" "u"); apply any_checked; vm_compute; reflexivity.
Qed.

(** C63: an alias becomes a part of the name it is for, and so does an index a table is to be read by. *)
Theorem C63_every_alias_refuted : forall entries c a t b, any_name c -> alias_ok a -> any_name t -> alias_ok b ->
  exists s, parse entries (line (["SELECT"; c] ++ alias_words a ++ ["FROM"; t] ++ alias_words b)) = Ok [SSelect s]
    /\ sel_selectors s = [SelCol (new_column (glued c a))] /\ sel_tables s = [new_table (glued t b)].
Proof. intros entries c a t b C A Ht B. known. eexists. split; [apply alias_read; assumption|split; reflexivity]. Qed.
Print Assumptions C63_every_alias_refuted.
Theorem C63_changed_alias_refuted : forall entries t b c v, any_name t -> any_name b -> any_name c -> number v ->
  parse entries (line ["DELETE"; "FROM"; t; "AS"; b]) = Ok [SDelete (new_table (t ++ "AS" ++ b)%string) None]
  /\ parse entries (line ["UPDATE"; t; "AS"; b; "SET"; c; "="; v]) = Ok [SUpdate (new_table (t ++ "AS" ++ b)%string) [new_value_column c (mkLit (VStr v) UnknownLiteral)] None].
Proof. intros entries t b c v Ht B C V. known. split; [apply alias_d|apply alias_u]; assumption. Qed.
Print Assumptions C63_changed_alias_refuted.
Theorem C63_hint_refuted : forall entries c t ws, any_name c -> any_name t -> hint ws ->
  exists s, parse entries (line (["SELECT"; c; "FROM"; t] ++ ws)) = Ok [SSelect s] /\ sel_tables s = [new_table (String.concat "" (t :: ws))].
Proof. intros entries c t ws C Ht H. known. eexists. split; [apply hint_read; assumption|reflexivity]. Qed.
Print Assumptions C63_hint_refuted.
Example C63_alias_example : alias_ok (As "u") /\ glued "t" (As "u") = "tASu" /\ hint ["INDEXED"; "BY"; "i"].
Proof. split; [apply any_checked; vm_compute; reflexivity|]. split; [reflexivity|]. apply hi_index, any_checked. vm_compute. reflexivity. Qed.

(** C94: what a statement that changes data is told to do about conflicts, other tables and the rows to return is dropped. *)
Theorem C94_unheeded_refuted : forall entries ws ws', unheeded ws ws' -> exists s, parse entries (line ws) = Ok [s] /\ parse entries (line ws') = Ok [s].
Proof. exact unheeded_read. Qed.
Print Assumptions C94_unheeded_refuted.
(** A table to be made of the result of a query is made without columns. *)
Theorem C94_create_as_refuted : forall entries p t a u, In p [[]; ["TEMP"]; ["TEMPORARY"]] -> any_name t -> any_name a -> any_name u ->
  exists s, parse entries (line (["CREATE"] ++ p ++ ["TABLE"; t; "AS"; "SELECT"; a; "FROM"; u])) = Ok [SCreateTable s false] /\ s_columns s = [] /\ s_indexes s = [].
Proof. intros entries p t a u I Ht A U. known. eexists. split; [apply create_as; assumption|split; reflexivity]. Qed.
Print Assumptions C94_create_as_refuted.
(** Without such a clause, the rows and values are those written. *)
Theorem C94_plain_partial : forall entries t c v w, any_name t -> any_name c -> number v -> restricted_ok w ->
  parse entries (line (["UPDATE"; t; "SET"; c; "="; v] ++ restricted w))
    = Ok [SUpdate (new_table t) [new_value_column c (mkLit (VStr v) UnknownLiteral)]
        (match w with Some (x, n) => Some (ECmp OpEQ (new_column x) (Some (mkLit (VStr n) UnknownLiteral))) | None => None end)]
  /\ parse entries (line (["DELETE"; "FROM"; t] ++ restricted w))
    = Ok [SDelete (new_table t) (match w with Some (x, n) => Some (ECmp OpEQ (new_column x) (Some (mkLit (VStr n) UnknownLiteral))) | None => None end)].
Proof. intros entries t c v w Ht C V W. known. split; [apply about_u|apply about_d]; try assumption; apply restricted_is, W. Qed.
Print Assumptions C94_plain_partial.
Example C94_example : unheeded ["INSERT"; "INTO"; "t"; "(a)"; "VALUES"; "(1)"; "ON"; "CONFLICT"; "(k)"; "DO"; "NOTHING"] ["INSERT"; "INTO"; "t"; "(a)"; "VALUES"; "(1)"]
  /\ parse data_type_strings "UPDATE OR IGNORE t SET a = 1" = parse data_type_strings "UPDATE t SET a = 1".
Proof.
  split; [|vm_compute; reflexivity].
  apply (uh_insert "t" "a" "1" ["ON"; "CONFLICT"; "(k)"; "DO"; "NOTHING"]); [apply any_checked; vm_compute; reflexivity..|left; split; [discriminate|intros x [<-|[]]; unfold digit; cbn; lia]|].
  apply (ai_nothing_at "k"), any_checked. vm_compute. reflexivity.
Qed.

(** C95: an expression that is no column is reported as a column whose name is its text without blanks, *)
Theorem C95_computed_refuted : forall entries ws t, computed ws -> any_name t ->
  exists s, parse entries (line ("SELECT" :: ws ++ ["FROM"; t])) = Ok [SSelect s] /\ sel_selectors s = [SelCol (new_column (String.concat "" ws))].
Proof. intros entries ws t H Ht. known. eexists. split; [apply computed_read; assumption|reflexivity]. Qed.
Print Assumptions C95_computed_refuted.
(** DISTINCT, FILTER and OVER of a call and its alias are dropped, and so is NULLS FIRST or LAST of an ordering. *)
Theorem C95_overlooked_refuted : forall entries ws ws', overlooked ws ws' -> exists s, parse entries (line ws) = Ok [s] /\ parse entries (line ws') = Ok [s].
Proof. exact overlooked_read. Qed.
Print Assumptions C95_overlooked_refuted.
(** Columns and calls are what was written. *)
Theorem C95_plain_partial : forall entries f a t, any_name f -> any_name a -> any_name t ->
  (exists s, parse entries (line ["SELECT"; a; "FROM"; t]) = Ok [SSelect s] /\ sel_selectors s = [SelCol (new_column a)])
  /\ (exists s, parse entries (line ["SELECT"; f; in_parentheses a; "FROM"; t]) = Ok [SSelect s] /\ sel_selectors s = [SelFn (new_func f [a])]).
Proof. intros entries f a t F A Ht. known. split; eexists; [split; [apply about_1; assumption|reflexivity]|split; [apply call_1; assumption|reflexivity]]. Qed.
Print Assumptions C95_plain_partial.
Example C95_example : computed ["a"; "BETWEEN"; "b"; "AND"; "c"] /\ overlooked ["SELECT"; "COUNT"; "(DISTINCT"; "a)"; "FROM"; "t"] ["SELECT"; "COUNT"; "(a)"; "FROM"; "t"].
Proof.
  split; [apply (cm_between "a" "b" "c")|apply (ol_distinct "COUNT" "a" "t")]; apply any_checked; vm_compute; reflexivity.
Qed.
