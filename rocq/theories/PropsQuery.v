(** Properties C25-C33, C35 and C53-C58: the objects of sql/query. *)
From Verif Require Import GoBase FactsBase ModelUtil ModelNum ModelFn ModelQuery SpecFn SpecQuery ProofFn ProofNum ProofQuery.

(** C25: the first column with that name, ignoring case; an error iff there is none. *)
Theorem C25_column_lookup : forall cs name,
  let named := fun c => same_text (c_name c) name in
  (forall c, lookup_column cs name = Ok c <-> exists n, first_match named cs n c) /\
  (forall n, lookup_index_of_column cs name = Ok n <-> exists c, first_match named cs n c) /\
  (lookup_column cs name = Err ErrNotFound <-> no_match named cs) /\
  (lookup_index_of_column cs name = Err ErrNotFound <-> no_match named cs) /\
  lookup_column cs name <> Panic /\ lookup_index_of_column cs name <> Panic.
Proof. exact column_lookup. Qed.
Print Assumptions C25_column_lookup.

Example C25_example :
  first_match (fun c => same_text (c_name c) "ID") [new_column "a"; new_column "id"; new_column "Id"] 1 (new_column "id").
Proof. split; [reflexivity|]. split; [reflexivity|]. intros [|[|m]] y L E; inversion E; subst; [discriminate|lia|lia]. Qed.

(** C26: ALTER TABLE on a schema.  The full statement includes "DROP removes exactly the named column
    or index", which is refuted below: the code removes another one. *)
Theorem C26_add_column_partial : forall s t c,
  alter_schema s (only_add_column t c) = (mkSchema (s_table s) (s_columns s ++ [c]) (s_indexes s), Ok tt).
Proof. reflexivity. Qed.
Print Assumptions C26_add_column_partial.
Theorem C26_add_index_partial : forall s t i,
  alter_schema s (only_add_index t i) = (mkSchema (s_table s) (s_columns s) (s_indexes s ++ [i]), Ok tt).
Proof. reflexivity. Qed.
Print Assumptions C26_add_index_partial.

(** A statement that asks for one change leaves the schema as it was when it fails. *)
Theorem C26_failed_change_partial : forall s a s' e,
  one_change a -> alter_schema s a = (s', Err e) -> s' = s.
Proof. exact one_change_error. Qed.
Print Assumptions C26_failed_change_partial.
Example C26_failed_change_example :
  alter_schema (new_schema "t" [new_column "a"] []) (only_drop_column (new_table "t") (new_column "A"))
  = (new_schema "t" [new_column "a"] [], Err ErrNotFound).
Proof. reflexivity. Qed.

(** DROP COLUMN x never removes a column named x, whatever the schema: the columns with that name are
    the same before and after.  What it removes is the first column with another name. *)
Theorem C26_drop_column_refuted : forall s t c s' r,
  alter_schema s (only_drop_column t c) = (s', r) ->
  (forall x, same_text (c_name x) (c_name c) -> In x (s_columns s) -> In x (s_columns s')) /\
  ~ removed c_name (c_name c) (s_columns s) (s_columns s') /\
  (r = Ok tt -> exists n x, first_match (fun y => ~ same_text (c_name y) (c_name c)) (s_columns s) n x /\
                            s_columns s' = firstn n (s_columns s) ++ skipn (S n) (s_columns s)) /\
  (r <> Ok tt <-> forall x, In x (s_columns s) -> same_text (c_name x) (c_name c)) /\
  s_indexes s' = s_indexes s /\ s_table s' = s_table s.
Proof. exact drop_column_removes_other. Qed.
Print Assumptions C26_drop_column_refuted.
Theorem C26_drop_index_refuted : forall s t i s' r,
  alter_schema s (only_drop_index t i) = (s', r) ->
  (forall x, same_text (i_name x) (i_name i) -> In x (s_indexes s) -> In x (s_indexes s')) /\
  ~ removed i_name (i_name i) (s_indexes s) (s_indexes s') /\
  (r = Ok tt -> exists n x, first_match (fun y => ~ same_text (i_name y) (i_name i)) (s_indexes s) n x /\
                            s_indexes s' = firstn n (s_indexes s) ++ skipn (S n) (s_indexes s)) /\
  (r <> Ok tt <-> forall x, In x (s_indexes s) -> same_text (i_name x) (i_name i)) /\
  s_columns s' = s_columns s /\ s_table s' = s_table s.
Proof. exact drop_index_removes_other. Qed.
Print Assumptions C26_drop_index_refuted.
Example C26_drop_column_witness :
  alter_schema (new_schema "t" [new_column "a"; new_column "b"] []) (only_drop_column (new_table "t") (new_column "b"))
  = (new_schema "t" [new_column "b"] [], Ok tt).
Proof. reflexivity. Qed.

(** A rename is never done, and in a statement with another change it comes after that change. *)
Theorem C26_rename_refuted : forall s t t' a b,
  alter_schema s (only_rename_to t t') = (s, Err ErrNotImplemented) /\
  alter_schema s (only_rename_column t a b) = (s, Err ErrNotImplemented).
Proof. split; reflexivity. Qed.
Print Assumptions C26_rename_refuted.
Theorem C26_half_done_refuted : exists s a s' e, alter_schema s a = (s', Err e) /\ s' <> s.
Proof.
  exists (new_schema "t" [] []), (mkAlter (new_table "t") (Some (new_table "u")) None (Some (new_column "a")) None None None),
    (new_schema "t" [new_column "a"] []), ErrNotImplemented.
  split; [reflexivity|discriminate].
Qed.
Print Assumptions C26_half_done_refuted.

(** C27: data type names.  [entries] is the table of names in the order in which the map happens to be
    visited. *)
Theorem C27_data_type_names : forall entries s,
  Permutation entries data_type_strings ->
  (forall t n, named_type t n -> spells s n -> data_type_from_string entries s = Ok t) /\
  ((forall t n, named_type t n -> ~ spells s n) -> data_type_from_string entries s = Err ErrInvalid).
Proof. exact data_type_parse. Qed.
Print Assumptions C27_data_type_names.
Theorem C27_data_type_prints : forall t n, named_type t n -> data_type_string t = n.
Proof. exact data_type_prints. Qed.
Print Assumptions C27_data_type_prints.
(** Every type has a name but the unknown one and NAME (an omission in the table). *)
Theorem C27_types_with_a_name : forall t, (exists n, named_type t n) <-> t <> UnknownData /\ t <> NameType.
Proof. exact named_types. Qed.
Print Assumptions C27_types_with_a_name.
Example C27_example :
  named_type DoublePrecisionType "DOUBLE PRECISION" /\ spells "DoublePrecision" "DOUBLE PRECISION" /\
  spells "double precision" "DOUBLE PRECISION" /\
  (forall t n, named_type t n -> ~ spells "NAME" n).
Proof.
  split; [cbn; tauto|]. split; [right; reflexivity|]. split; [left; reflexivity|].
  intros t n H. cbn in H. unfold spells.
  repeat (destruct H as [[= <- <-]|H]; [intros [E|E]; vm_compute in E; discriminate|]). destruct H.
Qed.

(** C28: TYPE ( n ) and TYPE alone, as tokens, parse back. *)
Theorem C28_data_definition : forall entries t n l s,
  Permutation entries data_type_strings -> named_type t n -> (0 < l < 2 ^ 63)%Z -> spells s n ->
  exists d, numeral (Z.to_N l) d /\
    data_def_string (new_data_def t l) = (n ++ "(" ++ d ++ ")")%string /\
    data_def_from_strings entries [s; "("; d; ")"] = Ok (new_data_def t l).
Proof. exact data_def_round. Qed.
Print Assumptions C28_data_definition.
Theorem C28_data_definition_without_length : forall entries t n s,
  Permutation entries data_type_strings -> named_type t n -> spells s n ->
  data_def_from_strings entries [s] = Ok (new_data_def t (-1)) /\ data_def_string (new_data_def t (-1)) = n.
Proof. exact data_def_alone. Qed.
Print Assumptions C28_data_definition_without_length.
Example C28_example :
  data_def_string (new_data_def VarCharType 255) = "VARCHAR(255)" /\
  data_def_from_strings data_type_strings ["varchar"; "("; "255"; ")"] = Ok (new_data_def VarCharType 255).
Proof. split; reflexivity. Qed.
(** A name of two words that reaches the function word by word is cut to its first word, and one
    parenthesis of the two is enough. *)
Theorem C28_two_words_refuted : forall entries,
  Permutation entries data_type_strings ->
  data_def_from_strings entries ["DOUBLE"; "PRECISION"] = Ok (new_data_def DoubleType (-1)).
Proof. exact double_precision_tokens. Qed.
Print Assumptions C28_two_words_refuted.
Theorem C28_unbalanced_refuted : forall entries,
  Permutation entries data_type_strings ->
  data_def_from_strings entries ["INT"; "("; "4"; "["] = Ok (new_data_def IntType 4) /\
  data_def_from_strings entries ["INT"; "x"; "4"; ")"] = Ok (new_data_def IntType 4).
Proof. exact unbalanced_tokens. Qed.
Print Assumptions C28_unbalanced_refuted.

(** C29: SetValue on a column that has a literal.  [cast] is safecast's conversion, arbitrary. *)
Theorem C29_set_value_partial : forall cast h c v p l,
  pc_lit c = Some p -> nth_error h p = Some l ->
  exists w ok h', stored cast (pc_def c) v w ok /\
    set_value cast h c v = (c, h', if ok then Ok tt else Err ErrCast) /\
    nth_error h' p = Some (mkLit w (l_type l)) /\
    (forall q, q <> p -> nth_error h' q = nth_error h q).
Proof. exact set_value_effect. Qed.
Print Assumptions C29_set_value_partial.
Example C29_example : forall cast, cast GInt32 (VStr "7") = Some (VInt 7) -> cast GInt32 (VStr "x") = None ->
  let c := mkPcol "a" (Some (new_data_def IntType (-1))) (Some 0) None in
  set_value cast [mkLit VNil UnknownLiteral] c (VStr "7") = (c, [mkLit (VInt 7) UnknownLiteral], Ok tt) /\
  set_value cast [mkLit VNil UnknownLiteral] c (VStr "x") = (c, [mkLit (VStr "x") UnknownLiteral], Err ErrCast).
Proof. intros cast H1 H2. unfold set_value, set_definition. cbn. now rewrite H1, H2. Qed.
(** Columns made by NewColumnWithName and NewColumnWithDef have no literal: SetValue panics. *)
Theorem C29_no_literal_refuted : forall cast h c v, pc_lit c = None -> set_value cast h c v = (c, h, Panic).
Proof. intros cast h c v H. unfold set_value. now rewrite H. Qed.
Print Assumptions C29_no_literal_refuted.

(** C30: copies.  The full statement, independence, is refuted: the copy shares the literal, and it
    loses the function. *)
Theorem C30_copy_reports_partial : forall h c, pc_fn c = None -> reports h (copy_pcolumn c) = reports h c.
Proof. intros h [n d l f]. cbn. now intros ->. Qed.
Print Assumptions C30_copy_reports_partial.
(** A value set on the copy of a column with a literal is always seen by the original. *)
Theorem C30_shared_value_refuted : forall cast h c v h' r p,
  pc_lit c = Some p -> p < length h -> set_value cast h (copy_pcolumn c) v = (copy_pcolumn c, h', r) ->
  exists w ok l, stored cast (pc_def c) v w ok /\ l_value l = w /\
    reports h' c = (pc_name c, pc_def c, Some l, pc_fn c).
Proof. exact copy_shares_value. Qed.
Print Assumptions C30_shared_value_refuted.
Theorem C30_not_independent_refuted : exists h c v h' r,
  forall cast, set_value cast h (copy_pcolumn c) v = (copy_pcolumn c, h', r) /\ reports h' c <> reports h c.
Proof.
  exists [mkLit (VInt 1) UnknownLiteral], (mkPcol "a" None (Some 0) None), (VInt 2), [mkLit (VInt 2) UnknownLiteral], (Ok tt).
  intros cast. split; [reflexivity|discriminate].
Qed.
Print Assumptions C30_not_independent_refuted.
Theorem C30_function_dropped_refuted : forall h c, pc_fn c <> None -> reports h (copy_pcolumn c) <> reports h c.
Proof. intros h [n d l f] H E. apply (f_equal snd) in E. cbn in *. congruence. Qed.
Print Assumptions C30_function_dropped_refuted.

(** C31: full table names. *)
Theorem C31_full_name : forall t,
  (t_schema t <> "" -> t_name t <> "" -> ~ has_dot (t_name t) ->
     full_table_name t = (t_schema t ++ "." ++ t_name t)%string) /\
  ((t_schema t = "" \/ t_name t = "" \/ has_dot (t_name t)) -> full_table_name t = t_name t).
Proof. exact full_table_name_spec. Qed.
Print Assumptions C31_full_name.
Theorem C31_distinct : forall t1 t2,
  t_name t1 <> "" -> t_name t2 <> "" -> ~ has_dot (t_name t1) -> ~ has_dot (t_name t2) ->
  full_table_name t1 = full_table_name t2 -> t1 = t2.
Proof. exact full_table_name_inj. Qed.
Print Assumptions C31_distinct.
Theorem C31_comparisons : forall t name,
  (is_full_table_name t name = true <-> same_text (full_table_name t) name) /\
  (is_table_name t name = true <-> same_text (t_name t) name) /\
  (is_schema_name t name = true <-> same_text (t_schema t) name).
Proof. intros t name. repeat split; apply equal_fold_iff. Qed.
Print Assumptions C31_comparisons.
Example C31_example :
  full_table_name (mkTbl "db" "t") = "db.t" /\ full_table_name (mkTbl "db" "x.t") = "x.t" /\ ~ has_dot "t".
Proof. split; [reflexivity|]. split; [reflexivity|]. intros [H|[]]. discriminate. Qed.

(** C32: selector lists.  The full statement says HasFunction is true iff some selector is a function;
    it is true iff some selector is not. *)
Theorem C32_has_function_refuted : forall l,
  has_function l = true <-> exists s, In s l /\ sel_function s = None.
Proof. exact has_function_spec. Qed.
Print Assumptions C32_has_function_refuted.
Theorem C32_has_function_wrong_refuted :
  has_function [SelCol (new_column "a")] = true /\
  has_function [SelFn (mkFunc MathFunction "ABS" None None ["a"])] = false.
Proof. split; reflexivity. Qed.
Print Assumptions C32_has_function_wrong_refuted.
Theorem C32_has_function_with_type_partial : forall t l,
  has_function_with_type t l = true <-> exists s f, In s l /\ sel_function s = Some f /\ f_type f = t.
Proof. exact has_function_with_type_spec. Qed.
Print Assumptions C32_has_function_with_type_partial.
Theorem C32_functions_partial : forall l,
  map Some (functions l) = filter (fun o => match o with Some _ => true | None => false end) (map sel_function l).
Proof. exact functions_spec. Qed.
Print Assumptions C32_functions_partial.
Theorem C32_lookup_function_partial : forall l name,
  (forall f, lookup_function l name = Ok f <-> exists n, first_match (fun g => f_name g = name) (functions l) n f) /\
  (lookup_function l name = Err ErrNotFound <-> no_match (fun g => f_name g = name) (functions l)) /\
  lookup_function l name <> Panic.
Proof. exact lookup_function_spec. Qed.
Print Assumptions C32_lookup_function_partial.
Example C32_example :
  let f := mkFunc MathFunction "ABS" None None ["a"] in
  has_function_with_type MathFunction [SelCol (new_column "a"); SelFn f] = true /\
  functions [SelCol (new_column "a"); SelFn f] = [f] /\ lookup_function [SelCol (new_column "a"); SelFn f] "ABS" = Ok f.
Proof. repeat split. Qed.

(** C33: the quoting helpers undo each other exactly for the texts that do not start or end with a
    byte that unquoting cuts; for every other text they do not. *)
Theorem C33_unescape_partial : forall s,
  unescape_string (escape_string s) = s <-> ~ starts_with_any (squote ++ dquote) s /\ ~ ends_with_any (squote ++ dquote) s.
Proof. intros s. apply (trim_quoted (squote ++ dquote)). reflexivity. Qed.
Print Assumptions C33_unescape_partial.
Theorem C33_unescape_name_partial : forall s,
  unescape_name_string (escape_name_string s) = s <-> ~ starts_with_any "'`()" s /\ ~ ends_with_any "'`()" s.
Proof. intros s. apply (trim_quoted "'`()"). reflexivity. Qed.
Print Assumptions C33_unescape_name_partial.
Example C33_example : unescape_string (escape_string "it's") = "it's" /\ unescape_name_string (escape_name_string "a b") = "a b".
Proof. split; reflexivity. Qed.
Theorem C33_quotes_lost_refuted :
  unescape_string (escape_string "dogs'") = "dogs" /\ unescape_name_string (escape_name_string "f(x)") = "f(x".
Proof. split; reflexivity. Qed.
Print Assumptions C33_quotes_lost_refuted.

(** C35: SELECT in the clause order of SQL.  GROUP BY is printed last, so the full statement fails for
    GROUP BY together with ORDER BY or LIMIT. *)
Theorem C35_clause_order_partial : forall s,
  (sel_group_by s = "" \/ (sel_order_by s = [] /\ lim_limit (sel_limit s) = 0%N /\ lim_offset (sel_limit s) = 0%N)) ->
  select_string s = sql_select s.
Proof. exact select_in_order. Qed.
Print Assumptions C35_clause_order_partial.
Example C35_example :
  select_string (mkSelect [new_table "t"] [] (Some (ECmp OpEQ (new_column "a") (Some (mkLit (VInt 1) UnknownLiteral))))
                          [mkOrder "a" OrderDesc] (mkLimit 2 10) "")
  = "SELECT * FROM t WHERE a = 1 ORDER BY a DESC LIMIT 10 OFFSET 2".
Proof. reflexivity. Qed.
Lemma same_start p a b : (p ++ a)%string = (p ++ b)%string -> a = b.
Proof. induction p as [|c p IH]; [auto|]. cbn. intro H. injection H as H. auto. Qed.
Lemma select_out_of_order s :
  sel_group_by s <> "" -> sel_order_by s <> [] \/ lim_limit (sel_limit s) <> 0%N \/ lim_offset (sel_limit s) <> 0%N ->
  select_string s <> sql_select s.
Proof.
  rewrite select_actual. unfold sql_select. intros G H E. do 5 apply same_start in E.
  destruct (String.eqb_spec (sel_group_by s) "") as [|_]; [contradiction|]. cbn [negb clause] in E.
  destruct (sel_order_by s) as [|o os]; [|discriminate E]. destruct (N.eqb_spec (lim_limit (sel_limit s)) 0) as [L|L]; [|discriminate E].
  destruct (N.eqb_spec (lim_offset (sel_limit s)) 0) as [O|O]; [|discriminate E]. destruct H as [H|[H|H]]; auto.
Qed.
(** GROUP BY together with ORDER BY, LIMIT or OFFSET is always out of order. *)
Theorem C35_group_by_last_refuted : forall s,
  sel_group_by s <> "" -> sel_order_by s <> [] \/ lim_limit (sel_limit s) <> 0%N \/ lim_offset (sel_limit s) <> 0%N ->
  select_string s <> sql_select s.
Proof. exact select_out_of_order. Qed.
Print Assumptions C35_group_by_last_refuted.
Example C35_group_by_last_example :
  let s := mkSelect [new_table "t"] [SelCol (new_column "a")] None [mkOrder "a" OrderAsc] (mkLimit 0 0) "a" in
  sel_group_by s <> "" /\ sel_order_by s <> [] /\ select_string s = "SELECT a FROM t ORDER BY a ASC GROUP BY a".
Proof. split; [discriminate|]. split; [discriminate|]. reflexivity. Qed.

(** C53: ColumnAt.  A negative position panics: the bound is checked on one side only. *)
Theorem C53_column_at_partial : forall cs n,
  ((0 <= n < Z.of_nat (length cs))%Z -> exists c, column_at cs n = Ok c /\ nth_error cs (Z.to_nat n) = Some c) /\
  ((Z.of_nat (length cs) <= n)%Z -> column_at cs n = Err ErrNotFound).
Proof. intros cs n. destruct (column_at_spec cs n) as (A & B & _). split; assumption. Qed.
Print Assumptions C53_column_at_partial.
Theorem C53_negative_refuted : forall cs n, (n < 0)%Z -> column_at cs n = Panic.
Proof. intros cs n. exact (proj2 (proj2 (column_at_spec cs n))). Qed.
Print Assumptions C53_negative_refuted.
Example C53_example : column_at [new_column "a"; new_column "b"] 1 = Ok (new_column "b") /\ column_at [new_column "a"] (-1) = Panic.
Proof. split; reflexivity. Qed.

(** C54: index lookup. *)
Theorem C54_index_lookup : forall is name,
  let named := fun i => same_text (i_name i) name in
  (forall i, lookup_index is name = Ok i <-> exists n, first_match named is n i) /\
  (forall n, lookup_index_of_index is name = Ok n <-> exists i, first_match named is n i) /\
  (lookup_index is name = Err ErrNotFound <-> no_match named is) /\
  (lookup_index_of_index is name = Err ErrNotFound <-> no_match named is) /\
  lookup_index is name <> Panic /\ lookup_index_of_index is name <> Panic.
Proof. exact index_lookup. Qed.
Print Assumptions C54_index_lookup.
Example C54_example :
  lookup_index [primary_index [new_column "a"; new_column "b"]; secondary_index "Idx" []] "iDX" = Ok (secondary_index "Idx" []) /\
  lookup_index [primary_index [new_column "a"; new_column "b"]] "a_b" = Ok (primary_index [new_column "a"; new_column "b"]).
Proof. split; reflexivity. Qed.

(** C55: table list membership. *)
Theorem C55_has_table : forall ts names,
  has_table ts names = true <-> exists t n, In t ts /\ In n names /\ same_text (t_name t) n.
Proof. exact has_table_spec. Qed.
Print Assumptions C55_has_table.
Theorem C55_has_schema_table : forall ts names,
  has_schema_table ts names = true <-> exists t n, In t ts /\ In n names /\ same_text (t_schema t) n.
Proof. exact has_schema_table_spec. Qed.
Print Assumptions C55_has_schema_table.
Example C55_example : has_table [mkTbl "db" "T"; new_table "u"] ["x"; "t"] = true /\ has_table [mkTbl "db" "T"] ["db.T"] = false.
Proof. split; reflexivity. Qed.

(** C56: SetSchema gives every column the definition of the schema's column of that name, and fails if
    some column is not in the schema; names, literals and functions stay. *)
Theorem C56_set_schema : forall cast schema cs h cs' h' r,
  set_schema cast h cs schema = (cs', h', r) ->
  map pc_name cs' = map pc_name cs /\ map pc_lit cs' = map pc_lit cs /\ map pc_fn cs' = map pc_fn cs /\ r <> Panic /\
  (r = Ok tt -> forall n c c', nth_error cs n = Some c -> nth_error cs' n = Some c' ->
     exists k sc, first_match (fun s => same_text (c_name s) (pc_name c)) schema k sc /\ pc_def c' = c_def sc) /\
  ((exists c, In c cs /\ no_match (fun s => same_text (c_name s) (pc_name c)) schema) -> r <> Ok tt).
Proof. exact set_schema_spec. Qed.
Print Assumptions C56_set_schema.
Example C56_example : forall cast,
  set_schema cast [] [mkPcol "A" None None None] [new_def_column "a" (new_data_def IntType (-1))]
  = ([mkPcol "A" (Some (new_data_def IntType (-1))) None None], [], Ok tt).
Proof. reflexivity. Qed.

(** C57: CREATE INDEX, converted to ALTER TABLE and applied to a schema, adds that index at the end and
    changes nothing else; the conversion names the same table and rejects other statements. *)
Theorem C57_create_index : forall name tbl i ifne s,
  exists a, alter_table_from (SCreateIndex (mkSchema tbl [] [secondary_index name i]) ifne) = Ok a /\
    full_table_name (al_table a) = full_table_name tbl /\
    alter_schema s a = (mkSchema (s_table s) (s_columns s) (s_indexes s ++ [secondary_index name i]), Ok tt).
Proof. exact create_index_adds. Qed.
Print Assumptions C57_create_index.
Theorem C57_drop_index_partial : forall sn name ife,
  exists a i, alter_table_from (SDropIndex sn name ife) = Ok a /\ i_name i = name /\
    full_table_name (al_table a) = sn /\ a = only_drop_index (al_table a) i.
Proof. exact drop_index_converts. Qed.
Print Assumptions C57_drop_index_partial.
Theorem C57_others : forall st,
  (forall sc b, st <> SCreateIndex sc b) -> (forall sn n b, st <> SDropIndex sn n b) ->
  alter_table_from st = Err ErrNotSupported.
Proof. intros st H1 H2. destruct st; try reflexivity; [now destruct (H1 _ _ eq_refl)|now destruct (H2 _ _ _ eq_refl)]. Qed.
Print Assumptions C57_others.
(** DROP INDEX i so applied never removes an index named i (see C26). *)
Theorem C57_drop_index_refuted : forall sn name ife s a s' r,
  alter_table_from (SDropIndex sn name ife) = Ok a -> alter_schema s a = (s', r) ->
  forall x, same_text (i_name x) name -> In x (s_indexes s) -> In x (s_indexes s').
Proof. exact drop_index_keeps. Qed.
Print Assumptions C57_drop_index_refuted.
Example C57_example :
  alter_table_from (SCreateIndex (mkSchema (mkTbl "db" "t") [] [secondary_index "i" [new_column "a"]]) false)
  = Ok (mkAlter (new_table "db.t") None None None (Some (secondary_index "i" [new_column "a"])) None None).
Proof. reflexivity. Qed.

(** C58: constraints are independent flags.  Printing names a single constraint; for a combination the
    full statement fails, nothing is printed. *)
Theorem C58_flags : forall pk nn un : bool,
  let c := N.lor (if pk then 1 else 0) (N.lor (if nn then 2 else 0) (if un then 4 else 0))%N in
  is_primary_key c = pk /\ is_not_null c = nn /\ is_unique c = un.
Proof. intros [] [] []; repeat split. Qed.
Print Assumptions C58_flags.
Theorem C58_printed_partial :
  constraint_string 0%N = "" /\ constraint_string 1%N = "PRIMARY KEY" /\ constraint_string 2%N = "NOT NULL" /\
  constraint_string 4%N = "UNIQUE".
Proof. repeat split. Qed.
Print Assumptions C58_printed_partial.
Theorem C58_combined_refuted : forall c,
  c <> 1%N -> c <> 2%N -> c <> 4%N -> constraint_string c = "".
Proof.
  intros c H1 H2 H4. unfold constraint_string.
  destruct (N.eqb_spec c 1), (N.eqb_spec c 2), (N.eqb_spec c 4); congruence.
Qed.
Print Assumptions C58_combined_refuted.
