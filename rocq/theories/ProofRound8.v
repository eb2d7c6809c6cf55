(** Reading back printed statements: INSERT, DELETE and UPDATE. *)
From Coq Require Import Lia Permutation.
From Verif Require Import GoBase ModelUtil ModelNum ModelFn ModelQuery ModelEbnf ModelGrammar ModelLex ModelVisitor
  SpecFn SpecQuery SpecParse SpecRound FactsBase ProofEbnf ProofMachine ProofFn ProofNum ProofQuery ProofParse ProofLex ProofRound ProofRound2 ProofRound3
  ProofRound4 ProofRound5 ProofRound6 ProofRound7.

(** ** INSERT *)

Definition row := (lit * list lit)%type.
Definition row_ok (w : row) : Prop := lit_ok (fst w) /\ Forall lit_ok (snd w).
Definition rtoks (w : row) : list token := row_toks (fst w) (snd w).
Definition rtree (w : row) : children := [(""%string, row_tree (fst w) (snd w))].
Definition insert_toks (t c0 : string) (cs : list string) (w0 : row) (ws : list row) : list token :=
  [mkTok "INSERT_" "INSERT"; mkTok "INTO_" "INTO"; idt t; open_; idt c0] ++ clist id1 cs ++ [close_; mkTok "VALUES_" "VALUES"]
  ++ rtoks w0 ++ clist rtoks ws.
Definition insert_tree (t c0 : string) (cs : list string) (w0 : row) (ws : list row) : tree :=
  Node "sql_stmt" [(""%string, Node "insert_stmt"
    ([(""%string, Leaf (mkTok "INSERT_" "INSERT")); (""%string, Leaf (mkTok "INTO_" "INTO"));
      (""%string, Node "table_name" (ident t)); (""%string, Leaf open_)] ++ col c0 ++ ctree col cs ++ [(""%string, Leaf close_);
      (""%string, Node "values_clause" ((""%string, Leaf (mkTok "VALUES_" "VALUES")) :: rtree w0 ++ ctree rtree ws))]))].
Lemma insert_reads t c0 cs w0 ws : row_ok w0 -> Forall row_ok ws -> stmt_reads (insert_toks t c0 cs w0 ws) (insert_tree t c0 cs w0 ws).
Proof.
  intros W0 Ws k K tl r T H. unfold insert_toks. rewrite <- !app_assoc. cbn [app]. enter.
  go (Some stmt_follow) [mkTok "INSERT_" "INSERT"; mkTok "INTO_" "INTO"; idt t; open_; idt c0] 0 AtStar.
  by_reads (names_reads cs None ["CLOSE_PAR"%string] ltac:(not_in)); [left; reflexivity|].
  go (Some stmt_follow) [close_; mkTok "VALUES_" "VALUES"] 0 (AtRule "value_row").
  by_reads (row_reads (fst w0) (snd w0) None ("COMMA"%string :: stmt_ends) (proj1 W0) (proj2 W0)); [apply heads_clist; exact T|].
  go (Some stmt_follow) (@nil token) 0 AtStar.
  by_reads (list_reads_any (Rule "value_row" 0) rtoks rtree None stmt_ends ws ltac:(vm_compute; reflexivity) ltac:(not_in)
    (fun x Ix => row_reads (fst x) (snd x) None ("COMMA"%string :: stmt_ends) (proj1 (proj1 (Forall_forall _ _) Ws x Ix)) (proj2 (proj1 (Forall_forall _ _) Ws x Ix))));
    [exact T|].
  unfold insert_tree in H. read_on T tl H.
Qed.

(** the values of a row *)
Definition vals := (literal * list literal)%type.
Definition vals_ok (v : vals) : Prop := literal_ok (fst v) /\ Forall literal_ok (snd v).
Definition row_of (v : vals) : row := (lit_of (fst v), map lit_of (snd v)).
Definition lits_pieces (l : literal) : list piece := lit_pieces (lit_of l).
Definition vals_pieces (v : vals) : list piece := lp :: (lits_pieces (fst v) ++ listed lits_pieces (snd v)) ++ [rp].
(** the columns of a row: the names and the values, one by one *)
Definition pair_row (names : list string) (vs : list literal) : list column := map (fun p => new_value_column (fst p) (snd p)) (combine names vs).

Lemma vals_row v : vals_ok v -> row_ok (row_of v).
Proof.
  intros [A B]. split; [apply literal_lit; exact A|]. cbn [row_of snd]. apply Forall_map. revert B. apply Forall_impl. intros l L. apply literal_lit. exact L.
Qed.
Lemma clist_map {A B} (f : B -> list token) (g : A -> B) xs : clist f (map g xs) = clist (fun x => f (g x)) xs.
Proof. unfold clist. induction xs as [|x xs IH]; [reflexivity|]. cbn [map flat_map]. rewrite IH. reflexivity. Qed.
Lemma ctree_map {A B} (f : B -> children) (g : A -> B) xs : ctree f (map g xs) = ctree (fun x => f (g x)) xs.
Proof. unfold ctree. induction xs as [|x xs IH]; [reflexivity|]. cbn [map flat_map]. rewrite IH. reflexivity. Qed.
Lemma good_vals v : vals_ok v -> good (vals_pieces v).
Proof.
  intros [A B]. unfold vals_pieces. apply good_lp, good_app_rp; [|apply good_nil]. apply good_then_listed; [apply literal_pieces; exact A|].
  revert B. apply Forall_impl. intros l L. apply literal_pieces. exact L.
Qed.
Lemma shown_vals v : vals_ok v -> shown (vals_pieces v) = rtoks (row_of v).
Proof.
  intros [A B]. unfold vals_pieces, rtoks, row_toks, row_of. cbn [fst snd].
  change (lp :: (lits_pieces (fst v) ++ listed lits_pieces (snd v)) ++ [rp]) with ([lp] ++ (lits_pieces (fst v) ++ listed lits_pieces (snd v)) ++ [rp]).
  rewrite !shown_app, shown_listed. unfold lits_pieces at 1. rewrite (proj2 (proj2 (literal_pieces _ A))).
  rewrite (clist_ext _ (fun l => lit_toks (lit_of l)) (snd v)); [|intros l I; apply literal_pieces; exact (proj1 (Forall_forall _ _) B l I)].
  rewrite <- (clist_map lit_toks lit_of). rewrite <- !app_assoc. reflexivity.
Qed.
Lemma glue_vals v : vals_ok v -> glue (vals_pieces v) = ("(" ++ join_with_comma (map literal_string (fst v :: snd v)) ++ ")")%string.
Proof.
  intros [A B]. unfold vals_pieces. rewrite glue_cons', glue_app, glue_listed, glue_one.
  rewrite (map_ext_in (fun x => glue (lits_pieces x)) literal_string); [reflexivity|].
  intros l I. apply literal_pieces. destruct I as [<-|I]; [exact A|exact (proj1 (Forall_forall _ _) B l I)].
Qed.

(** what the visitor makes of a row *)
Lemma v_row_lits : forall vs names, Forall literal_ok vs ->
  v_row names (map (fun l => Node "expr" [(""%string, lit_tree (lit_of l))]) vs) = Ok (pair_row names vs).
Proof.
  induction vs as [|l vs IH]; intros names F; [unfold pair_row; destruct names; reflexivity|].
  inversion F as [|? ? Fl Fs]; subst. cbn [map v_row].
  change (sub "comparison_expr" _) with (@None tree). cbn iota. change (sub "literal_value" _) with (Some (lit_tree (lit_of l))). cbn iota.
  rewrite (proj2 (literal_lit l Fl)). destruct names as [|n names]; rewrite IH by exact Fs; reflexivity.
Qed.
Lemma row_exprs v : subs "expr" (row_tree (fst (row_of v)) (snd (row_of v))) = map (fun l => Node "expr" [(""%string, lit_tree (lit_of l))]) (fst v :: snd v).
Proof.
  unfold row_tree, row_of. cbn [fst snd]. rewrite subs_node, named_cons. cbn [is_rule].
  rewrite !named_app, named_ctree. change (named "expr" [(""%string, Leaf close_)]) with (@nil tree). rewrite app_nil_r.
  change (fun x => named "expr" (lite x)) with (fun x => [Node "expr" [(""%string, lit_tree x)]]). rewrite flat_map_one, map_map. reflexivity.
Qed.

Lemma names_of_pairs names vs : length vs = length names -> column_names (pair_row names vs) = names.
Proof.
  unfold column_names, pair_row. rewrite map_map. cbn [c_name new_value_column]. revert vs.
  induction names as [|n names IH]; intros [|v vs] L; try discriminate L; [reflexivity|]. cbn [combine map fst]. rewrite IH by (cbn in L; lia). reflexivity.
Qed.
Lemma values_of_pairs names vs : length vs = length names -> map (fun c => opt_literal_string (c_lit c)) (pair_row names vs) = map literal_string vs.
Proof.
  unfold pair_row. rewrite map_map. revert vs.
  induction names as [|n names IH]; intros [|v vs] L; try discriminate L; [reflexivity|]. cbn [combine map]. rewrite IH by (cbn in L; lia). reflexivity.
Qed.

(** any INSERT of rows of literals, also with fewer or more values than columns *)
Definition insert_pieces (t c0 : string) (cs : list string) (v0 : vals) (vs : list vals) : list piece :=
  spaced [kw ["INSERT"]; kw ["INTO"]; [PWord t]; par_names c0 cs; kw ["VALUES"]; vals_pieces v0 ++ listed vals_pieces vs].
Lemma insert_any entries t c0 cs v0 vs : plain t -> plain c0 -> Forall plain cs -> Forall vals_ok (v0 :: vs) ->
  let ps := insert_pieces t c0 cs v0 vs in
  good ps /\ heads starts (shown ps) /\ exists T, stmt_reads (shown ps) T
    /\ v_statement entries T = Ok (Some (SInsert (new_table (unescape_name_string t)) (map (fun v => pair_row (c0 :: cs) (fst v :: snd v)) (v0 :: vs)))).
Proof.
  intros P C0 C V ps. subst ps. unfold insert_pieces. inversion V as [|? ? V0 Vs]; subst. split; [|split].
  - goods; [apply good_par_names; assumption|apply good_vals; exact V0|]. revert Vs. apply Forall_impl. exact good_vals.
  - rewrite shown_spaced. cbn [flat_map]. starts_ok.
  - exists (insert_tree t c0 cs (row_of v0) (map row_of vs)). split.
    + replace (shown _) with (insert_toks t c0 cs (row_of v0) (map row_of vs)).
      * apply insert_reads; [apply vals_row; exact V0|]. apply Forall_map. revert Vs. apply Forall_impl. exact vals_row.
      * rewrite shown_spaced. cbn [flat_map]. rewrite shown_app, shown_listed, (shown_par_names c0 cs C0 C), (shown_vals v0 V0). show_words.
        rewrite (clist_ext _ (fun v => rtoks (row_of v)) vs (fun v I => shown_vals v (proj1 (Forall_forall _ _) Vs v I))).
        unfold insert_toks. rewrite clist_map, app_nil_r. toks. reflexivity.
    + unfold insert_tree. match goal with |- v_statement _ (Node _ [(_, ?n)]) = _ => transitivity (rbind (v_insert n) (fun x => Ok (Some x))); [reflexivity|] end.
      unfold v_insert. change (sub "table_name" _) with (Some (Node "table_name" (ident t))).
      unfold name_of, text_of. cbn [need rbind]. rewrite text_ident.
      match goal with |- context[sub "values_clause" ?n] =>
        assert (sub "values_clause" n = Some (Node "values_clause" ((""%string, Leaf (mkTok "VALUES_" "VALUES")) :: rtree (row_of v0) ++ ctree rtree (map row_of vs)))) as ->;
        [|assert (subs "column_name" n = map (fun x => Node "column_name" (ident x)) (c0 :: cs)) as ->] end.
      * unfold sub. rewrite subs_node, !named_app, named_ctree. rewrite (flat_none "values_clause" col cs (fun x => eq_refl)). reflexivity.
      * rewrite subs_node, !named_app, named_ctree.
        change (fun x => named "column_name" (col x)) with (fun x => [Node "column_name" (ident x)]). rewrite flat_map_one.
        match goal with |- context[map ?f cs ++ ?x] => change x with (@nil tree) end. rewrite app_nil_r. reflexivity.
      * cbn [need rbind]. rewrite map_map.
        rewrite (map_ext (fun x => text (Node "column_name" (ident x))) (fun x => x) (fun x => text_ident _ x)), map_id.
        rewrite subs_node, named_cons. cbn [is_rule]. rewrite !named_app, named_ctree.
        change (fun x => named "value_row" (rtree x)) with (fun x => [row_tree (fst x) (snd x)]). rewrite flat_map_one, map_map.
        change (named "value_row" (rtree (row_of v0)) ++ map (fun x => row_tree (fst (row_of x)) (snd (row_of x))) vs)
          with (map (fun x => row_tree (fst (row_of x)) (snd (row_of x))) (v0 :: vs)).
        rewrite (collect_map _ _ (fun v => pair_row (c0 :: cs) (fst v :: snd v))); [reflexivity|].
        intros v I. rewrite row_exprs. apply v_row_lits. destruct (proj1 (Forall_forall _ _) V v I). constructor; assumption.
Qed.

Lemma insert_back entries t c0 cs v0 vs : bare t -> plain c0 -> Forall plain cs -> Forall (fun v => vals_ok v /\ length (snd v) = length cs) (v0 :: vs) ->
  comes_back entries (SInsert (new_table t) (map (fun v => pair_row (c0 :: cs) (fst v :: snd v)) (v0 :: vs))).
Proof.
  intros P C0 C F.
  assert (V : Forall vals_ok (v0 :: vs)) by (revert F; apply Forall_impl; intros v X; apply X).
  assert (L : Forall (fun v => length (snd v) = length cs) (v0 :: vs)) by (revert F; apply Forall_impl; intros v X; apply X).
  exists (insert_pieces t c0 cs v0 vs).
  split; [|pose proof (insert_any entries t c0 cs v0 vs (proj1 P) C0 C V) as X; cbn zeta in X; rewrite (proj2 P) in X; exact X]. unfold insert_pieces.
  assert (E : map (fun r => ("(" ++ value_string r ++ ")")%string) (map (fun v => pair_row (c0 :: cs) (fst v :: snd v)) (v0 :: vs))
                = map (fun v => glue (vals_pieces v)) (v0 :: vs)).
  { rewrite map_map. apply map_ext_in. intros v I. unfold value_string.
    rewrite values_of_pairs by (cbn [length]; f_equal; exact (proj1 (Forall_forall _ _) L v I)).
    symmetry. apply glue_vals. exact (proj1 (Forall_forall _ _) V v I). }
  unfold stmt_string, join_with_space. rewrite E. unfold name_string, insert_columns.
  assert (E2 : column_names (pair_row (c0 :: cs) (fst v0 :: snd v0)) = c0 :: cs) by (apply names_of_pairs; inversion L; subst; cbn; congruence).
  cbn [map]. rewrite E2, glue_spaced. cbn [map]. rewrite glue_par_names, glue_listed, glue_one, full_name_of_name. reflexivity.
Qed.

(** ** Conditions *)

(** the parts of a comparison *)
Definition kind_of_op (op : cmp_op) : string * string :=
  match op with OpEQ => ("ASSIGN", "=") | OpNEQ => ("NOT_EQ1", "!=") | OpLT => ("LT", "<") | OpGT => ("GT", ">") | OpLE => ("LT_EQ", "<=") | OpGE => ("GT_EQ", ">=") | _ => ("", "") end%string.
Definition basic_ops : list cmp_op := [OpEQ; OpNEQ; OpLT; OpGT; OpLE; OpGE].
Ltac each_basic O := unfold basic_ops in O; cbn [In] in O; repeat (destruct O as [<-|O]; [|]); [..|contradiction O].
Definition cmp_of (op : cmp_op) (c : string) (l : literal) : cmp := mkCmp c (kind_of_op op) (lit_of l).
Definition cmp_pieces (op : cmp_op) (c : string) (l : literal) : list piece :=
  spaced [[PWord c]; PSym (fst (kind_of_op op)) (snd (kind_of_op op)) :: sp :: lits_pieces l].
Lemma cmp_of_ok op c l : In op basic_ops -> literal_ok l -> cmp_ok (cmp_of op c l).
Proof. intros O L. split; [each_basic O; vm_compute; tauto|apply literal_lit; exact L]. Qed.
Lemma good_cmp op c l : In op basic_ops -> plain c -> literal_ok l -> good (cmp_pieces op c l).
Proof. intros O P L. unfold cmp_pieces. goods. apply good_op; [each_basic O; reflexivity|apply literal_pieces; exact L]. Qed.
Lemma glue_cmp op c l : In op basic_ops -> literal_ok l -> glue (cmp_pieces op c l) = expr_string (ECmp op (new_column c) (Some l)).
Proof.
  intros O L. unfold cmp_pieces. rewrite glue_spaced. cbn [map]. rewrite glue_one, !glue_cons'. unfold lits_pieces. rewrite (proj1 (proj2 (literal_pieces l L))).
  each_basic O; reflexivity.
Qed.
Lemma shown_cmp op c l : In op basic_ops -> plain c -> literal_ok l -> shown (cmp_pieces op c l) = cmp_toks (cmp_of op c l).
Proof.
  intros O P L. unfold cmp_pieces. rewrite shown_spaced. cbn [flat_map]. rewrite (shown_name c P), app_nil_r.
  change (PSym (fst (kind_of_op op)) (snd (kind_of_op op)) :: sp :: lits_pieces l) with ([PSym (fst (kind_of_op op)) (snd (kind_of_op op)); sp] ++ lits_pieces l).
  rewrite shown_app. unfold lits_pieces. rewrite (proj2 (proj2 (literal_pieces l L))). each_basic O; reflexivity.
Qed.
Lemma v_cmp_of op c l : In op basic_ops -> literal_ok l -> v_cmp (cmp_tree (cmp_of op c l)) = Ok (Some (ECmp op (new_column c) (Some l))).
Proof.
  intros O L. unfold v_cmp. change (sub "column_name" _) with (Some (Node "column_name" (ident c))). unfold text_of. cbn [need rbind]. rewrite text_ident.
  change (sub "literal_value" _) with (Some (lit_tree (lit_of l))). rewrite (proj2 (literal_lit l L)). each_basic O; reflexivity.
Qed.

(** the condition of a statement is printed, read and visited *)
Definition condition_reads (e : expr) : Prop :=
  exists ps c, glue ps = expr_string e /\ good ps /\ shown ps = cond_toks c /\ cond_ok c /\ v_expr (cond_tree c) = Ok (Some e).
Lemma comparison_parts a : comparison_ok a -> exists op c l, a = ECmp op (new_column c) (Some l) /\ In op basic_ops /\ plain c /\ literal_ok l.
Proof. intros [op c l O C L]. exists op, c, l. split; [reflexivity|]. split; [exact O|]. split; [apply any_is; exact C|exact L]. Qed.
Lemma condition_back e : condition_ok (Some e) -> condition_reads e.
Proof.
  intro C. inversion C as [|a A|a b A B|a b A B]; subst.
  - destruct (comparison_parts _ A) as (op & c & l & -> & O & P & L). exists (cmp_pieces op c l), (CCmp (cmp_of op c l)).
    split; [apply glue_cmp; assumption|]. split; [apply good_cmp; assumption|]. split; [apply shown_cmp; assumption|]. split; [apply cmp_of_ok; assumption|].
    unfold v_expr. change (sub "and_expr" _) with (@None tree). change (sub "or_expr" _) with (@None tree).
    change (sub "comparison_expr" _) with (Some (cmp_tree (cmp_of op c l))). cbn iota. apply v_cmp_of; assumption.
  - destruct (comparison_parts _ A) as (op & c & l & -> & O & P & L). destruct (comparison_parts _ B) as (op' & c' & l' & -> & O' & P' & L').
    exists (spaced [cmp_pieces op c l; kw ["AND"%string]; cmp_pieces op' c' l']), (CAnd "AND" (cmp_of op c l) (cmp_of op' c' l')).
    split; [rewrite glue_spaced; cbn [map]; rewrite !glue_cmp by assumption; reflexivity|].
    split; [goods; apply good_cmp; assumption|].
    split; [rewrite shown_spaced; cbn [flat_map]; rewrite !shown_cmp by assumption; show_words; rewrite app_nil_r; reflexivity|].
    split; [split; apply cmp_of_ok; assumption|].
    unfold v_expr. change (sub "and_expr" _) with (Some (conn_tree "and_expr" "AND_" "AND" (cmp_of op c l) (cmp_of op' c' l'))). cbn iota.
    unfold v_pair. change (lab "left" _) with (Some (cmp_tree (cmp_of op c l))). change (lab "right" _) with (Some (cmp_tree (cmp_of op' c' l'))).
    cbn [need rbind]. rewrite !v_cmp_of by assumption. reflexivity.
  - destruct (comparison_parts _ A) as (op & c & l & -> & O & P & L). destruct (comparison_parts _ B) as (op' & c' & l' & -> & O' & P' & L').
    exists (spaced [cmp_pieces op c l; kw ["OR"%string]; cmp_pieces op' c' l']), (COr "OR" (cmp_of op c l) (cmp_of op' c' l')).
    split; [rewrite glue_spaced; cbn [map]; rewrite !glue_cmp by assumption; reflexivity|].
    split; [goods; apply good_cmp; assumption|].
    split; [rewrite shown_spaced; cbn [flat_map]; rewrite !shown_cmp by assumption; show_words; rewrite app_nil_r; reflexivity|].
    split; [split; apply cmp_of_ok; assumption|].
    unfold v_expr. change (sub "and_expr" _) with (@None tree). change (sub "or_expr" _) with (Some (conn_tree "or_expr" "OR_" "OR" (cmp_of op c l) (cmp_of op' c' l'))). cbn iota.
    unfold v_pair. change (lab "left" _) with (Some (cmp_tree (cmp_of op c l))). change (lab "right" _) with (Some (cmp_tree (cmp_of op' c' l'))).
    cbn [need rbind]. rewrite !v_cmp_of by assumption. reflexivity.
Qed.

(** read a condition at the current state *)
Lemma law_here k s ks : law (Some stmt_follow) k -> forallb okf s = true -> (forall cs, firsts (Some stmt_follow) 2000 (MRet cs) s = Some ks) ->
  forallb (fun x => existsb (String.eqb x) where_follow) ks = true -> law (Some where_follow) (den k s).
Proof.
  intros K O F I. apply (law_weaken ks); [|exact (law_den (Some stmt_follow) 2000 s ks k K O F)].
  intros x X. rewrite forallb_forall in I. specialize (I x X). apply existsb_exists in I. destruct I as (y & Y & E). apply String.eqb_eq in E. subst y. exact Y.
Qed.
Ltac by_cond K C := by_reads (cond_reads _ C);
  [eapply law_here; [exact K|vm_compute; reflexivity|intro; vm_compute; reflexivity|vm_compute; reflexivity]| |].
Definition where_blocks (ps : list piece) : list (list piece) := [kw ["WHERE"%string]; ps].

Lemma delete_back entries t w : plain t -> condition_ok w -> comes_back entries (SDelete (new_table t) w).
Proof.
  intros P W. destruct w as [e|].
  - destruct (condition_back e W) as (ps & c & G & Gd & S & C & V).
    exists (spaced [kw ["DELETE"%string]; kw ["FROM"%string]; [PWord t]; kw ["WHERE"%string]; ps]).
    split; [unfold stmt_string, where_strings, join_with_space; rewrite glue_spaced; cbn [map app has_conditions condition_string]; rewrite G, glue_one, full_name_of_name; reflexivity|].
    split; [goods; exact Gd|]. rewrite shown_spaced. cbn [flat_map]. rewrite S, app_nil_r. show_words. cbn [app]. split; [starts_ok|]. eexists. split.
    + intros k K tl r T H. toks. enter. go_known (Some stmt_follow) 0 (AtRule "expr").
      by_cond K C; [apply (heads_incl stmt_ends); [in_list|exact T]|]. read_on T tl H.
    + cbn -[unescape_name_string unescape_string append v_expr cond_tree]. rewrite V, !append_nil_r. reflexivity.
  - exists (spaced [kw ["DELETE"%string]; kw ["FROM"%string]; [PWord t]]). small.
Qed.
(** with a schema name, which is read into the table name *)
Lemma delete_full_back entries q t w : plain q -> plain t -> condition_ok w -> comes_back entries (SDelete (new_table (q ++ "." ++ t)) w).
Proof.
  intros Q P W. destruct w as [e|].
  - destruct (condition_back e W) as (ps & c & G & Gd & S & C & V).
    exists (spaced [kw ["DELETE"%string]; kw ["FROM"%string]; [PWord q; PSym "DOT" "."; PWord t]; kw ["WHERE"%string]; ps]).
    split; [unfold stmt_string, where_strings, join_with_space; rewrite glue_spaced; cbn [map app has_conditions condition_string]; rewrite G, glue_schema, full_name_of_name; reflexivity|].
    split; [goods; exact Gd|]. rewrite shown_spaced. cbn [flat_map]. rewrite S, app_nil_r. show_words. cbn [app]. split; [starts_ok|]. eexists. split.
    + intros k K tl r T H. toks. enter. go_known (Some stmt_follow) 0 (AtRule "expr").
      by_cond K C; [apply (heads_incl stmt_ends); [in_list|exact T]|]. read_on T tl H.
    + cbn -[unescape_name_string unescape_string append v_expr cond_tree]. rewrite V, !append_nil_r. reflexivity.
  - exists (spaced [kw ["DELETE"%string]; kw ["FROM"%string]; [PWord q; PSym "DOT" "."; PWord t]]). small.
Qed.
