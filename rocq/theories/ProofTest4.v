(** SELECT with a test in its WHERE clause. *)
From Coq Require Import Lia Permutation.
From Verif Require Import GoBase ModelUtil ModelNum ModelFn ModelQuery ModelEbnf ModelGrammar ModelLex ModelVisitor
  SpecFn SpecQuery SpecParse SpecRound SpecSelect SpecValue SpecTest FactsBase ProofEbnf ProofMachine ProofFn ProofNum ProofQuery ProofParse ProofLex ProofRound ProofRound2 ProofRound3
  ProofRound4 ProofRound5 ProofRound6 ProofRound7 ProofRound8 ProofRound9 ProofRound10 ProofRound11 ProofRound12 ProofRound13 ProofSelect ProofSelect2 ProofValue ProofValue2
  ProofTest ProofTest2 ProofTest3.

Lemma dtest_first d : dtest_ok d ->
  (exists x l, dtest_toks d = idt x :: l) \/ (exists x l, dtest_toks d = not_ :: idt x :: l) \/ (exists l, dtest_toks d = open_ :: l).
Proof.
  destruct d as [c|c|c r l|c r|n c l l'|n c l ls|c|d]; intros _; cbn [dtest_toks]; try (left; eexists _, _; reflexivity).
  - left. destruct (cond_toks_start c) as (x & l & ->). eexists _, _; reflexivity.
  - right. left. destruct (cond_toks_start c) as (x & l & ->). eexists _, _; reflexivity.
  - right. right. eexists; reflexivity.
Qed.
Definition where_ : token := mkTok "WHERE_" "WHERE".
Definition after_table (tl : list token) : Prop := exists d l, dtest_ok d /\ tl = where_ :: dtest_toks d ++ l.
Lemma from_test t : readsp (Rule "from" 0) (tref_toks (TName t)) (fromc (TName t)) (Some ("COMMA"%string :: from_follow)) after_table.
Proof.
  intros k K tl r (d & l & D & ->) H. destruct (dtest_first d D) as [(x & m & E)|[(x & m & E)|(m & E)]]; rewrite E in *; cbn [tref_toks app] in *.
  - refine (from_reads (TName t) k K _ r _ H). right. right. eexists _, _, _. split; [reflexivity|vm_compute; tauto].
  - enter. unfold where_, not_ in *. go_known (Some ("COMMA"%string :: from_follow)) 3 AtEnd. exact H.
  - enter. unfold where_, open_ in *. go_known (Some ("COMMA"%string :: from_follow)) 2 AtEnd. exact H.
Qed.

Definition tcore_toks (s : rsel) (ss : list rsel) (t : string) (ts : list token) : list token :=
  mkTok "SELECT_" "SELECT" :: rsel_toks s ++ clist rsel_toks ss ++ mkTok "FROM_" "FROM" :: idt t :: where_ :: ts.
Definition tcore_tree (s : rsel) (ss : list rsel) (t : string) (cs : children) : tree :=
  Node "select_core" ((""%string, Leaf (mkTok "SELECT_" "SELECT")) :: rselc s ++ ctree rselc ss ++ (""%string, Leaf (mkTok "FROM_" "FROM")) :: fromc (TName t) ++
    [(""%string, Leaf where_); ("whereExpr"%string, Node "expr" cs)]).
Lemma tcore_reads s ss t d cs : dtest_ok d -> test_reads (dtest_toks d) cs ->
  reads (Rule "select_core" 0) (tcore_toks s ss t (dtest_toks d)) [(""%string, tcore_tree s ss t cs)] (Some core_follow) stmt_ends.
Proof.
  intros D Rd k K tl r T H. unfold tcore_toks. toks. enter.
  assert (S0 : exists kd tx l, rsel_toks s = mkTok kd tx :: l /\ In kd ["STAR"; "IDENTIFIER"]%string) by (destruct s; eexists _, _, _; (split; [reflexivity|cbn [In]; tauto])).
  destruct S0 as (kd & tx & l & S0 & S1).
  assert (E : denm k (MEval (Rule "result_column" 0)) (rsel_toks s ++ clist rsel_toks ss ++ mkTok "FROM_" "FROM" :: idt t :: where_ :: dtest_toks d ++ tl)
      ltac:(match eval vm_compute in (exec (Some core_follow) (at_place 1 (AtRule "result_column")) 14 2000 5000 (MEval (Rule "select_core" 0)) [mkTok "SELECT_" "SELECT"; idt "x"] []) with
      | Some (_, _, ?s) => exact s end) = Found r).
  { by_reads (rsel_reads s); [law_by K|apply (heads_clist rsel_toks ["FROM_"%string]); left; reflexivity|].
    go (Some core_follow) (@nil token) 0 AtStar.
    by_reads (list_reads (Rule "result_column" 0) rsel_toks rselc (Some result_follow) ["FROM_"%string] ss eq_refl ltac:(not_in) (fun x _ => rsel_reads x)); [law_by K|left; reflexivity|].
    go (Some core_follow) [mkTok "FROM_" "FROM"; idt t] 1 (AtRule "from").
    match goal with |- denm _ _ (?a :: ?l) _ = _ => change (a :: l) with (tref_toks (TName t) ++ l) end.
    by_reads (from_test t); [law_by K|exists d, tl; split; [exact D|reflexivity]|].
    go (Some core_follow) [where_] 0 (AtRule "expr").
    by_test K Rd; [apply (heads_incl stmt_ends); [in_list|exact T]|].
    destruct tl as [|[kd0 tx0] tl]; [contradiction|]. cbn [heads tk In stmt_ends] in T. each_kind T; go_known (Some core_follow) 1 AtEnd; (unfold tcore_tree in H; the_end2 H). }
  rewrite S0 in E |- *; cbn [app] in *; cbn [In] in S1.
  each_kind S1; (match goal with |- denm _ _ (?a :: ?b :: _) _ = _ => go (Some core_follow) [a; b] 1 (AtRule "result_column") end; exact E).
Qed.
Definition tselect_tree s ss t cs : tree := Node "sql_stmt" [(""%string, Node "select_stmt" [("parentQuery"%string, tcore_tree s ss t cs)])].
Lemma tselect_reads s ss t d cs : dtest_ok d -> test_reads (dtest_toks d) cs -> stmt_reads (tcore_toks s ss t (dtest_toks d)) (tselect_tree s ss t cs).
Proof.
  intros D Rd k K tl r T H. enter.
  assert (E : denm k (MEval (Rule "select_core" 0)) (tcore_toks s ss t (dtest_toks d) ++ tl)
    ltac:(match eval vm_compute in (exec (Some stmt_follow) (at_place 1 (AtRule "select_core")) 14 2000 5000 (MEval (Rule "sql_stmt" 0)) [mkTok "SELECT_" "SELECT"] []) with
      | Some (_, _, ?s) => exact s end) = Found r).
  { by_reads (tcore_reads s ss t d cs D Rd); [law_by K|exact T|].
    destruct tl as [|[kd tx] tl]; [contradiction|]; cbn [heads tk In stmt_ends] in T; each_kind T; (go_known (Some stmt_follow) 1 AtEnd; unfold tselect_tree in H; the_end H). }
  unfold tcore_toks in E |- *. cbn [app] in E |- *.
  match goal with |- denm _ _ (?a :: _) _ = _ => go (Some stmt_follow) [a] 1 (AtRule "select_core") end. exact E.
Qed.

Lemma tcore_results s ss t cs : subs "result_column" (tcore_tree s ss t cs) = map rsel_tree (s :: ss).
Proof.
  unfold tcore_tree. rewrite subs_node, named_cons, !named_app, named_ctree. change (fun x => named "result_column" (rselc x)) with (fun x => [rsel_tree x]). rewrite flat_map_one.
  cbn [is_rule]. change (named "result_column" (rselc s)) with [rsel_tree s]. rewrite named_cons, named_app. cbn [is_rule].
  match goal with |- [_] ++ _ ++ ?x = _ => change x with (@nil tree) end. rewrite app_nil_r. reflexivity.
Qed.
Lemma tcore_froms s ss t cs : subs "from" (tcore_tree s ss t cs) = [from_tree (TName t)].
Proof.
  unfold tcore_tree. rewrite subs_node, named_cons, !named_app, named_ctree, (flat_none "from" rselc ss (fun x => eq_refl)). reflexivity.
Qed.
Lemma tcore_labelled s ss t cs l : l <> ""%string -> labelled l (tcore_tree s ss t cs) = if String.eqb "whereExpr" l then [Node "expr" cs] else [].
Proof.
  intro N. unfold tcore_tree. change (labelled l (Node "select_core" ?cs)) with (marked l cs).
  rewrite marked_cons_no, !marked_app by exact N. change rselc with (fun x => [(""%string, rsel_tree x)]). rewrite marked_list by exact N.
  rewrite !marked_cons_no, !marked_app by exact N. change fromc with (fun x => [(""%string, from_tree x)]).
  rewrite !marked_cons_no by exact N. unfold marked. cbn [filter fst]. destruct (String.eqb "whereExpr" l); reflexivity.
Qed.

Lemma select_test entries cols t w : some selector_ok cols -> any_name t -> test_given w ->
  parse entries (select_where cols t w) =
    Ok [SSelect (mkSelect [new_table t] cols (match w with Some x => kept_test x | None => None end) [] (mkLimit 0 0) "")].
Proof.
  intros S T W. destruct w as [x|].
  - destruct (as_map_some rsel_selector _ rsel_ok cols selector_as S) as (s & ss & -> & S1 & Ss). pose proof (any_is _ T) as P.
    destruct (test_as x W) as (ps & cs & G & Gd & Rd & V & d & D & Sh). rewrite Sh in Rd.
    assert (A : reads_as entries (spaced [kw ["SELECT"%string]; sels_pieces s ss; kw ["FROM"%string]; [PWord t]; kw ["WHERE"%string]; ps])
      (SSelect (mkSelect [new_table t] (map rsel_selector (s :: ss)) (kept_test x) [] (mkLimit 0 0) ""))).
    { split; [goods; [apply good_sels; constructor; assumption|exact Gd]|]. split; [rewrite shown_spaced; cbn [app flat_map]; starts_ok|].
      exists (tselect_tree s ss t cs). split.
      + replace (shown _) with (tcore_toks s ss t (dtest_toks d)); [apply tselect_reads; assumption|].
        rewrite shown_spaced. cbn [flat_map]. rewrite (shown_sels s ss (Forall_cons s S1 Ss)), (shown_name t P), Sh, app_nil_r. show_words. unfold tcore_toks. toks. reflexivity.
      + unfold tselect_tree. match goal with |- v_statement _ (Node _ [(_, ?n)]) = _ => transitivity (rbind (v_select n) (fun x => Ok (Some x))); [reflexivity|] end.
        unfold v_select.
        assert (lab "parentQuery" (Node "select_stmt" [("parentQuery"%string, tcore_tree s ss t cs)]) = Some (tcore_tree s ss t cs)) as -> by reflexivity.
        cbn iota. rewrite tcore_results, tcore_froms. change [from_tree (TName t)] with (map from_tree [TName t]). rewrite v_froms.
        rewrite (collect_map _ _ rsel_selector (s :: ss)) by (intros y I; apply v_rsel; exact (proj1 (Forall_forall _ _) (Forall_cons s S1 Ss) y I)).
        unfold lab. rewrite !tcore_labelled by discriminate. cbn [String.eqb Ascii.eqb Bool.eqb hd_error v_where]. rewrite V. reflexivity. }
    apply reads_parse in A. rewrite glue_spaced in A. cbn [map] in A.
    assert (glue (sels_pieces s ss) = join ", " (map selector_text (map rsel_selector (s :: ss)))) as E1.
    { rewrite glue_sels by (constructor; assumption). unfold selectors_string, selector_names, join_with_comma. reflexivity. }
    rewrite E1, G, glue_one in A. unfold select_where. cbn [where_text]. exact A.
  - pose proof (query_reads entries (mkQuery Plainly cols [new_table t] None [] None [] NoWindow)) as Q.
    unfold select_where, query_text in *. cbn [q_scope q_selectors q_tables q_where q_group q_having q_order q_window where_text conditions clause map window_text] in *.
    change (join ", " [t_name (new_table t)]) with t in Q. apply Q.
    split; cbn [q_scope q_selectors q_tables q_where q_group q_having q_order q_window]; try (constructor; fail); try exact I; try (split; [constructor|reflexivity]); try exact cn_none.
    + exact S.
    + split; [discriminate|]. constructor; [|constructor]. constructor. exact T.
Qed.
