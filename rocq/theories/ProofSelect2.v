(** SELECT as it is written: what the parser makes of it. *)
From Coq Require Import Lia Permutation.
From Verif Require Import GoBase ModelUtil ModelNum ModelFn ModelQuery ModelEbnf ModelGrammar ModelLex ModelVisitor
  SpecFn SpecQuery SpecParse SpecRound SpecSelect FactsBase ProofEbnf ProofMachine ProofFn ProofNum ProofQuery ProofParse ProofLex ProofRound ProofRound2 ProofRound3
  ProofRound4 ProofRound5 ProofRound6 ProofRound7 ProofRound8 ProofRound9 ProofRound10 ProofRound11 ProofRound12 ProofRound13 ProofSelect.

(** ** The visitor *)

Lemma named_leafs n ts : named n (leafs ts) = [].
Proof. induction ts as [|t ts IH]; [reflexivity|]. exact IH. Qed.
Lemma named_gexpr n xs : n <> "expr"%string -> named n (ctree gexpr xs) = [].
Proof.
  intro N. rewrite named_ctree. apply flat_none. intro x. unfold gexpr. rewrite named_cons. cbn [is_rule].
  destruct (String.eqb_spec n "expr") as [E|_]; [contradiction|]. destruct (String.eqb_spec "expr" n) as [E|_]; [congruence|reflexivity].
Qed.
Lemma cond_tree_node c : exists cs, cond_tree c = Node "expr" cs.
Proof. destruct c; eexists; reflexivity. Qed.
Lemma named_grpc n g : n <> "expr"%string -> named n (grpc g) = [].
Proof.
  intro N. destruct g as [[[c cs] h]|]; [|reflexivity]. unfold grpc. rewrite !named_cons, !named_app, named_gexpr by exact N. cbn [is_rule app].
  assert (named n (gexpr c) = []) as -> by (unfold gexpr; rewrite named_cons; cbn [is_rule]; destruct (String.eqb_spec "expr" n); [congruence|]; destruct (String.eqb_spec n "expr"); [contradiction|reflexivity]).
  destruct h as [h|]; [|reflexivity]. unfold havingc. rewrite !named_cons. destruct (cond_tree_node h) as (x & ->). cbn [is_rule].
  destruct (String.eqb_spec "expr" n); [congruence|]. destruct (String.eqb_spec n "expr"); [contradiction|reflexivity].
Qed.
Lemma core2_results q s ss t ts w g : subs "result_column" (core2_tree q s ss t ts w g) = map rsel_tree (s :: ss).
Proof.
  unfold core2_tree. rewrite subs_node, named_cons, !named_app, named_leafs, named_ctree. change (fun x => named "result_column" (rselc x)) with (fun x => [rsel_tree x]). rewrite flat_map_one.
  rewrite named_cons, !named_app, named_ctree, (flat_none "result_column" fromc ts (fun x => eq_refl)), named_grpc by discriminate.
  assert (named "result_column" (wherec w) = []) as -> by (destruct w; reflexivity).
  cbn [is_rule app]. change (named "result_column" (fromc t)) with (@nil tree). cbn [app]. rewrite app_nil_r. reflexivity.
Qed.
Lemma core2_froms q s ss t ts w g : subs "from" (core2_tree q s ss t ts w g) = map from_tree (t :: ts).
Proof.
  unfold core2_tree. rewrite subs_node, named_cons, !named_app, named_leafs, named_ctree, (flat_none "from" rselc ss (fun x => eq_refl)).
  rewrite named_cons, !named_app, named_ctree, named_grpc by discriminate. change (fun x => named "from" (fromc x)) with (fun x => [from_tree x]). rewrite flat_map_one.
  assert (named "from" (wherec w) = []) as -> by (destruct w; reflexivity).
  cbn [is_rule app]. change (named "from" (rselc s)) with (@nil tree). cbn [app]. rewrite app_nil_r. reflexivity.
Qed.
Lemma marked_leafs l ts : l <> ""%string -> marked l (leafs ts) = [].
Proof. intro N. induction ts as [|t ts IH]; [reflexivity|]. cbn [leafs map]. rewrite marked_cons_no by exact N. exact IH. Qed.
Lemma core2_labelled q s ss t ts w g l : l <> ""%string -> labelled l (core2_tree q s ss t ts w g) = marked l (wherec w) ++ marked l (grpc g).
Proof.
  intro N. unfold core2_tree. change (labelled l (Node "select_core" ?cs)) with (marked l cs).
  rewrite marked_cons_no, !marked_app, marked_leafs by exact N. change rselc with (fun x => [(""%string, rsel_tree x)]). rewrite marked_list by exact N.
  rewrite !marked_cons_no, !marked_app by exact N. change fromc with (fun x => [(""%string, from_tree x)]). rewrite marked_list by exact N.
  rewrite !marked_cons_no by exact N. reflexivity.
Qed.
Lemma marked_gexpr l cs : l <> ""%string -> l <> "groupByExpr"%string -> marked l (ctree gexpr cs) = [].
Proof.
  intros N M. rewrite marked_ctree by exact N. induction cs as [|x cs IH]; [reflexivity|]. cbn [flat_map]. rewrite IH, app_nil_r.
  unfold marked, gexpr. cbn [filter fst]. destruct (String.eqb_spec "groupByExpr" l); [congruence|reflexivity].
Qed.
Lemma marked_where g : marked "whereExpr" (grpc g) = [].
Proof.
  destruct g as [[[c cs] h]|]; [|reflexivity]. unfold grpc. rewrite !marked_cons_no, !marked_app, marked_gexpr by discriminate. destruct h; reflexivity.
Qed.
Lemma v_dorders os l : forall q n r, is_rule "order_by_stmt" r = false ->
  (match sub "order_by_stmt" (Node n ((q, r) :: dordersc os ++ winc l)) with
   | Some o => let* l := collect v_order (subs "ordering_term" o) in Ok (concat l)
   | None => Ok [] end) = Ok (concat (map di_orders os)).
Proof.
  intros q n r N. unfold sub. rewrite subs_node, named_cons, N, named_app.
  assert (named "order_by_stmt" (winc l) = []) as -> by (destruct l; reflexivity). rewrite app_nil_r.
  destruct os as [|o os]; [reflexivity|]. unfold dordersc.
  match goal with |- context[hd_error (named _ [(_, ?x)])] => change (hd_error (named "order_by_stmt" [(""%string, x)])) with (Some x) end. cbn iota.
  rewrite subs_node, !named_cons, named_app, named_ctree. cbn [is_rule].
  change (fun x => named "ordering_term" (dic x)) with (fun x => [di_tree x]). rewrite flat_map_one.
  change (named "ordering_term" (dic o) ++ map di_tree os) with (map di_tree (o :: os)).
  rewrite (collect_map _ _ di_orders (o :: os)) by (intros x _; apply v_di). reflexivity.
Qed.

(** ** Pieces *)

Definition qual_pieces (q : qual) : list (list piece) := match q with QNone => [] | QDistinct => [kw ["DISTINCT"%string]] | QAll => [kw ["ALL"%string]] end.
Definition having_pieces (h : option (list piece)) : list (list piece) := match h with Some ps => [kw ["HAVING"%string]; ps] | None => [] end.
Definition groups_pieces (g : option (string * list string)) : list (list piece) :=
  match g with Some (c, cs) => [spaced [kw ["GROUP"%string; "BY"%string]; [PWord c] ++ listed word1 cs]] | None => [] end.

Lemma good_dorders os : Forall (fun o => plain (fst o)) os -> Forall good (dorders_pieces os).
Proof.
  destruct os as [|o os]; intro F; [constructor|]. inversion F; subst. unfold dorders_pieces. goods; [apply good_di; assumption|].
  revert H2. apply Forall_impl. exact good_di.
Qed.
Lemma shown_dorders os : Forall (fun o => plain (fst o)) os -> flat_map shown (dorders_pieces os) = dorders_toks os.
Proof.
  destruct os as [|o os]; intro F; [reflexivity|]. inversion F as [|? ? F0 Fs]; subst. unfold dorders_pieces. cbn [flat_map]. rewrite app_nil_r, shown_spaced. cbn [flat_map].
  rewrite app_nil_r, shown_app, shown_listed, (shown_di o F0), (clist_ext _ di_toks os (fun x I => shown_di x (proj1 (Forall_forall _ _) Fs x I))). reflexivity.
Qed.

(** a condition in pieces *)
Definition cond_pieces (w : condition) (ps : option (list piece)) (c : option cond) : Prop :=
  match w, ps, c with
  | None, None, None => True
  | Some e, Some p, Some c => glue p = expr_string e /\ good p /\ shown p = cond_toks c /\ cond_ok c /\ v_expr (cond_tree c) = Ok (Some e)
  | _, _, _ => False
  end.
Lemma cond_in_pieces w : condition_ok w -> exists ps c, cond_pieces w ps c.
Proof.
  intro W. destruct w as [e|]; [|exists None, None; exact I]. destruct (condition_back e W) as (ps & c & H). exists (Some ps), (Some c). exact H.
Qed.

Definition grp_of (g : option (string * list string)) (h : option cond) : option grp := match g with Some (c, cs) => Some (c, cs, h) | None => None end.

Lemma select2_as entries q s ss t ts w pw cw g h ph ch os l :
  tref_ok t -> Forall tref_ok ts -> Forall rsel_ok (s :: ss) -> cond_pieces w pw cw -> cond_pieces h ph ch ->
  match g with Some (c, cs) => plain c /\ Forall plain cs | None => h = None end ->
  Forall (fun o => plain (fst o)) os -> win_ok l ->
  reads_as entries
    (spaced ([kw ["SELECT"%string]] ++ qual_pieces q ++ [sels_pieces s ss; kw ["FROM"%string]; tbls_pieces t ts] ++ conds_pieces pw ++ groups_pieces g ++ having_pieces ph ++ dorders_pieces os ++ win_pieces l))
    (SSelect (mkSelect (map tref_table (t :: ts)) (map rsel_selector (s :: ss)) w (concat (map di_orders os)) (win_limit l) (match g with Some (c, _) => c | None => ""%string end))).
Proof.
  intros P F S W Hv G O L.
  assert (W1 : match cw with Some c => cond_ok c | None => True end) by (destruct w, pw, cw; cbn [cond_pieces] in W; tauto).
  assert (H1 : match ch with Some c => cond_ok c | None => True end) by (destruct h, ph, ch; cbn [cond_pieces] in Hv; tauto).
  assert (GW : Forall good (conds_pieces pw)).
  { destruct w, pw, cw; cbn [cond_pieces] in W; try contradiction; unfold conds_pieces; goods. apply W. }
  assert (GH : Forall good (having_pieces ph)).
  { destruct h, ph, ch; cbn [cond_pieces] in Hv; try contradiction; unfold having_pieces; goods. apply Hv. }
  assert (GG : Forall good (groups_pieces g)).
  { destruct g as [[c cs]|]; unfold groups_pieces; [|constructor]. destruct G as [G1 G2]. goods. apply good_names. exact G2. }
  split; [|split].
  - apply good_spaced. repeat (apply Forall_app; split); try assumption; [goods|destruct q; unfold qual_pieces; goods|goods; [apply good_sels; exact S|apply good_tbls; assumption]|apply good_dorders; exact O|apply good_win].
  - rewrite shown_spaced. cbn [app flat_map]. starts_ok.
  - exists (select2_tree q s ss t ts cw (grp_of g ch) os l). split.
    + replace (shown _) with (select2_toks q s ss t ts cw (grp_of g ch) os l).
      { apply select2_reads; [exact W1|]. destruct g as [[c cs]|]; [|exact I]. cbn [grp_of grp_ok]. destruct ch; exact H1. }
      assert (flat_map shown (conds_pieces pw) = where_toks cw) as CW.
      { destruct w, pw, cw; cbn [cond_pieces] in W; try contradiction; [|reflexivity]. cbn [conds_pieces flat_map]. rewrite (proj1 (proj2 (proj2 W))), app_nil_r. reflexivity. }
      assert (flat_map shown (groups_pieces g) ++ flat_map shown (having_pieces ph) = grp_toks (grp_of g ch)) as CG.
      { destruct g as [[c cs]|].
        - destruct G as [G1 G2]. cbn [groups_pieces flat_map]. rewrite app_nil_r, shown_spaced. cbn [flat_map]. rewrite shown_app, (shown_name c G1), (shown_names cs G2), app_nil_r. cbn [grp_of grp_toks].
          assert (flat_map shown (having_pieces ph) = having_toks ch) as -> by (destruct h, ph, ch; cbn [cond_pieces] in Hv; try contradiction; [cbn [having_pieces flat_map]; rewrite (proj1 (proj2 (proj2 Hv))), app_nil_r; reflexivity|reflexivity]).
          show_words. reflexivity.
        - subst h. destruct ph, ch; cbn [cond_pieces] in Hv; try contradiction. reflexivity. }
      rewrite shown_spaced, !flat_map_app, CW, (shown_dorders os O), shown_win.
      rewrite (app_assoc (flat_map shown (groups_pieces g))), CG. cbn [flat_map]. rewrite (shown_sels s ss S), (shown_tbls t ts P F), !app_nil_r. show_words.
      unfold select2_toks, core2_toks. destruct q; toks; reflexivity.
    + unfold select2_tree. match goal with |- v_statement _ (Node _ [(_, ?n)]) = _ => transitivity (rbind (v_select n) (fun x => Ok (Some x))); [reflexivity|] end.
      unfold v_select.
      assert (lab "parentQuery" (Node "select_stmt" (("parentQuery"%string, core2_tree q s ss t ts cw (grp_of g ch)) :: dordersc os ++ winc l)) = Some (core2_tree q s ss t ts cw (grp_of g ch))) as -> by reflexivity.
      cbn iota. rewrite core2_results, core2_froms, v_froms, v_dorders, (v_win l os L) by reflexivity.
      rewrite (collect_map _ _ rsel_selector (s :: ss)) by (intros x I; apply v_rsel; exact (proj1 (Forall_forall _ _) S x I)).
      unfold lab. rewrite !core2_labelled, marked_where by discriminate. assert (marked "groupByExpr" (wherec cw) = []) as -> by (destruct cw; reflexivity).
      assert (v_where (hd_error (marked "whereExpr" (wherec cw) ++ [])) = Ok w) as ->.
      { destruct w, pw, cw; cbn [cond_pieces] in W; try contradiction; [|reflexivity]. change (marked "whereExpr" (wherec (Some c))) with [cond_tree c]. cbn [app hd_error v_where]. apply W. }
      cbn [app rbind is_rule core2_tree].
      do 4 f_equal. destruct g as [[c cs]|]; [|reflexivity]. cbn [grp_of grpc]. rewrite !marked_cons_no, marked_app by discriminate.
      change (marked "groupByExpr" (gexpr c)) with [Node "expr" (col c)]. cbn [app]. unfold col. rewrite text_one, text_ident. reflexivity.
Qed.

(** ** Text *)

Fixpoint led (xs : list string) : string := match xs with [] => "" | x :: r => " " ++ x ++ led r end.
Lemma led_app a b : led (a ++ b) = (led a ++ led b)%string.
Proof. induction a as [|x a IH]; [reflexivity|]. cbn [app led]. rewrite IH, !sapp_assoc. reflexivity. Qed.
Lemma join_led a xs : join " " (a :: xs) = (a ++ led xs)%string.
Proof.
  revert a. induction xs as [|x xs IH]; intro a; [cbn [led]; rewrite append_nil_r; reflexivity|].
  change (join " " (a :: x :: xs)) with (a ++ " " ++ join " " (x :: xs))%string. rewrite IH. reflexivity.
Qed.
Lemma literal_as l : literal_ok l -> literal_text l = literal_string l.
Proof. intros []; reflexivity. Qed.
Lemma comparison_as e : comparison_ok e -> condition_text e = expr_string e.
Proof.
  intros [op c l I _ L]. cbn [condition_text expr_string opt_literal_string]. rewrite (literal_as l L).
  cbn [In] in I. repeat (destruct I as [<-|I]; [reflexivity|]). contradiction.
Qed.
Lemma condition_as e : condition_ok (Some e) -> condition_text e = expr_string e.
Proof. intro C. inversion C; subst; cbn [condition_text expr_string]; rewrite ?comparison_as by assumption; reflexivity. Qed.

Definition qual_of (s : scope) : qual := match s with Plainly => QNone | OnlyDistinct => QDistinct | AllRows => QAll end.
Definition win_of (w : window) : win := match w with NoWindow => WNone | First n => WLimit n | FirstAfter n m => WOffset n m | Comma a b => WComma a b end.
Definition ditem_of (o : string * direction) : ditem := (fst o, match snd o with Unsaid => None | Up => Some false | Down => Some true end).
Definition grp_names (g : list string) : option (string * list string) := match g with c :: cs => Some (c, cs) | [] => None end.

Lemma glue_cond w pw cw (word : string) : condition_ok w -> cond_pieces w pw cw ->
  led (map glue (match pw with Some ps => [kw [word]; ps] | None => [] end)) = clause word (conditions w).
Proof.
  intros C H. destruct w as [e|], pw as [ps|], cw as [c|]; cbn [cond_pieces] in H; try contradiction; [|reflexivity].
  cbn [map led conditions clause join]. rewrite (proj1 H), (condition_as e C), append_nil_r. unfold kw. cbn [map spaced]. rewrite glue_one. reflexivity.
Qed.
Lemma led_one x : led [x] = (" " ++ x)%string.
Proof. cbn [led]. rewrite append_nil_r. reflexivity. Qed.
Lemma glue_groups g : led (map glue (groups_pieces (grp_names g))) = clause "GROUP BY" g.
Proof.
  destruct g as [|c cs]; [reflexivity|]. cbn [grp_names groups_pieces map]. rewrite led_one, glue_spaced. cbn [map join].
  rewrite glue_names. unfold join_with_comma, kw. rewrite glue_spaced. cbn [map join]. rewrite !glue_one. reflexivity.
Qed.
Lemma order_as o : di_text (ditem_of o) = order_text o.
Proof. destruct o as [c []]; unfold order_text, ditem_of, di_text; cbn [fst snd]; rewrite ?append_nil_r; reflexivity. Qed.
Lemma glue_dorders os : led (map glue (dorders_pieces (map ditem_of os))) = clause "ORDER BY" (map order_text os).
Proof.
  destruct os as [|o os]; [reflexivity|]. cbn [map dorders_pieces]. rewrite led_one, glue_spaced. cbn [map join].
  rewrite glue_listed. unfold kw. rewrite glue_spaced. cbn [map join]. rewrite !glue_one. unfold join_with_comma. cbn [clause].
  do 3 f_equal. cbn [map]. rewrite glue_di, order_as, map_map. f_equal. f_equal. apply map_ext. intro x. rewrite glue_di. apply order_as.
Qed.
Lemma glue_window w : led (map glue (win_pieces (win_of w))) = window_text w.
Proof.
  destruct w; cbn [win_of win_pieces map]; [reflexivity|..]; rewrite led_one, glue_spaced; cbn [map join window_text]; unfold kw; cbn [map spaced]; [rewrite !glue_one; reflexivity..|].
  change [PNum (show_N a)] with ((fun x => [PNum (show_N x)]) a). rewrite glue_listed. cbn [map join_with_comma join]. rewrite !glue_one. reflexivity.
Qed.
Lemma glue_qual s : led (map glue (qual_pieces (qual_of s))) = match s with Plainly => "" | OnlyDistinct => " DISTINCT" | AllRows => " ALL" end%string.
Proof. destruct s; reflexivity. Qed.
Lemma selector_text_as s : selector_text s = sel_text s.
Proof. destruct s; reflexivity. Qed.
Lemma from_text t : tref_ok t -> glue (tref_pieces t) = t_name (tref_table t).
Proof.
  destruct t as [t|s t]; cbn [tref_pieces tref_table tref_ok]; [intros _; apply glue_one|]. intros _. rewrite glue_schema. reflexivity.
Qed.

(** what the parser keeps of the orderings *)
Definition kept (l : list (string * direction)) : list order :=
  concat (map (fun o => match snd o with Unsaid => [] | Up => [mkOrder (fst o) OrderAsc] | Down => [mkOrder (fst o) OrderDesc] end) l).
Definition kept_window (w : window) : limit := match w with NoWindow => mkLimit 0 0 | First n => mkLimit 0 n | FirstAfter n m | Comma n m => mkLimit m n end.

Theorem query_reads entries q : query_ok q ->
  parse entries (query_text q) = Ok [SSelect (mkSelect (q_tables q) (q_selectors q) (q_where q) (kept (q_order q)) (kept_window (q_window q)) (hd ""%string (q_group q)))].
Proof.
  destruct q as [sc sl tb w g h os wi]. intros [S T W G [H1 H2] O Wi].
  cbn [q_scope q_selectors q_tables q_where q_group q_having q_order q_window] in *.
  destruct (as_map_some rsel_selector _ rsel_ok sl selector_as S) as (s & ss & -> & S1 & Ss).
  destruct (as_map_some tref_table _ tref_ok tb from_as T) as (t & ts & -> & T1 & Ts).
  destruct (cond_in_pieces w W) as (pw & cw & CW). destruct (cond_in_pieces h H1) as (ph & ch & CH).
  assert (OK : Forall (fun o => plain (fst o)) (map ditem_of os)).
  { apply Forall_map. revert O. apply Forall_impl. intros [c d] A. exact (any_is c A). }
  assert (GK : match grp_names g with Some (c, cs) => plain c /\ Forall plain cs | None => h = None end).
  { destruct g as [|c cs]; [exact (H2 eq_refl)|]. inversion G; subst. split; [apply any_is; assumption|]. revert H4. apply Forall_impl. exact any_is. }
  assert (WK : win_ok (win_of wi)) by (destruct wi; exact Wi).
  pose proof (select2_as entries (qual_of sc) s ss t ts w pw cw (grp_names g) h ph ch (map ditem_of os) (win_of wi) T1 Ts (Forall_cons s S1 Ss) CW CH GK OK WK) as R.
  apply reads_parse in R. rewrite glue_spaced, !map_app in R. cbn [map app] in R. rewrite join_led in R.
  rewrite !led_app in R. cbn [led] in R. rewrite !led_app, glue_qual, glue_groups, glue_dorders, glue_window in R.
  unfold conds_pieces, having_pieces in R. rewrite (glue_cond w pw cw "WHERE" W CW), (glue_cond h ph ch "HAVING" H1 CH) in R.
  assert (glue (sels_pieces s ss) = join ", " (map selector_text (map rsel_selector (s :: ss)))) as E1.
  { rewrite glue_sels by (constructor; assumption). unfold selectors_string, selector_names, join_with_comma. reflexivity. }
  assert (glue (tbls_pieces t ts) = join ", " (map t_name (map tref_table (t :: ts)))) as E2.
  { unfold tbls_pieces. rewrite glue_listed. unfold join_with_comma. f_equal. rewrite map_map. apply map_ext_in. intros x I. apply from_text.
    exact (proj1 (Forall_forall _ _) (Forall_cons t T1 Ts) x I). }
  rewrite E1, E2 in R. unfold query_text. cbn [q_scope q_selectors q_tables q_where q_group q_having q_order q_window].
  unfold kw in R. cbn [map spaced] in R. rewrite !glue_one in R. cbn [ptext] in R. cbn [app] in R.
  match type of R with parse _ ?x = Ok [SSelect (mkSelect _ _ _ ?o ?l ?gr)] =>
    match goal with |- parse _ ?y = Ok [SSelect (mkSelect _ _ _ ?o2 ?l2 ?gr2)] =>
      replace y with x; [replace o2 with o; [replace l2 with l; [replace gr2 with gr; [exact R|]|]|]|] end end.
  - destruct g; reflexivity.
  - destruct wi; reflexivity.
  - unfold kept. f_equal. rewrite map_map. apply map_ext. intros [c []]; reflexivity.
  - rewrite <- ?sapp_assoc. rewrite ?sapp_assoc. reflexivity.
Qed.
