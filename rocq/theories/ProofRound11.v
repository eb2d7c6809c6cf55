(** Reading back printed statements: the rest of SELECT. *)
From Coq Require Import Lia Permutation.
From Verif Require Import GoBase ModelUtil ModelNum ModelFn ModelQuery ModelEbnf ModelGrammar ModelLex ModelVisitor
  SpecFn SpecQuery SpecParse SpecRound FactsBase ProofEbnf ProofMachine ProofFn ProofNum ProofQuery ProofParse ProofLex ProofRound ProofRound2 ProofRound3
  ProofRound4 ProofRound5 ProofRound6 ProofRound7 ProofRound8 ProofRound9 ProofRound10.

(** ** ORDER BY *)

Definition oitem : Type := string * bool.
Definition oi_order (o : oitem) : order := mkOrder (fst o) (if snd o then OrderDesc else OrderAsc).
Definition oi_word (o : oitem) : string := if snd o then "DESC" else "ASC".
Definition oi_kind (o : oitem) : string := if snd o then "DESC_" else "ASC_".
Definition oi_toks (o : oitem) : list token := [idt (fst o); mkTok (oi_kind o) (oi_word o)].
Definition oi_tree (o : oitem) : tree := Node "ordering_term" [(""%string, Node "expr" (col (fst o))); (""%string, Node "asc_desc" [(""%string, Leaf (mkTok (oi_kind o) (oi_word o)))])].
Definition oic (o : oitem) : children := [(""%string, oi_tree o)].
Definition oi_pieces (o : oitem) : list piece := spaced [[PWord (fst o)]; [PWord (oi_word o)]].
Definition order_ends : list string := ["LIMIT_"; "SCOL"; "EOF"].
Lemma oi_reads o bot : reads (Rule "ordering_term" 0) (oi_toks o) (oic o) bot ("COMMA"%string :: order_ends).
Proof.
  intros k K [|[kd tx] tl] r T H; [contradiction|]. cbn [heads tk In order_ends] in T. destruct o as [c []]; unfold oi_toks, oi_kind, oi_word; cbn [fst snd app]; enter;
    each_kind T; go_known none 1 AtEnd; exact H.
Qed.
Lemma good_oi o : plain (fst o) -> good (oi_pieces o).
Proof. intro P. unfold oi_pieces. goods. destruct (snd o) eqn:E; unfold oi_word; rewrite E; apply good_word; reflexivity. Qed.
Lemma glue_oi o : glue (oi_pieces o) = order_string (oi_order o).
Proof. destruct o as [c []]; unfold oi_pieces; rewrite glue_spaced; cbn [map]; rewrite !glue_one; reflexivity. Qed.
Lemma shown_oi o : plain (fst o) -> shown (oi_pieces o) = oi_toks o.
Proof. intro P. unfold oi_pieces. rewrite shown_spaced. cbn [flat_map]. rewrite (shown_name _ P). destruct o as [c []]; reflexivity. Qed.
Lemma v_oi o : v_order (oi_tree o) = Ok [oi_order o].
Proof. destruct o as [c []]; unfold v_order; cbn -[append]; rewrite !append_nil_r; reflexivity. Qed.

Definition orders_pieces (os : list oitem) : list (list piece) := match os with [] => [] | o :: r => [spaced [kw ["ORDER"%string; "BY"%string]; oi_pieces o ++ listed oi_pieces r]] end.
Definition orders_toks (os : list oitem) : list token := match os with [] => [] | o :: r => mkTok "ORDER_" "ORDER" :: mkTok "BY_" "BY" :: oi_toks o ++ clist oi_toks r end.
Definition ordersc (os : list oitem) : children :=
  match os with [] => [] | o :: r => [(""%string, Node "order_by_stmt" ((""%string, Leaf (mkTok "ORDER_" "ORDER")) :: (""%string, Leaf (mkTok "BY_" "BY")) :: oic o ++ ctree oic r))] end.

(** ** LIMIT *)

Inductive lim := NoLimit | Limit (n : N) | LimitOffset (n m : N).
Definition lim_ok (l : lim) : Prop :=
  match l with NoLimit => True | Limit n => (0 < n < 2 ^ 64)%N | LimitOffset n m => (0 < n < 2 ^ 64)%N /\ (0 < m < 2 ^ 64)%N end.
Definition lim_limit_of (l : lim) : limit := match l with NoLimit => mkLimit 0 0 | Limit n => mkLimit 0 n | LimitOffset n m => mkLimit m n end.
Definition lim_pieces (l : lim) : list (list piece) :=
  match l with
  | NoLimit => []
  | Limit n => [spaced [kw ["LIMIT"%string]; [PNum (show_N n)]]]
  | LimitOffset n m => [spaced [kw ["LIMIT"%string]; [PNum (show_N n)]; kw ["OFFSET"%string]; [PNum (show_N m)]]]
  end.
Definition lim_toks (l : lim) : list token :=
  match l with
  | NoLimit => []
  | Limit n => [mkTok "LIMIT_" "LIMIT"; mkTok "NUMERIC_LITERAL" (show_N n)]
  | LimitOffset n m => [mkTok "LIMIT_" "LIMIT"; mkTok "NUMERIC_LITERAL" (show_N n); mkTok "OFFSET_" "OFFSET"; mkTok "NUMERIC_LITERAL" (show_N m)]
  end.
Definition limc (l : lim) : children :=
  match l with
  | NoLimit => []
  | Limit n => [(""%string, Node "limit_stmt" ((""%string, Leaf (mkTok "LIMIT_" "LIMIT")) :: lite (LNum (show_N n))))]
  | LimitOffset n m => [(""%string, Node "limit_stmt" ((""%string, Leaf (mkTok "LIMIT_" "LIMIT")) :: lite (LNum (show_N n)) ++ (""%string, Leaf (mkTok "OFFSET_" "OFFSET")) :: lite (LNum (show_N m))))]
  end.
Lemma show_is_num n : is_num (show_N n) = true.
Proof.
  apply digits_num. unfold is_digits. pose proof (show_N_digits n) as D. destruct (digits_head _ D) as (c & r & Ec & _). rewrite Ec in D |- *.
  destruct D as [_ D]. unfold all_chars. apply forallb_forall. intros a Ia. rewrite Forall_forall in D. specialize (D a Ia).
  unfold is_digit in D. apply digit_b. unfold digit, nat_of_ascii. lia.
Qed.
Lemma good_lim l : Forall good (lim_pieces l).
Proof. destruct l; unfold lim_pieces; goods; apply good_num, show_is_num. Qed.
Lemma shown_lim l : flat_map shown (lim_pieces l) = lim_toks l.
Proof. destruct l; unfold lim_pieces; cbn [flat_map]; rewrite ?app_nil_r, ?shown_spaced; reflexivity. Qed.
Definition lim_words (l : limit) : list string := if 0 <? String.length (limit_string l) then [limit_string l] else [].
Lemma glue_lim l : lim_ok l -> map glue (lim_pieces l) = lim_words (lim_limit_of l).
Proof.
  destruct l as [|n|n m]; intro O.
  - reflexivity.
  - unfold lim_words, limit_string, lim_limit_of, lim_pieces. cbn [lim_limit lim_offset map]. rewrite (proj2 (N.ltb_lt 0 n)) by (unfold lim_ok in O; lia).
    rewrite glue_spaced. cbn [map N.ltb N.compare app]. rewrite !glue_one. reflexivity.
  - destruct O as [O1 O2]. unfold lim_words, limit_string, lim_limit_of, lim_pieces. cbn [lim_limit lim_offset map]. rewrite (proj2 (N.ltb_lt 0 n)), (proj2 (N.ltb_lt 0 m)) by lia.
    rewrite glue_spaced. cbn [map app]. rewrite !glue_one. reflexivity.
Qed.
Lemma v_lim l os : lim_ok l -> forall q n r, v_limit (sub "limit_stmt" (Node n ((q, r) :: ordersc os ++ limc l))) = if is_rule "limit_stmt" r then v_limit (Some r) else lim_limit_of l.
Proof.
  intros O q n r. unfold sub. rewrite subs_node, named_cons. destruct (is_rule "limit_stmt" r); [reflexivity|].
  rewrite named_app. assert (named "limit_stmt" (ordersc os) = []) as -> by (destruct os; reflexivity). cbn [app].
  destruct l as [|a|a b]; unfold limc; cbn -[to_uint show_N append] ; rewrite ?append_nil_r, ?to_uint_show by (unfold lim_ok in O; lia); reflexivity.
Qed.

(** ** The statement *)
Definition select_toks s ss t ts w g os l : list token := core_toks s ss t ts w g ++ orders_toks os ++ lim_toks l.
Definition select_tree s ss t ts w g os l : tree :=
  Node "sql_stmt" [(""%string, Node "select_stmt" (("parentQuery"%string, core_tree s ss t ts w g) :: ordersc os ++ limc l))].
Lemma after_core_tail os l tl : heads stmt_ends tl -> after_core (orders_toks os ++ lim_toks l ++ tl).
Proof.
  intro T. destruct os as [|o os]; [destruct l|]; cbn [orders_toks lim_toks app].
  - destruct tl as [|a tl]; [contradiction|]. left. eexists _, _. split; [reflexivity|exact T].
  - right. eexists _, _, _. split; [reflexivity|]. vm_compute. tauto.
  - right. eexists _, _, _. split; [reflexivity|]. vm_compute. tauto.
  - right. eexists _, _, _. split; [reflexivity|]. vm_compute. tauto.
Qed.
Lemma lim_heads l tl : heads stmt_ends tl -> heads order_ends (lim_toks l ++ tl).
Proof. intro T. destruct l; [|vm_compute; tauto..]. apply (heads_incl stmt_ends); [in_list|exact T]. Qed.

Lemma select_reads s ss t ts w g os l : match w with Some c => cond_ok c | None => True end ->
  stmt_reads (select_toks s ss t ts w g os l) (select_tree s ss t ts w g os l).
Proof.
  intros W k K tl r T H. unfold select_toks. rewrite <- !app_assoc. enter.
  assert (E : denm k (MEval (Rule "select_core" 0)) (core_toks s ss t ts w g ++ orders_toks os ++ lim_toks l ++ tl)
    ltac:(match eval vm_compute in (exec (Some stmt_follow) (at_place 1 (AtRule "select_core")) 14 2000 5000 (MEval (Rule "sql_stmt" 0)) [mkTok "SELECT_" "SELECT"] []) with
      | Some (_, _, ?s) => exact s end) = Found r).
  { by_reads (core_reads s ss t ts w g W); [law_by K|apply after_core_tail; exact T|].
    destruct os as [|o os].
    - cbn [orders_toks app]. unfold lim_toks. destruct l as [|n|n m]; cbn [app];
      destruct tl as [|[kd tx] tl]; [contradiction| |contradiction| |contradiction|]; cbn [heads tk In stmt_ends] in T; each_kind T;
       (go_known (Some stmt_follow) 1 AtEnd; unfold select_tree, ordersc, limc in H; the_end H).
    - cbn [orders_toks app]. rewrite <- app_assoc. go (Some stmt_follow) [mkTok "ORDER_" "ORDER"; mkTok "BY_" "BY"] 0 (AtRule "ordering_term").
      by_reads (oi_reads o None); [apply heads_clist; apply lim_heads; exact T|].
      go (Some stmt_follow) (@nil token) 0 AtStar.
      by_reads (list_reads_any (Rule "ordering_term" 0) oi_toks oic None order_ends os eq_refl ltac:(not_in) (fun x _ => oi_reads x None)); [apply lim_heads; exact T|].
      unfold lim_toks. destruct l as [|n|n m]; cbn [app];
      destruct tl as [|[kd tx] tl]; [contradiction| |contradiction| |contradiction|]; cbn [heads tk In stmt_ends] in T; each_kind T;
       (go_known (Some stmt_follow) 1 AtEnd; unfold select_tree, ordersc, limc in H; the_end H).
  }
  unfold core_toks in E |- *. cbn [app] in E |- *.
  match goal with |- denm _ _ (?a :: _) _ = _ => go (Some stmt_follow) [a] 1 (AtRule "select_core") end. exact E.
Qed.

Definition conds_pieces (ps : option (list piece)) : list (list piece) := match ps with Some ps => [kw ["WHERE"%string]; ps] | None => [] end.
Definition group_pieces (g : option string) : list (list piece) := match g with Some c => [spaced [kw ["GROUP"%string; "BY"%string]; [PWord c]]] | None => [] end.
Definition sels_pieces (s : rsel) (ss : list rsel) : list piece := rsel_pieces s ++ listed rsel_pieces ss.
Definition tbls_pieces (t : tref) (ts : list tref) : list piece := tref_pieces t ++ listed tref_pieces ts.
Lemma good_orders os : Forall (fun o => plain (fst o)) os -> Forall good (orders_pieces os).
Proof.
  destruct os as [|o os]; intro F; [constructor|]. inversion F; subst. unfold orders_pieces. goods; [apply good_oi; assumption|].
  revert H2. apply Forall_impl. exact good_oi.
Qed.
Lemma shown_orders os : Forall (fun o => plain (fst o)) os -> flat_map shown (orders_pieces os) = orders_toks os.
Proof.
  destruct os as [|o os]; intro F; [reflexivity|]. inversion F as [|? ? F0 Fs]; subst. unfold orders_pieces. cbn [flat_map]. rewrite app_nil_r, shown_spaced. cbn [flat_map].
  rewrite app_nil_r, shown_app, shown_listed, (shown_oi o F0), (clist_ext _ oi_toks os (fun x I => shown_oi x (proj1 (Forall_forall _ _) Fs x I))). reflexivity.
Qed.
Lemma glue_orders os : map glue (orders_pieces os) = if 0 <? String.length (order_by_string (map oi_order os)) then [order_by_string (map oi_order os)] else [].
Proof.
  destruct os as [|o os]; [reflexivity|]. unfold orders_pieces. cbn [map]. rewrite glue_spaced. cbn [map]. rewrite glue_listed.
  change (oi_order o :: map oi_order os) with (map oi_order (o :: os)). unfold order_by_string.
  rewrite map_map, (map_ext _ _ glue_oi). reflexivity.
Qed.
Lemma v_orders os l : forall q n r, is_rule "order_by_stmt" r = false ->
  (match sub "order_by_stmt" (Node n ((q, r) :: ordersc os ++ limc l)) with
   | Some o => let* l := collect v_order (subs "ordering_term" o) in Ok (concat l)
   | None => Ok [] end) = Ok (map oi_order os).
Proof.
  intros q n r N. unfold sub. rewrite subs_node, named_cons, N, named_app.
  assert (named "order_by_stmt" (limc l) = []) as -> by (destruct l; reflexivity). rewrite app_nil_r.
  destruct os as [|o os]; [reflexivity|]. unfold ordersc.
  match goal with |- context[hd_error (named _ [(_, ?x)])] => change (hd_error (named "order_by_stmt" [(""%string, x)])) with (Some x) end. cbn iota.
  rewrite subs_node, !named_cons, named_app, named_ctree. cbn [is_rule].
  change (fun x => named "ordering_term" (oic x)) with (fun x => [oi_tree x]). rewrite flat_map_one.
  change (named "ordering_term" (oic o) ++ map oi_tree os) with (map oi_tree (o :: os)).
  rewrite (collect_map _ _ (fun x => [oi_order x]) (o :: os)) by (intros x _; apply v_oi). cbn [rbind].
  f_equal. generalize (o :: os). intro xs. induction xs as [|x xs IH]; [reflexivity|]. cbn [map concat app]. rewrite IH. reflexivity.
Qed.

Lemma glue_group g : match g with Some c => plain c | None => True end ->
  map glue (group_pieces g) = let x := group_by_string (match g with Some c => c | None => ""%string end) in if 0 <? String.length x then [x] else [].
Proof.
  destruct g as [c|]; intro P; [|reflexivity]. cbn [group_pieces map]. rewrite glue_spaced. cbn [map]. rewrite glue_one.
  unfold group_by_string. pose proof (plain_nonempty c P) as L. destruct (String.length c) eqn:E; [discriminate|]. reflexivity.
Qed.
Lemma good_group g : match g with Some c => plain c | None => True end -> Forall good (group_pieces g).
Proof. destruct g as [c|]; intro P; unfold group_pieces; goods. Qed.
Lemma shown_group g : match g with Some c => plain c | None => True end -> flat_map shown (group_pieces g) = group_toks g.
Proof. destruct g as [c|]; intro P; [|reflexivity]. unfold group_pieces. cbn [flat_map]. rewrite shown_spaced. cbn [flat_map]. rewrite (shown_name c P). reflexivity. Qed.

Lemma good_sels s ss : Forall rsel_ok (s :: ss) -> good (sels_pieces s ss).
Proof. intro F. inversion F; subst. unfold sels_pieces. apply good_then_listed; [apply good_rsel; assumption|]. revert H2. apply Forall_impl. exact good_rsel. Qed.
Lemma glue_sels s ss : Forall rsel_ok (s :: ss) -> glue (sels_pieces s ss) = selectors_string (map rsel_selector (s :: ss)).
Proof.
  intro F. unfold sels_pieces. rewrite glue_listed. unfold selectors_string, selector_names. f_equal. rewrite map_map. apply map_ext_in. intros x I.
  apply glue_rsel. exact (proj1 (Forall_forall _ _) F x I).
Qed.
Lemma shown_sels s ss : Forall rsel_ok (s :: ss) -> shown (sels_pieces s ss) = rsel_toks s ++ clist rsel_toks ss.
Proof.
  intro F. inversion F as [|? ? F0 Fs]; subst. unfold sels_pieces. rewrite shown_app, (shown_rsel s F0), shown_listed. f_equal. apply clist_ext. intros x I. apply shown_rsel. exact (proj1 (Forall_forall _ _) Fs x I).
Qed.
Lemma good_tref t : tref_ok t -> good (tref_pieces t).
Proof. destruct t as [t|s t]; [apply good_name|intros [S T]; apply good_schema; assumption]. Qed.
Lemma shown_tref t : tref_ok t -> shown (tref_pieces t) = tref_toks t.
Proof. destruct t as [t|s t]; [apply shown_name|intros [S T]; apply shown_schema; assumption]. Qed.
Lemma good_tbls t ts : tref_ok t -> Forall tref_ok ts -> good (tbls_pieces t ts).
Proof. intros P F. unfold tbls_pieces. apply good_then_listed; [apply good_tref; exact P|]. revert F. apply Forall_impl. exact good_tref. Qed.
Lemma shown_tbls t ts : tref_ok t -> Forall tref_ok ts -> shown (tbls_pieces t ts) = tref_toks t ++ clist tref_toks ts.
Proof.
  intros P F. unfold tbls_pieces. rewrite shown_app, (shown_tref t P), shown_listed. f_equal. apply clist_ext. intros x I. apply shown_tref.
  exact (proj1 (Forall_forall _ _) F x I).
Qed.
Lemma dotted_name s t : plain s -> full_table_name (mkTbl s (s ++ "." ++ t)) = (s ++ "." ++ t)%string.
Proof.
  intro P. pose proof (plain_nonempty s P) as L. unfold full_table_name. cbn [t_schema t_name].
  assert (C : scontains "." (s ++ "." ++ t) = true).
  { clear. unfold scontains. induction s as [|c s IH]; [destruct t; reflexivity|]. cbn [append sindex] in *. destruct (has_prefix "." (String c (s ++ String "." t))); [reflexivity|].
    destruct (sindex "." (s ++ String "." t)); [reflexivity|exact IH]. }
  destruct s as [|c s]; [discriminate L|]. cbn [append] in C. cbn [append]. rewrite C. reflexivity.
Qed.
Lemma glue_tref t : tref_ok t -> glue (tref_pieces t) = full_table_name (tref_table t).
Proof.
  destruct t as [t|s t]; cbn [tref_pieces tref_table tref_ok].
  - intros P. rewrite glue_one, full_name_of_name. reflexivity.
  - intros [S T]. rewrite glue_schema, (dotted_name s t S). reflexivity.
Qed.
Lemma glue_tbls t ts : Forall tref_ok (t :: ts) -> glue (tbls_pieces t ts) = tables_string (map tref_table (t :: ts)).
Proof.
  intro F. unfold tbls_pieces. rewrite glue_listed. unfold tables_string, join_with_comma. f_equal. rewrite map_map. apply map_ext_in. intros x I.
  apply glue_tref. exact (proj1 (Forall_forall _ _) F x I).
Qed.

(** what the visitor finds in the core *)
Lemma v_froms t ts : concat (map v_from (map from_tree (t :: ts))) = map tref_table (t :: ts).
Proof.
  generalize (t :: ts). intro l. induction l as [|x l IH]; [reflexivity|]. cbn [map concat]. rewrite IH.
  assert (v_from (from_tree x) = [tref_table x]) as ->; [|reflexivity].
  destruct x; unfold v_from; cbn -[append]; rewrite ?append_nil_r; reflexivity.
Qed.
Lemma core_results s ss t ts w g : subs "result_column" (core_tree s ss t ts w g) = map rsel_tree (s :: ss).
Proof.
  unfold core_tree. rewrite subs_node, named_cons, !named_app, named_ctree. change (fun x => named "result_column" (rselc x)) with (fun x => [rsel_tree x]). rewrite flat_map_one.
  rewrite named_cons, !named_app, named_ctree, (flat_none "result_column" fromc ts (fun x => eq_refl)).
  assert (named "result_column" (wherec w) = []) as -> by (destruct w; reflexivity).
  assert (named "result_column" (groupc g) = []) as -> by (destruct g; reflexivity).
  cbn [is_rule app]. change (named "result_column" (fromc t)) with (@nil tree). cbn [app]. rewrite app_nil_r. reflexivity.
Qed.
Lemma core_froms s ss t ts w g : subs "from" (core_tree s ss t ts w g) = map from_tree (t :: ts).
Proof.
  unfold core_tree. rewrite subs_node, named_cons, !named_app, named_ctree, (flat_none "from" rselc ss (fun x => eq_refl)).
  rewrite named_cons, !named_app, named_ctree. change (fun x => named "from" (fromc x)) with (fun x => [from_tree x]). rewrite flat_map_one.
  assert (named "from" (wherec w) = []) as -> by (destruct w; reflexivity).
  assert (named "from" (groupc g) = []) as -> by (destruct g; reflexivity).
  cbn [is_rule app]. change (named "from" (rselc s)) with (@nil tree). cbn [app]. rewrite app_nil_r. reflexivity.
Qed.
Lemma marked_list l {A} (c : A -> tree) xs : l <> ""%string -> marked l (ctree (fun x => [(""%string, c x)]) xs) = [].
Proof.
  intro N. rewrite marked_ctree by exact N. induction xs as [|x xs IH]; [reflexivity|]. cbn [flat_map]. rewrite IH, app_nil_r.
  unfold marked. cbn [filter fst]. destruct (String.eqb "" l) eqn:E; [apply String.eqb_eq in E; congruence|reflexivity].
Qed.
Lemma marked_cons_no l t cs : l <> ""%string -> marked l ((""%string, t) :: cs) = marked l cs.
Proof. intro N. unfold marked. cbn [filter fst]. destruct (String.eqb "" l) eqn:E; [apply String.eqb_eq in E; congruence|reflexivity]. Qed.
Lemma core_labelled s ss t ts w g l : l <> ""%string -> labelled l (core_tree s ss t ts w g) = marked l (wherec w) ++ marked l (groupc g).
Proof.
  intro N. unfold core_tree. change (labelled l (Node "select_core" ?cs)) with (marked l cs).
  rewrite marked_cons_no, !marked_app by exact N. change rselc with (fun x => [(""%string, rsel_tree x)]). rewrite marked_list by exact N.
  rewrite !marked_cons_no, !marked_app by exact N. change fromc with (fun x => [(""%string, from_tree x)]). rewrite marked_list by exact N.
  rewrite !marked_cons_no by exact N. reflexivity.
Qed.

Lemma select_back entries s ss t ts w os l g :
  tref_ok t -> Forall tref_ok ts -> Forall rsel_ok (s :: ss) -> condition_ok w -> Forall (fun o => plain (fst o)) os -> lim_ok l ->
  match g with Some c => plain c /\ os = [] /\ l = NoLimit | None => True end ->
  comes_back entries (SSelect (mkSelect (map tref_table (t :: ts)) (map rsel_selector (s :: ss)) w (map oi_order os) (lim_limit_of l) (match g with Some c => c | None => ""%string end))).
Proof.
  intros P F S W O L G.
  assert (C : exists ps c, match ps with Some p => good p | None => True end /\ match c with Some c => cond_ok c | None => True end
    /\ map glue (conds_pieces ps) = (if has_conditions w then ["WHERE"%string; condition_string w] else [])
    /\ flat_map shown (conds_pieces ps) = where_toks c /\ v_where (lab "whereExpr" (core_tree s ss t ts c g)) = Ok w).
  { destruct w as [e|].
    - destruct (condition_back e W) as (ps & c & G1 & G2 & G3 & G4 & G5). exists (Some ps), (Some c).
      split; [exact G2|]. split; [exact G4|]. split; [cbn [conds_pieces map]; rewrite G1; reflexivity|].
      split; [cbn [conds_pieces flat_map]; rewrite G3, app_nil_r; reflexivity|].
      unfold lab. rewrite core_labelled by discriminate. change (marked "whereExpr" (wherec (Some c))) with [cond_tree c]. cbn [app hd_error v_where]. exact G5.
    - exists None, None. repeat split. unfold lab. rewrite core_labelled by discriminate. destruct g; reflexivity. }
  destruct C as (ps & c & C1 & C2 & C3 & C4 & C5).
  assert (GP : match g with Some c => plain c | None => True end) by (destruct g; [apply G|exact I]).
  exists (spaced ([kw ["SELECT"%string]; sels_pieces s ss; kw ["FROM"%string]; tbls_pieces t ts] ++ conds_pieces ps ++ orders_pieces os ++ lim_pieces l ++ group_pieces g)).
  split; [|split; [|split]].
  - unfold stmt_string, select_string. cbn [sel_tables sel_selectors sel_where sel_order_by sel_limit sel_group_by].
    rewrite <- glue_orders. rewrite <- C3. pose proof (glue_lim l L) as GL. unfold lim_words in GL. rewrite <- GL. pose proof (glue_group g GP) as GG. cbn zeta in GG. rewrite <- GG.
    cbn [map]. rewrite <- (map_cons rsel_selector), <- (map_cons tref_table), <- (glue_sels s ss S), <- (glue_tbls t ts (Forall_cons _ P F)). unfold join_with_space. rewrite glue_spaced, !map_app. cbn [map]. reflexivity.
  - apply good_spaced. repeat (apply Forall_app; split); [goods; [apply good_sels; exact S|apply good_tbls; assumption]|destruct ps; cbn [conds_pieces]; goods; exact C1|apply good_orders; exact O|apply good_lim|apply good_group; exact GP].
  - rewrite shown_spaced. cbn [app flat_map]. starts_ok.
  - exists (select_tree s ss t ts c g os l). split.
    + replace (shown _) with (select_toks s ss t ts c g os l); [apply select_reads; exact C2|].
      rewrite shown_spaced, !flat_map_app, C4, (shown_orders os O), shown_lim, (shown_group g GP). cbn [flat_map]. rewrite (shown_sels s ss S), (shown_tbls t ts P F), app_nil_r. show_words.
      unfold select_toks, core_toks. destruct g as [x|]; [destruct G as (_ & -> & ->); cbn [orders_toks lim_toks]|cbn [group_toks]]; rewrite ?app_nil_r; toks; reflexivity.
    + unfold select_tree. match goal with |- v_statement _ (Node _ [(_, ?n)]) = _ => transitivity (rbind (v_select n) (fun x => Ok (Some x))); [reflexivity|] end.
      unfold v_select.
      assert (lab "parentQuery" (Node "select_stmt" (("parentQuery"%string, core_tree s ss t ts c g) :: ordersc os ++ limc l)) = Some (core_tree s ss t ts c g)) as -> by reflexivity.
      cbn iota. rewrite C5, core_results, core_froms, v_froms, v_orders, (v_lim l os L) by reflexivity.
      rewrite (collect_map _ _ rsel_selector (s :: ss)) by (intros x I; apply v_rsel; exact (proj1 (Forall_forall _ _) S x I)).
      rewrite core_labelled by discriminate. assert (marked "groupByExpr" (wherec c) = []) as -> by (destruct c; reflexivity).
      cbn [app rbind is_rule core_tree].
      do 4 f_equal. destruct g as [x|]; [|reflexivity]. cbn [groupc]. change (marked "groupByExpr" _) with [Node "expr" (col x)]. cbn iota. unfold col. rewrite text_one, text_ident. reflexivity.
Qed.
