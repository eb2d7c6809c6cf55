(** SELECT as it is written: all clauses, in their order. *)
From Coq Require Import Lia Permutation.
From Verif Require Import GoBase ModelUtil ModelNum ModelFn ModelQuery ModelEbnf ModelGrammar ModelLex ModelVisitor
  SpecFn SpecQuery SpecParse SpecRound FactsBase ProofEbnf ProofMachine ProofFn ProofNum ProofQuery ProofParse ProofLex ProofRound ProofRound2 ProofRound3
  ProofRound4 ProofRound5 ProofRound6 ProofRound7 ProofRound8 ProofRound9 ProofRound10 ProofRound11 ProofRound12.

(** ** DISTINCT and GROUP BY *)

Inductive qual := QNone | QDistinct | QAll.
Definition qual_toks (q : qual) : list token := match q with QNone => [] | QDistinct => [mkTok "DISTINCT_" "DISTINCT"] | QAll => [mkTok "ALL_" "ALL"] end.
Definition gexpr (c : string) : children := [("groupByExpr"%string, Node "expr" (col c))].
Definition group_ends : list string := ["HAVING_"; "SCOL"; "EOF"; "ORDER_"; "LIMIT_"].
Lemma gexpr_reads c bot : reads (Lab "groupByExpr" (Rule "expr" 0)) (id1 c) (gexpr c) bot ("COMMA"%string :: group_ends).
Proof.
  intros k K [|[kd tx] tl] r T H; [contradiction|]. cbn [heads tk In group_ends] in T. unfold id1. cbn [app]. enter.
  each_kind T; go_known none 1 AtEnd; exact H.
Qed.
(** the columns and the condition on the groups *)
Definition grp : Type := string * list string * option cond.
Definition having_toks (h : option cond) : list token := match h with Some c => mkTok "HAVING_" "HAVING" :: cond_toks c | None => [] end.
Definition havingc (h : option cond) : children := match h with Some c => [(""%string, Leaf (mkTok "HAVING_" "HAVING")); ("havingExpr"%string, cond_tree c)] | None => [] end.
Definition grp_toks (g : option grp) : list token :=
  match g with Some (c, cs, h) => mkTok "GROUP_" "GROUP" :: mkTok "BY_" "BY" :: idt c :: clist id1 cs ++ having_toks h | None => [] end.
Definition grpc (g : option grp) : children :=
  match g with
  | Some (c, cs, h) => (""%string, Leaf (mkTok "GROUP_" "GROUP")) :: (""%string, Leaf (mkTok "BY_" "BY")) :: gexpr c ++ ctree gexpr cs ++ havingc h
  | None => []
  end.
Definition grp_ok (g : option grp) : Prop := match g with Some (_, _, Some c) => cond_ok c | _ => True end.

Definition core2_toks (q : qual) (s : rsel) (ss : list rsel) (t : tref) (ts : list tref) (w : option cond) (g : option grp) : list token :=
  mkTok "SELECT_" "SELECT" :: qual_toks q ++ rsel_toks s ++ clist rsel_toks ss ++ mkTok "FROM_" "FROM" :: tref_toks t ++ clist tref_toks ts ++ where_toks w ++ grp_toks g.
Definition core2_tree (q : qual) (s : rsel) (ss : list rsel) (t : tref) (ts : list tref) (w : option cond) (g : option grp) : tree :=
  Node "select_core" ((""%string, Leaf (mkTok "SELECT_" "SELECT")) :: leafs (qual_toks q) ++ rselc s ++ ctree rselc ss ++ (""%string, Leaf (mkTok "FROM_" "FROM")) :: fromc t ++ ctree fromc ts ++ wherec w ++ grpc g).

Lemma after_core_from2 w g tl : after_core tl -> after_from (where_toks w ++ grp_toks g ++ tl).
Proof.
  intro T. destruct w as [c|]; [|destruct g as [[[c cs] h]|]; cbn [where_toks grp_toks app]].
  - right. unfold where_toks. destruct (cond_toks_start c) as (x & l & ->). cbn [app]. eexists _, _, _. split; [reflexivity|]. vm_compute. tauto.
  - right. eexists _, _, _. split; [reflexivity|]. vm_compute. tauto.
  - destruct T as [T|(a & b & l & -> & I)]; [left; exact T|]. right. eexists _, _, _. split; [reflexivity|]. cbn [In] in I. destruct I as [<-|[<-|[]]]; vm_compute; tauto.
Qed.
Lemma grp_heads g tl : after_core tl -> heads where_ends (grp_toks g ++ tl).
Proof.
  intro T. destruct g as [[[c cs] h]|]; [vm_compute; tauto|]. apply (heads_incl core_ends); [in_list|apply after_core_heads; exact T].
Qed.
Lemma having_heads h tl : after_core tl -> heads group_ends (having_toks h ++ tl).
Proof.
  intro T. destruct h as [c|]; [vm_compute; tauto|]. apply (heads_incl core_ends); [in_list|apply after_core_heads; exact T].
Qed.

Lemma gcol_reads c bot : reads (Rule "expr" 0) (id1 c) [(""%string, Node "expr" (col c))] bot ("COMMA"%string :: group_ends).
Proof.
  intros k K [|[kd tx] tl] r T H; [contradiction|]. cbn [heads tk In group_ends] in T. unfold id1. cbn [app]. enter.
  each_kind T; go_known none 1 AtEnd; exact H.
Qed.

Ltac the_end2 H := refine (machine_end _ _ _ _ _ _ H); subst; cbn [app leafs map qual_toks]; repeat (rewrite <- ?app_assoc; cbn [app]); rewrite ?app_nil_r; reflexivity.
Lemma core2_reads q s ss t ts w g : match w with Some c => cond_ok c | None => True end -> grp_ok g ->
  readsp (Rule "select_core" 0) (core2_toks q s ss t ts w g) [(""%string, core2_tree q s ss t ts w g)] (Some core_follow) after_core.
Proof.
  intros W G k K tl r T H. unfold core2_toks. toks. enter.
  assert (S0 : exists kd tx l, rsel_toks s = mkTok kd tx :: l /\ In kd ["STAR"; "IDENTIFIER"]%string) by (destruct s; eexists _, _, _; (split; [reflexivity|cbn [In]; tauto])).
  destruct S0 as (kd & tx & l & S0 & S1).
  Ltac from_selectors q s ss t ts w g W G K T H :=
    by_reads (rsel_reads s); [law_by K|apply (heads_clist rsel_toks ["FROM_"%string]); left; reflexivity|];
    go (Some core_follow) (@nil token) 0 AtStar;
    by_reads (list_reads (Rule "result_column" 0) rsel_toks rselc (Some result_follow) ["FROM_"%string] ss eq_refl ltac:(not_in) (fun x _ => rsel_reads x)); [law_by K|left; reflexivity|];
    let x0 := fresh "x" in let l0 := fresh "l" in let E0 := fresh "E" in
    destruct (tref_start t) as (x0 & l0 & E0); rewrite E0; cbn [app]; go_known (Some core_follow) 1 (AtRule "from");
    match goal with |- denm _ _ (?a :: ?l ++ ?r) _ = _ => change (a :: l ++ r) with ((idt x0 :: l0) ++ r) end; rewrite <- E0;
    by_reads (from_reads t); [law_by K|destruct ts; [right; apply after_core_from2; exact T|left; left; reflexivity]|];
    go (Some core_follow) (@nil token) 0 AtStar;
    by_reads (froms_reads ts); [law_by K|apply after_core_from2; exact T|].
  Ltac at_end tl T H :=
    let T1 := fresh "T" in
    pose proof (after_core_heads tl T) as T1; destruct tl as [|[? ?] tl]; [contradiction|]; cbn [heads tk In core_ends] in T1;
    each_kind T1; go_known (Some core_follow) 1 AtEnd; (unfold core2_tree, where_toks, grp_toks, wherec, grpc, havingc, gexpr in H; the_end2 H).
  Ltac groups c0 cs h G K T H tl :=
    go (Some core_follow) [mkTok "GROUP_" "GROUP"; mkTok "BY_" "BY"; idt c0] 1 (AtRule "expr");
    match goal with |- denm _ _ (?a :: ?l) _ = _ => change (a :: l) with (id1 c0 ++ l) end;
    by_reads (gcol_reads c0 None); [rewrite <- ?app_assoc; apply (heads_clist id1 group_ends cs); apply having_heads; exact T|];
    go (Some core_follow) (@nil token) 0 AtStar; rewrite <- ?app_assoc;
    by_reads (list_reads_any (Lab "groupByExpr" (Rule "expr" 0)) id1 gexpr None group_ends cs eq_refl ltac:(not_in) (fun x _ => gexpr_reads x None)); [apply having_heads; exact T|];
    destruct h as [h|]; unfold having_toks; cbn [app];
      [go_known (Some core_follow) 0 (AtRule "expr"); by_reads (cond_reads h G); [law_by K|apply (heads_incl core_ends); [in_list|apply after_core_heads; exact T]|]; at_end tl T H
      |at_end tl T H].
  Ltac the_rest q s ss t ts w g W G K T H tl :=
    from_selectors q s ss t ts w g W G K T H;
    destruct w as [c|];
      [unfold where_toks; cbn [app]; go_known (Some core_follow) 0 (AtRule "expr");
       by_reads (cond_reads c W); [law_by K|apply grp_heads; exact T|]|unfold where_toks; cbn [app]];
      (let gc0 := fresh "gc" in let gcs := fresh "gcs" in let gh := fresh "gh" in destruct g as [[[gc0 gcs] gh]|]; unfold grp_toks; cbn [app]; [groups gc0 gcs gh G K T H tl|at_end tl T H]).
  destruct q; unfold qual_toks; cbn [app].
  - assert (E : denm k (MEval (Rule "result_column" 0)) (rsel_toks s ++ clist rsel_toks ss ++ mkTok "FROM_" "FROM" :: tref_toks t ++ clist tref_toks ts ++ where_toks w ++ grp_toks g ++ tl)
      ltac:(match eval vm_compute in (exec (Some core_follow) (at_place 1 (AtRule "result_column")) 14 2000 5000 (MEval (Rule "select_core" 0)) [mkTok "SELECT_" "SELECT"; idt "x"] []) with
      | Some (_, _, ?s) => exact s end) = Found r).
    { the_rest QNone s ss t ts w g W G K T H tl. }
    rewrite S0 in E |- *; cbn [app] in *; cbn [In] in S1.
    each_kind S1; (match goal with |- denm _ _ (?a :: ?b :: _) _ = _ => go (Some core_follow) [a; b] 1 (AtRule "result_column") end; exact E).
  - assert (E : denm k (MEval (Rule "result_column" 0)) (rsel_toks s ++ clist rsel_toks ss ++ mkTok "FROM_" "FROM" :: tref_toks t ++ clist tref_toks ts ++ where_toks w ++ grp_toks g ++ tl)
      ltac:(match eval vm_compute in (exec (Some core_follow) (at_place 1 (AtRule "result_column")) 14 2000 5000 (MEval (Rule "select_core" 0)) [mkTok "SELECT_" "SELECT"; mkTok "DISTINCT_" "DISTINCT"; idt "x"] []) with
      | Some (_, _, ?s) => exact s end) = Found r).
    { the_rest QDistinct s ss t ts w g W G K T H tl. }
    rewrite S0 in E |- *; cbn [app] in *; cbn [In] in S1.
    each_kind S1; (match goal with |- denm _ _ (?a :: ?b :: ?c :: _) _ = _ => go (Some core_follow) [a; b; c] 1 (AtRule "result_column") end; exact E).
  - assert (E : denm k (MEval (Rule "result_column" 0)) (rsel_toks s ++ clist rsel_toks ss ++ mkTok "FROM_" "FROM" :: tref_toks t ++ clist tref_toks ts ++ where_toks w ++ grp_toks g ++ tl)
      ltac:(match eval vm_compute in (exec (Some core_follow) (at_place 1 (AtRule "result_column")) 14 2000 5000 (MEval (Rule "select_core" 0)) [mkTok "SELECT_" "SELECT"; mkTok "ALL_" "ALL"; idt "x"] []) with
      | Some (_, _, ?s) => exact s end) = Found r).
    { the_rest QAll s ss t ts w g W G K T H tl. }
    rewrite S0 in E |- *; cbn [app] in *; cbn [In] in S1.
    each_kind S1; (match goal with |- denm _ _ (?a :: ?b :: ?c :: _) _ = _ => go (Some core_follow) [a; b; c] 1 (AtRule "result_column") end; exact E).
Qed.

(** ** ORDER BY, the direction being optional *)

Definition ditem : Type := string * option bool.
Definition di_word (d : bool) : string := if d then "DESC" else "ASC".
Definition di_kind (d : bool) : string := if d then "DESC_" else "ASC_".
Definition di_toks (o : ditem) : list token := idt (fst o) :: match snd o with Some d => [mkTok (di_kind d) (di_word d)] | None => [] end.
Definition di_tree (o : ditem) : tree :=
  Node "ordering_term" ((""%string, Node "expr" (col (fst o))) :: match snd o with Some d => [(""%string, Node "asc_desc" [(""%string, Leaf (mkTok (di_kind d) (di_word d)))])] | None => [] end).
Definition dic (o : ditem) : children := [(""%string, di_tree o)].
Definition di_pieces (o : ditem) : list piece := spaced ([PWord (fst o)] :: match snd o with Some d => [[PWord (di_word d)]] | None => [] end).
Definition di_orders (o : ditem) : list order := match snd o with Some d => [mkOrder (fst o) (if d then OrderDesc else OrderAsc)] | None => [] end.
Definition di_text (o : ditem) : string := match snd o with Some d => (fst o ++ " " ++ di_word d)%string | None => fst o end.
Lemma di_reads o bot : reads (Rule "ordering_term" 0) (di_toks o) (dic o) bot ("COMMA"%string :: order_ends).
Proof.
  intros k K [|[kd tx] tl] r T H; [contradiction|]. cbn [heads tk In order_ends] in T. destruct o as [c [[]|]]; unfold di_toks, di_kind, di_word; cbn [fst snd app]; enter;
    each_kind T; go_known none 1 AtEnd; exact H.
Qed.
Lemma good_di o : plain (fst o) -> good (di_pieces o).
Proof. intro P. unfold di_pieces. destruct (snd o) as [[]|]; goods; apply good_word; reflexivity. Qed.
Lemma glue_di o : glue (di_pieces o) = di_text o.
Proof. destruct o as [c [[]|]]; unfold di_pieces; rewrite glue_spaced; cbn [map snd fst]; rewrite !glue_one; reflexivity. Qed.
Lemma shown_di o : plain (fst o) -> shown (di_pieces o) = di_toks o.
Proof. intro P. unfold di_pieces. rewrite shown_spaced. cbn [flat_map]. rewrite (shown_name _ P). destruct o as [c [[]|]]; reflexivity. Qed.
Lemma v_di o : v_order (di_tree o) = Ok (di_orders o).
Proof. destruct o as [c [[]|]]; unfold v_order; cbn -[append]; rewrite ?append_nil_r; reflexivity. Qed.

Definition dorders_pieces (os : list ditem) : list (list piece) := match os with [] => [] | o :: r => [spaced [kw ["ORDER"%string; "BY"%string]; di_pieces o ++ listed di_pieces r]] end.
Definition dorders_toks (os : list ditem) : list token := match os with [] => [] | o :: r => mkTok "ORDER_" "ORDER" :: mkTok "BY_" "BY" :: di_toks o ++ clist di_toks r end.
Definition dordersc (os : list ditem) : children :=
  match os with [] => [] | o :: r => [(""%string, Node "order_by_stmt" ((""%string, Leaf (mkTok "ORDER_" "ORDER")) :: (""%string, Leaf (mkTok "BY_" "BY")) :: dic o ++ ctree dic r))] end.

(** ** LIMIT *)

Inductive win := WNone | WLimit (n : N) | WOffset (n m : N) | WComma (n m : N).
Definition win_ok (l : win) : Prop := match l with WNone => True | WLimit n => (n < 2 ^ 64)%N | WOffset n m | WComma n m => (n < 2 ^ 64)%N /\ (m < 2 ^ 64)%N end.
Definition win_limit (l : win) : limit := match l with WNone => mkLimit 0 0 | WLimit n => mkLimit 0 n | WOffset n m | WComma n m => mkLimit m n end.
Definition win_pieces (l : win) : list (list piece) :=
  match l with
  | WNone => []
  | WLimit n => [spaced [kw ["LIMIT"%string]; [PNum (show_N n)]]]
  | WOffset n m => [spaced [kw ["LIMIT"%string]; [PNum (show_N n)]; kw ["OFFSET"%string]; [PNum (show_N m)]]]
  | WComma n m => [spaced [kw ["LIMIT"%string]; [PNum (show_N n)] ++ listed (fun x => [PNum (show_N x)]) [m]]]
  end.
Definition win_toks (l : win) : list token :=
  match l with
  | WNone => []
  | WLimit n => [mkTok "LIMIT_" "LIMIT"; mkTok "NUMERIC_LITERAL" (show_N n)]
  | WOffset n m => [mkTok "LIMIT_" "LIMIT"; mkTok "NUMERIC_LITERAL" (show_N n); mkTok "OFFSET_" "OFFSET"; mkTok "NUMERIC_LITERAL" (show_N m)]
  | WComma n m => [mkTok "LIMIT_" "LIMIT"; mkTok "NUMERIC_LITERAL" (show_N n); comma; mkTok "NUMERIC_LITERAL" (show_N m)]
  end.
Definition winc (l : win) : children :=
  match l with
  | WNone => []
  | WLimit n => [(""%string, Node "limit_stmt" ((""%string, Leaf (mkTok "LIMIT_" "LIMIT")) :: lite (LNum (show_N n))))]
  | WOffset n m => [(""%string, Node "limit_stmt" ((""%string, Leaf (mkTok "LIMIT_" "LIMIT")) :: lite (LNum (show_N n)) ++ (""%string, Leaf (mkTok "OFFSET_" "OFFSET")) :: lite (LNum (show_N m))))]
  | WComma n m => [(""%string, Node "limit_stmt" ((""%string, Leaf (mkTok "LIMIT_" "LIMIT")) :: lite (LNum (show_N n)) ++ (""%string, Leaf comma) :: lite (LNum (show_N m))))]
  end.
Lemma good_win l : Forall good (win_pieces l).
Proof. destruct l; unfold win_pieces; goods; try (apply good_num, show_is_num). repeat constructor; apply good_num, show_is_num. Qed.
Lemma shown_win l : flat_map shown (win_pieces l) = win_toks l.
Proof. destruct l; unfold win_pieces; cbn [flat_map]; rewrite ?app_nil_r, ?shown_spaced; reflexivity. Qed.
Lemma v_win l os : win_ok l -> forall q n r, v_limit (sub "limit_stmt" (Node n ((q, r) :: dordersc os ++ winc l))) = if is_rule "limit_stmt" r then v_limit (Some r) else win_limit l.
Proof.
  intros O q n r. unfold sub. rewrite subs_node, named_cons. destruct (is_rule "limit_stmt" r); [reflexivity|].
  rewrite named_app. assert (named "limit_stmt" (dordersc os) = []) as -> by (destruct os; reflexivity). cbn [app].
  destruct l as [|a|a b|a b]; unfold winc; cbn -[to_uint show_N append]; rewrite ?append_nil_r, ?to_uint_show by (unfold win_ok in O; lia); reflexivity.
Qed.

(** ** The statement *)
Definition select2_toks q s ss t ts w g os l : list token := core2_toks q s ss t ts w g ++ dorders_toks os ++ win_toks l.
Definition select2_tree q s ss t ts w g os l : tree :=
  Node "sql_stmt" [(""%string, Node "select_stmt" (("parentQuery"%string, core2_tree q s ss t ts w g) :: dordersc os ++ winc l))].
Lemma after_core_tail2 os l tl : heads stmt_ends tl -> after_core (dorders_toks os ++ win_toks l ++ tl).
Proof.
  intro T. destruct os as [|o os]; [destruct l|]; cbn [dorders_toks win_toks app].
  - destruct tl as [|a tl]; [contradiction|]. left. eexists _, _. split; [reflexivity|exact T].
  - right. eexists _, _, _. split; [reflexivity|]. vm_compute. tauto.
  - right. eexists _, _, _. split; [reflexivity|]. vm_compute. tauto.
  - right. eexists _, _, _. split; [reflexivity|]. vm_compute. tauto.
  - right. eexists _, _, _. split; [reflexivity|]. vm_compute. tauto.
Qed.
Lemma win_heads l tl : heads stmt_ends tl -> heads order_ends (win_toks l ++ tl).
Proof. intro T. destruct l; [|vm_compute; tauto..]. apply (heads_incl stmt_ends); [in_list|exact T]. Qed.

Lemma select2_reads q s ss t ts w g os l : match w with Some c => cond_ok c | None => True end -> grp_ok g ->
  stmt_reads (select2_toks q s ss t ts w g os l) (select2_tree q s ss t ts w g os l).
Proof.
  intros W G k K tl r T H. unfold select2_toks. rewrite <- !app_assoc. enter.
  assert (E : denm k (MEval (Rule "select_core" 0)) (core2_toks q s ss t ts w g ++ dorders_toks os ++ win_toks l ++ tl)
    ltac:(match eval vm_compute in (exec (Some stmt_follow) (at_place 1 (AtRule "select_core")) 14 2000 5000 (MEval (Rule "sql_stmt" 0)) [mkTok "SELECT_" "SELECT"] []) with
      | Some (_, _, ?s) => exact s end) = Found r).
  { by_reads (core2_reads q s ss t ts w g W G); [law_by K|apply after_core_tail2; exact T|].
    destruct os as [|o os].
    - cbn [dorders_toks app]. unfold win_toks. destruct l as [|n|n m|n m]; cbn [app];
      destruct tl as [|[kd tx] tl]; [contradiction| |contradiction| |contradiction| |contradiction|]; cbn [heads tk In stmt_ends] in T; each_kind T;
       (go_known (Some stmt_follow) 1 AtEnd; unfold select2_tree, dordersc, winc in H; the_end H).
    - cbn [dorders_toks app]. rewrite <- app_assoc. go (Some stmt_follow) [mkTok "ORDER_" "ORDER"; mkTok "BY_" "BY"] 0 (AtRule "ordering_term").
      by_reads (di_reads o None); [apply heads_clist; apply win_heads; exact T|].
      go (Some stmt_follow) (@nil token) 0 AtStar.
      by_reads (list_reads_any (Rule "ordering_term" 0) di_toks dic None order_ends os eq_refl ltac:(not_in) (fun x _ => di_reads x None)); [apply win_heads; exact T|].
      unfold win_toks. destruct l as [|n|n m|n m]; cbn [app];
      destruct tl as [|[kd tx] tl]; [contradiction| |contradiction| |contradiction| |contradiction|]; cbn [heads tk In stmt_ends] in T; each_kind T;
       (go_known (Some stmt_follow) 1 AtEnd; unfold select2_tree, dordersc, winc in H; the_end H).
  }
  unfold core2_toks in E |- *. cbn [app] in E |- *.
  match goal with |- denm _ _ (?a :: _) _ = _ => go (Some stmt_follow) [a] 1 (AtRule "select_core") end. exact E.
Qed.
