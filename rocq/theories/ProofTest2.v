(** Lists of values, negation and parentheses in a WHERE clause; the text of tests. *)
From Coq Require Import Lia Permutation.
From Verif Require Import GoBase ModelUtil ModelNum ModelFn ModelQuery ModelEbnf ModelGrammar ModelLex ModelVisitor
  SpecFn SpecQuery SpecParse SpecRound FactsBase ProofEbnf ProofMachine ProofFn ProofNum ProofQuery ProofParse ProofLex ProofRound ProofRound2 ProofRound3
  ProofRound4 ProofRound5 ProofRound6 ProofRound7 ProofRound8 ProofRound9 ProofRound10 ProofRound13 ProofTest.

Lemma unseen_lits ls cs : unseen cs -> unseen (ctree lite ls ++ cs).
Proof. intro U. induction ls as [|l ls IH]; [exact U|]. constructor; [reflexivity|]. constructor; [destruct l; reflexivity|]. exact IH. Qed.
Ltac lits_list l ls L Ls T tl :=
  by_reads (lit_expr l None L); [apply (heads_incl ["COMMA"; "CLOSE_PAR"]%string); [in_list|first [apply heads_clist; left; reflexivity|left; reflexivity]]|];
  go (Some inner_follow) (@nil token) 0 AtStar;
  by_reads (list_reads_any (Rule "expr" 0) lit_toks lite None ["CLOSE_PAR"%string] ls ltac:(vm_compute; reflexivity) ltac:(not_in)
    (fun x Ix => reads_incl _ _ _ _ ["COMMA"; "CLOSE_PAR"]%string expr_ends ltac:(in_list) (lit_expr x None (proj1 (Forall_forall _ _) Ls x Ix)))); [left; reflexivity|];
  ends T tl; each_kind T.
Lemma away_not_among c l ls : lit_ok l -> Forall lit_ok ls -> read_away (dtest_toks (DAmong true c l ls)).
Proof.
  intros L Ls. eexists. split.
  - intros k K tl r T H. cbn [dtest_toks nots app]. enter. cbn [app]. rewrite <- !app_assoc. cbn [app].
    match goal with |- denm _ _ ?ts _ = _ => match ts with ?a :: ?b :: ?c :: ?d :: lit_toks _ ++ ?rest => change ts with ([a; b; c; d] ++ lit_toks l ++ rest); to_literal L [a; b; c; d] end end.
    lits_list l ls L Ls T tl; (go_known (Some inner_follow) 1 AtEnd; subst; exact H).
  - repeat (apply Forall_cons; [reflexivity|]). apply (unseen_lits ls [(_, _)]). see.
Qed.
(** one value in parentheses may be read as a name *)
Lemma away_among_one c l : lit_ok l -> read_away (dtest_toks (DAmong false c l [])).
Proof.
  intro L. each_lit L; (eexists; split;
  [intros k K tl r0 T H; ends T tl; cbn [dtest_toks nots app lit_toks clist flat_map]; enter; each_kind T; (go_known (Some inner_follow) 1 AtEnd; exact H)
  |see]).
Qed.
Lemma away_among_more c l l' ls : lit_ok l -> lit_ok l' -> Forall lit_ok ls -> read_away (dtest_toks (DAmong false c l (l' :: ls))).
Proof.
  intros L L' Ls. pose proof (Forall_cons _ L' Ls) as Lss. eexists. split.
  - intros k K tl r T H. cbn [dtest_toks nots app]. enter. cbn [app]. rewrite <- !app_assoc. cbn [app].
    assert (G : denm k (MEval (Rule "expr" 0)) (lit_toks l ++ clist lit_toks (l' :: ls) ++ close_ :: tl)
      ltac:(match eval vm_compute in (exec (Some inner_follow) (at_place 2 (AtRule "expr")) 14 2000 5000 (MEval (Rule "expr" 0)) [idt c; mkTok "IN_" "IN"; open_; mkTok "NUMERIC_LITERAL" "1"; comma] []) with
      | Some (_, _, ?s) => exact s end) = Found r).
    { lits_list l (l' :: ls) L Lss T tl; (go_known (Some inner_follow) 1 AtEnd; subst; exact H). }
    change (clist lit_toks (l' :: ls)) with (comma :: lit_toks l' ++ clist lit_toks ls) in *.
    each_lit L; cbn [lit_toks app] in *; (match goal with |- denm _ _ ?ts _ = _ => let l := known ts in let n := eval compute in (length l - 3) in go (Some inner_follow) l n (AtRule "expr") end; exact G).
  - see.
Qed.
Lemma away_among n c l ls : lit_ok l -> Forall lit_ok ls -> read_away (dtest_toks (DAmong n c l ls)).
Proof.
  intros L Ls. destruct n; [apply away_not_among; assumption|]. destruct Ls as [|l' ls L' Ls]; [apply away_among_one|apply away_among_more]; assumption.
Qed.
Lemma away_not c : cond_ok c -> read_away (dtest_toks (DNot c)).
Proof.
  intro C. eexists. split.
  - intros k K tl r T H. cbn [dtest_toks app]. enter.
    destruct (cond_toks_start c) as (x & l & E). rewrite E. cbn [app]. go_known (Some inner_follow) 1 (AtRule "expr").
    match goal with |- denm _ _ (?a :: l ++ ?tl) _ = _ => change (a :: l ++ tl) with ((idt x :: l) ++ tl) end. rewrite <- E.
    by_reads (inner_cond 19 c ltac:(in_here) C); [law_by K|exact T|].
    ends T tl. each_kind T; (go_known (Some inner_follow) 1 AtEnd; subst; exact H).
  - see.
Qed.

Definition dtree_seen (d : dtest) (cs : children) : Prop := match d with DCond c => Node "expr" cs = cond_tree c | _ => unseen cs end.
(** the first two tokens of a test that is more than a name *)
Definition seconds : list string := map fst (map snd cmp_kinds) ++ ["EQ"; "IS_"; "LIKE_"; "NOT_"; "GLOB_"; "REGEXP_"; "MATCH_"; "ISNULL_"; "NOTNULL_"; "BETWEEN_"; "IN_"]%string.
Lemma dtest_start d : dtest_ok d -> match d with DName _ | DPar _ => True | _ =>
  exists a b l, dtest_toks d = a :: b :: l /\ In (tk a, tk b) (("NOT_", "IDENTIFIER") :: map (fun k => ("IDENTIFIER", k)) seconds)%string end.
Proof.
  assert (S : forall x (b : token) ts, In (tk b) seconds -> exists a b' l, idt x :: b :: ts = a :: b' :: l /\ In (tk a, tk b') (("NOT_", "IDENTIFIER") :: map (fun k => ("IDENTIFIER", k)) seconds)%string).
  { intros x b ts I. eexists _, _, _. split; [reflexivity|]. right. apply in_map. exact I. }
  assert (C : forall a, cmp_ok a -> In (tk (op_tok (cm_op a))) seconds).
  { intros a [O _]. apply in_or_app. left. exact (in_map fst _ _ O). }
  destruct d as [c|c|c r l|c r|n c l l'|n c l ls|c|d]; cbn [dtest_ok dtest_toks]; intro O; try exact I.
  - destruct c as [a|w a b|w a b]; cbn [cond_ok cond_toks] in *; apply S, C; apply O.
  - destruct O as [I _]. each_of rels I; apply S; vm_compute; tauto.
  - each_of nulls O; apply S; vm_compute; tauto.
  - destruct n; apply S; vm_compute; tauto.
  - destruct n; apply S; vm_compute; tauto.
  - destruct (cond_toks_start c) as (x & l & ->). eexists _, _, _. split; [reflexivity|]. left. reflexivity.
Qed.
(** what the parser makes of a test, wherever it stands *)
Definition test_reads (ts : list token) (cs : children) : Prop := reads (Rule "expr" 0) ts [(""%string, Node "expr" cs)] (Some inner_follow) inner_ends.
Lemma in_parentheses ts cs a b l : test_reads ts cs -> ts = a :: b :: l -> In (tk a, tk b) (("NOT_", "IDENTIFIER") :: map (fun k => ("IDENTIFIER", k)) seconds)%string ->
  exists cs', test_reads (open_ :: ts ++ [close_]) cs' /\ unseen cs'.
Proof.
  intros Rd E I. eexists. split.
  - intros k K tl r T H. cbn [app]. rewrite <- app_assoc. cbn [app]. enter.
    assert (G : denm k (MEval (Rule "expr" 0)) (ts ++ close_ :: tl)
      ltac:(match eval vm_compute in (exec (Some inner_follow) (at_place 2 (AtRule "expr")) 14 2000 5000 (MEval (Rule "expr" 0)) [open_; idt "x"; mkTok "ASSIGN" "="] []) with
      | Some (_, _, ?s) => exact s end) = Found r).
    { by_reads Rd; [law_by K|left; reflexivity|]. ends T tl. each_kind T; (go_known (Some inner_follow) 1 AtEnd; subst; exact H). }
    subst ts. destruct a as [ka xa], b as [kb xb]. cbn [app tk map seconds cmp_kinds fst snd In] in *.
    repeat (destruct I as [I|I]; [injection I as <- <-; go_known (Some inner_follow) 2 (AtRule "expr"); exact G|]). contradiction.
  - see.
Qed.
Lemma dtest_reads d : dtest_ok d -> exists cs, test_reads (dtest_toks d) cs /\ dtree_seen d cs.
Proof.
  induction d as [c|c|c r l|c r|n c l l'|n c l ls|c|d IH]; cbn [dtest_ok dtree_seen]; intro O.
  - destruct c as [a|w a b|w a b]; (eexists; split; [exact (inner_cond 0 _ ltac:(in_here) O)|reflexivity]).
  - apply away_name.
  - destruct O. apply away_rel; assumption.
  - apply away_null; assumption.
  - destruct O. apply away_between; assumption.
  - destruct O. apply away_among; assumption.
  - apply away_not; assumption.
  - destruct O as [O N]. destruct (IH O) as (cs & Rd & _). pose proof (dtest_start d O) as S.
    destruct d as [c|c|c r l|c r|n c l l'|n c l ls|c|d]; [| | | | | | |contradiction].
    2:{ eexists. split; [intros k K tl r T H; ends T tl; cbn [dtest_toks app]; enter; each_kind T; (go_known (Some inner_follow) 1 AtEnd; exact H)|see]. }
    all: destruct S as (a & b & l0 & E & I); eapply in_parentheses; eassumption.
Qed.
