(** DELETE, UPDATE and SELECT with a test: what the parser makes of them. *)
From Coq Require Import Lia Permutation.
From Verif Require Import GoBase ModelUtil ModelNum ModelFn ModelQuery ModelEbnf ModelGrammar ModelLex ModelVisitor
  SpecFn SpecQuery SpecParse SpecRound SpecSelect SpecValue SpecTest FactsBase ProofEbnf ProofMachine ProofFn ProofNum ProofQuery ProofParse ProofLex ProofRound ProofRound2 ProofRound3
  ProofRound4 ProofRound5 ProofRound6 ProofRound7 ProofRound8 ProofRound9 ProofRound10 ProofRound11 ProofRound12 ProofRound13 ProofSelect ProofSelect2 ProofValue ProofValue2 ProofTest ProofTest2.

(** ** Tests in pieces *)

Definition rel_words (r : relation) : list string :=
  match r with
  | EqualsEquals => [] | Is => ["IS"] | IsNot => ["IS"; "NOT"] | Like => ["LIKE"] | NotLike => ["NOT"; "LIKE"] | Glob => ["GLOB"] | NotGlob => ["NOT"; "GLOB"]
  | Regexp => ["REGEXP"] | NotRegexp => ["NOT"; "REGEXP"] | Matches => ["MATCH"] | NotMatches => ["NOT"; "MATCH"]
  end%string.
Definition rel_pieces (r : relation) (ps : list piece) : list (list piece) := match r with EqualsEquals => [PSym "EQ" "==" :: sp :: ps] | r => [kw (rel_words r); ps] end.
Definition rel_of (r : relation) : list (string * string) := match r with EqualsEquals => [("EQ", "==")]%string | r => map (fun t => (tk t, tx t)) (shown (kw (rel_words r))) end.
Definition null_words (n : nullness) : list string := match n with Isnull => ["ISNULL"] | Notnull => ["NOTNULL"] | NotNull => ["NOT"; "NULL"] end%string.
Definition null_of (n : nullness) : list (string * string) := map (fun t => (tk t, tx t)) (shown (kw (null_words n))).
Definition not_words (n : bool) : list string := if n then ["NOT"%string] else [].

(** a test, the pieces of its text, and what is read *)
Inductive in_pieces : test -> list piece -> dtest -> Prop :=
| ip_cond e ps c : glue ps = expr_string e -> good ps -> shown ps = cond_toks c -> cond_ok c -> v_expr (cond_tree c) = Ok (Some e) -> condition_ok (Some e) ->
    in_pieces (Condition e) ps (DCond c)
| ip_not e ps c : glue ps = expr_string e -> good ps -> shown ps = cond_toks c -> cond_ok c -> condition_ok (Some e) ->
    in_pieces (Negated e) (spaced [kw ["NOT"%string]; ps]) (DNot c)
| ip_name c : any_name c -> in_pieces (Named c) [PWord c] (DName c)
| ip_rel c r l : any_name c -> literal_ok l -> in_pieces (Related c r l) (spaced ([PWord c] :: rel_pieces r (lits_pieces l))) (DRel c (rel_of r) (lit_of l))
| ip_null c n : any_name c -> in_pieces (Nullness c n) (spaced [[PWord c]; kw (null_words n)]) (DNull c (null_of n))
| ip_between n c a b : any_name c -> literal_ok a -> literal_ok b ->
    in_pieces (Within n c a b) (spaced [[PWord c]; kw (not_words n ++ ["BETWEEN"%string]); lits_pieces a; kw ["AND"%string]; lits_pieces b]) (DBetween n c (lit_of a) (lit_of b))
| ip_among n c l ls : any_name c -> Forall literal_ok (l :: ls) ->
    in_pieces (Among n c l ls) (spaced [[PWord c]; kw (not_words n ++ ["IN"%string]); lp :: (lits_pieces l ++ listed lits_pieces ls) ++ [rp]]) (DAmong n c (lit_of l) (map lit_of ls))
| ip_par t ps d : in_pieces t ps d -> match t with Enclosed _ => False | _ => True end -> in_pieces (Enclosed t) (lp :: ps ++ [rp]) (DPar d).

Lemma to_pieces t : test_ok t -> exists ps d, in_pieces t ps d.
Proof.
  induction t as [e|c|c r l|c n|n c a b|n c l ls|e|t IH]; cbn [test_ok]; intro O.
  - destruct (condition_back e O) as (ps & c & A & B & C & D & E). eexists _, _. econstructor; eassumption.
  - eexists _, _. constructor. exact O.
  - eexists _, _. constructor; apply O.
  - eexists _, _. constructor; apply O.
  - eexists _, _. constructor; apply O.
  - eexists _, _. constructor; apply O.
  - destruct (condition_back e O) as (ps & c & A & B & C & D & E). eexists _, _. econstructor; eassumption.
  - destruct O as [O N]. destruct (IH O) as (ps & d & P). eexists _, _. constructor; eassumption.
Qed.
Lemma literals_ok ls : Forall literal_ok ls -> Forall lit_ok (map lit_of ls).
Proof. intro F. apply Forall_map. revert F. apply Forall_impl. intros l L. apply literal_lit, L. Qed.
Lemma pieces_ok t ps d : in_pieces t ps d -> dtest_ok d.
Proof.
  induction 1; cbn [dtest_ok]; auto.
  - split; [destruct r; vm_compute; tauto|apply literal_lit; assumption].
  - destruct n; vm_compute; tauto.
  - split; apply literal_lit; assumption.
  - inversion H0; subst. split; [apply literal_lit; assumption|apply literals_ok; assumption].
  - split; [assumption|]. destruct H; auto.
Qed.
Lemma good_lit l : literal_ok l -> good (lits_pieces l).
Proof. apply literal_pieces. Qed.
Lemma shown_lit l : literal_ok l -> shown (lits_pieces l) = lit_toks (lit_of l).
Proof. apply literal_pieces. Qed.
Lemma glue_lit l : literal_ok l -> glue (lits_pieces l) = literal_text l.
Proof. intro L. rewrite (literal_as l L). apply literal_pieces, L. Qed.
Lemma pieces_good t ps d : in_pieces t ps d -> good ps.
Proof.
  induction 1; plains; repeat match goal with A : any_name _ |- _ => apply any_is in A end.
  - assumption.
  - goods; assumption.
  - goods.
  - pose proof (good_lit l H0). apply good_spaced, Forall_cons; [apply good_name; assumption|]. destruct r; unfold rel_pieces; goods; try assumption. apply good_op; [vm_compute; reflexivity|assumption].
  - destruct n; unfold null_words; goods.
  - destruct n; cbn [not_words app]; goods; apply good_lit; assumption.
  - inversion H0; subst. apply good_spaced. repeat (apply Forall_cons); [apply good_name; assumption|destruct n; cbn [not_words app]; goods| |apply Forall_nil].
    apply good_lp, good_app_rp; [|apply good_nil]. apply good_then_listed; [apply good_lit; assumption|]. revert H4. apply Forall_impl. exact good_lit.
  - apply good_lp, good_app_rp; [assumption|apply good_nil].
Qed.
Lemma pieces_shown t ps d : in_pieces t ps d -> shown ps = dtest_toks d.
Proof.
  induction 1; repeat match goal with A : any_name _ |- _ => apply any_is in A end; cbn [dtest_toks].
  - assumption.
  - rewrite shown_spaced. cbn [flat_map]. rewrite H1, app_nil_r. reflexivity.
  - apply shown_name. assumption.
  - rewrite shown_spaced. cbn [flat_map]. rewrite (shown_name c H). unfold id1. cbn [app]. f_equal.
    destruct r; unfold rel_pieces; cbn [flat_map]; rewrite ?app_nil_r; [|rewrite (shown_lit l H0); reflexivity..].
    change (PSym "EQ" "==" :: sp :: lits_pieces l) with ([PSym "EQ" "=="; sp] ++ lits_pieces l). rewrite shown_app, (shown_lit l H0). reflexivity.
  - rewrite shown_spaced. cbn [flat_map]. rewrite (shown_name c H), app_nil_r. unfold id1. cbn [app]. f_equal. destruct n; reflexivity.
  - rewrite shown_spaced. cbn [flat_map]. rewrite (shown_name c H), !shown_lit, app_nil_r by assumption. unfold id1. cbn [app]. f_equal. destruct n; reflexivity.
  - inversion H0; subst. rewrite shown_spaced. cbn [flat_map]. rewrite (shown_name c H), app_nil_r.
    change (lp :: (lits_pieces l ++ listed lits_pieces ls) ++ [rp]) with ([lp] ++ (lits_pieces l ++ listed lits_pieces ls) ++ [rp]).
    rewrite !shown_app, shown_listed, (shown_lit l) by assumption. rewrite (clist_ext _ (fun x => lit_toks (lit_of x)) ls) by (intros x I; apply shown_lit; exact (proj1 (Forall_forall _ _) H4 x I)).
    assert (clist (fun x => lit_toks (lit_of x)) ls = clist lit_toks (map lit_of ls)) as -> by (unfold clist; rewrite !flat_map_concat_map, map_map; reflexivity).
    rewrite <- app_assoc. destruct n; reflexivity.
  - change (lp :: ps ++ [rp]) with ([lp] ++ ps ++ [rp]). rewrite !shown_app, IHin_pieces. reflexivity.
Qed.
Lemma pieces_glue t ps d : in_pieces t ps d -> glue ps = test_text t.
Proof.
  induction 1; cbn [test_text].
  - rewrite (condition_as e) by assumption. assumption.
  - rewrite glue_spaced. cbn [map]. rewrite H, <- (condition_as e) by assumption. reflexivity.
  - apply glue_one.
  - rewrite glue_spaced. cbn [map]. rewrite glue_one. destruct r; unfold rel_pieces; cbn [map]; rewrite ?glue_cons', (glue_lit l H0); reflexivity.
  - rewrite glue_spaced. cbn [map]. rewrite glue_one. destruct n; reflexivity.
  - rewrite glue_spaced. cbn [map]. rewrite glue_one, !glue_lit by assumption. destruct n; reflexivity.
  - rewrite glue_spaced. cbn [map]. rewrite glue_one, glue_cons', glue_app, glue_listed. 
    assert (map (fun x => glue (lits_pieces x)) (l :: ls) = map literal_text (l :: ls)) as ->.
    { apply map_ext_in. intros x I. apply glue_lit. exact (proj1 (Forall_forall _ _) H0 x I). }
    rewrite glue_one. destruct n; reflexivity.
  - rewrite glue_cons', glue_app, IHin_pieces, glue_one. reflexivity.
Qed.

(** ** The statements *)

Definition kept_test (t : test) : condition := match t with Condition e => Some e | _ => None end.
(** what the visitor finds *)
Lemma v_unseen n cs : unseen cs -> v_expr (Node n cs) = Ok None.
Proof.
  intro U. unfold v_expr.
  assert (S : forall r, In r ["and_expr"; "or_expr"; "comparison_expr"]%string -> sub r (Node n cs) = None).
  { intros r I. unfold sub, subs. cbn [kids]. induction U as [|[l c] cs E _ IH]; [reflexivity|]. cbn [map filter snd] in *.
    assert (is_rule r c = false) as ->; [|exact IH]. cbn [existsb] in E. apply orb_false_iff in E as [E1 E]. apply orb_false_iff in E as [E2 E]. apply orb_false_iff in E as [E3 _].
    cbn [In] in I. destruct I as [<-|[<-|[<-|[]]]]; assumption. }
  rewrite !S by (cbn; tauto). reflexivity.
Qed.
Definition test_in (t : test) (ps : list piece) (cs : children) : Prop :=
  glue ps = test_text t /\ good ps /\ test_reads (shown ps) cs /\ v_expr (Node "expr" cs) = Ok (kept_test t) /\
  exists d, dtest_ok d /\ shown ps = dtest_toks d.
Lemma test_as t : test_ok t -> exists ps cs, test_in t ps cs.
Proof.
  intro O. destruct (to_pieces t O) as (ps & d & P). pose proof (pieces_ok _ _ _ P) as D. destruct (dtest_reads d D) as (cs & Rd & V).
  exists ps, cs. split; [exact (pieces_glue _ _ _ P)|]. split; [exact (pieces_good _ _ _ P)|]. split; [rewrite (pieces_shown _ _ _ P); exact Rd|].
  split; [|exists d; split; [exact D|exact (pieces_shown _ _ _ P)]].
  destruct P; cbn [dtree_seen kept_test] in *; try (apply v_unseen; exact V). rewrite V. assumption.
Qed.
Ltac by_test K Rd := by_reads Rd; [law_by K| |].

Lemma delete_test entries t w : any_name t -> test_given w ->
  parse entries (delete_where t w) = Ok [SDelete (new_table t) (match w with Some x => kept_test x | None => None end)].
Proof.
  intros P W. pose proof (any_is _ P) as Pt. unfold delete_where. destruct w as [x|]; cbn [where_text].
  - destruct (test_as x W) as (ps & cs & G & Gd & Rd & V & _).
    assert (reads_as entries (spaced [kw ["DELETE"%string]; kw ["FROM"%string]; [PWord t]; kw ["WHERE"%string]; ps]) (SDelete (new_table t) (kept_test x))) as A.
    { split; [goods; exact Gd|]. rewrite shown_spaced. cbn [flat_map]. rewrite app_nil_r. show_words. cbn [app]. split; [starts_ok|]. eexists. split.
      + intros k K tl r T H. toks. enter. go_known (Some stmt_follow) 0 (AtRule "expr").
        by_test K Rd; [apply (heads_incl stmt_ends); [in_list|exact T]|]. read_on T tl H.
      + cbn -[unescape_name_string unescape_string append v_expr]. rewrite V, !append_nil_r. reflexivity. }
    apply reads_parse in A. rewrite glue_spaced in A. cbn [map] in A. rewrite G, glue_one in A. exact A.
  - rewrite append_nil_r.
    assert (reads_as entries (spaced [kw ["DELETE"%string]; kw ["FROM"%string]; [PWord t]]) (SDelete (new_table t) None)) as A.
    { split; [goods|]. shows. split; [starts_ok|]. eexists. split; [read_all|visits]. }
    apply reads_parse in A. rewrite glue_spaced in A. cbn [map] in A. rewrite glue_one in A. exact A.
Qed.

Lemma update_test entries t sets w : any_name t -> some assignment_ok sets -> test_given w ->
  parse entries (update_where t sets w) = Ok [SUpdate (new_table t) (map assigned sets) (match w with Some x => kept_test x | None => None end)].
Proof.
  intros T S W. destruct w as [x|]; [|exact (update_reads entries t sets None T S cn_none)].
  destruct S as [N F]. destruct sets as [|u us]; [destruct (N eq_refl)|].
  destruct (test_as x W) as (ps & cs & G & Gd & Rd & V & _).
  pose proof (any_is _ T) as P. pose proof (proj2 (Forall_map vset_of vset_ok (u :: us)) (Forall_impl _ vset_of_ok F)) as Fv. cbn [map] in Fv.
  pose proof (glue_vsets (u :: us) F) as Gv.
  assert (Ea : map assigned (u :: us) = map vset_column (vset_of u :: map vset_of us)) by (cbn [map]; rewrite map_map; reflexivity).
  rewrite Ea. cbn [map] in Gv. remember (vset_of u) as v eqn:Ev. remember (map vset_of us) as vs eqn:Evs.
  assert (A : reads_as entries (vupdate_pieces t v vs (Some ps)) (SUpdate (new_table t) (map vset_column (v :: vs)) (kept_test x))).
  { clear - P Fv Rd V Gd.
    inversion Fv as [|? ? U Us]; subst.
    assert (S0 : shown (vsets_pieces v vs) = vset_toks v ++ clist vset_toks vs).
    { unfold vsets_pieces. rewrite shown_app, (shown_vset v U), shown_listed. f_equal. apply clist_ext. intros y I. apply shown_vset. exact (proj1 (Forall_forall _ _) Us y I). }
    assert (D0 : good (vsets_pieces v vs)).
    { apply good_then_listed; [apply good_vset; exact U|]. revert Us. apply Forall_impl. exact good_vset. }
    pose proof (v_vsets v vs Fv) as E0. remember (map vset_column (v :: vs)) as cols eqn:Ec. clear Ec.
    unfold vupdate_pieces. cbn [vwhere_pieces app].
    split; [goods; assumption|]. rewrite shown_spaced. cbn [flat_map]. rewrite S0, app_nil_r. show_words. cbn [app]. split; [starts_ok|]. eexists. split.
    + intros k K tl r T H. toks. enter. go_known (Some stmt_follow) 0 (AtRule "update_column_set").
      by_reads (vset_reads v U); [law_by K|apply (heads_incl ["COMMA"; "WHERE_"]%string); [in_list|apply heads_clist; left; reflexivity]|].
      go (Some stmt_follow) (@nil token) 0 AtStar.
      by_reads (list_reads (Rule "update_column_set" 0) vset_toks vsetc (Some (List.tl vset_follow)) ["WHERE_"]%string vs eq_refl ltac:(not_in)
        (fun x Ix => reads_incl _ _ _ _ ["COMMA"; "WHERE_"]%string set_ends ltac:(in_list) (vset_reads x (proj1 (Forall_forall _ _) Us x Ix)))); [law_by K|left; reflexivity|].
      go_known (Some stmt_follow) 0 (AtRule "expr").
      by_test K Rd; [apply (heads_incl stmt_ends); [in_list|exact T]|]. read_on T tl H.
    + finds. rewrite E0, !marked_app, marked_ctree, no_where_in_vsets by discriminate.
      match goal with |- context[hd_error ?x] => change (hd_error x) with (Some (Node "expr" cs)) end.
      cbn [v_where rbind]. rewrite V, !append_nil_r. reflexivity. }
  apply reads_parse in A. unfold update_where. cbn [where_text map]. rewrite <- G.
  replace (glue (vupdate_pieces t v vs (Some ps))) with ("UPDATE " ++ t ++ " SET " ++ join ", " (map assignment_text (u :: us)) ++ " WHERE " ++ glue ps)%string in A; [exact A|].
  unfold vupdate_pieces, vwhere_pieces. rewrite glue_spaced. cbn [map app]. unfold vsets_pieces. rewrite glue_one, glue_listed. cbn [map]. rewrite Gv.
  unfold kw, join_with_comma. cbn [map spaced]. rewrite !glue_one. cbn [ptext join]. rewrite ?sapp_assoc. reflexivity.
Qed.
