(** The beginnings of conditions that are refused, in texts. *)
From Verif Require Import GoBase ModelUtil ModelNum ModelFn ModelEbnf ModelGrammar ModelLex ModelQuery ModelVisitor SpecRound SpecSelect SpecValue SpecTest SpecRefuse FactsBase ProofEbnf ProofMachine ProofFn ProofParse ProofLex ProofRound
  ProofRound2 ProofRound3 ProofRound4 ProofRound5 ProofRound6 ProofRound7 ProofRound8 ProofRound9 ProofRound10 ProofRound11 ProofRound12 ProofRound13 ProofSelect ProofSelect2 ProofValue ProofValue2 ProofTest ProofTest2 ProofTest3
  ProofRefuse ProofTest5 ProofRefuse2 ProofRefuse3.
Local Open Scope string_scope.
Local Open Scope list_scope.

(** ** The kinds of tests *)

Definition lit_shapes : list (list (list string)) := [[klit]; kneg].
Definition cond_shapes : list (list (list string)) :=
  let one := [[kn; kop; klit]; kn :: kop :: kneg] in one ++ flat_map (fun a => map (fun b => a ++ [kj] ++ b) one) one.
Definition single_shapes : list (list (list string)) :=
  [kn] :: flat_map (fun r => map (fun l => kn :: map (fun o => k1 (fst o)) r ++ l) lit_shapes) rels ++ map (fun r => kn :: map (fun o => k1 (fst o)) r) nulls
  ++ flat_map (fun n => flat_map (fun l => map (fun l' => kn :: n ++ k1 "BETWEEN_" :: l ++ k1 "AND_" :: l') lit_shapes) lit_shapes) [[]; [k1 "NOT_"]].
Definition shapes : list (list (list string)) := cond_shapes ++ map (fun ks => k1 "NOT_" :: ks) cond_shapes ++ single_shapes.
Lemma lit_shape l : lit_ok l -> exists ks, has_kinds (lit_toks l) ks /\ In ks lit_shapes.
Proof. intro L. destruct (lit_kinds l L); eexists; (split; [eassumption|cbn; tauto]). Qed.
Lemma op_shape r : has_kinds (map op_tok r) (map (fun o => k1 (fst o)) r).
Proof. induction r as [|o r IH]; [apply Forall2_nil|]. apply kind_is; [left; reflexivity|exact IH]. Qed.
Definition single (d : dtest) : Prop := match d with DName _ | DRel _ _ _ | DNull _ _ | DBetween _ _ _ _ => True | _ => False end.
Lemma single_shape d : dtest_ok d -> single d -> exists ks, has_kinds (dtest_toks d) ks /\ In ks single_shapes.
Proof.
  intros O S. destruct d as [c|c|c r l|c r|n c l l'|n c l ls|c|d]; cbn [dtest_ok single dtest_toks] in *; try contradiction.
  - exists [kn]. split; [apply kind_is; [left; reflexivity|apply Forall2_nil]|left; reflexivity].
  - destruct O as [I L]. destruct (lit_shape l L) as (kl & H & Il). exists (kn :: map (fun o => k1 (fst o)) r ++ kl). split; [apply kind_is; [left; reflexivity|]; apply kinds_app; [apply op_shape|exact H]|].
    right. apply in_or_app. left. apply in_flat_map. exists r. split; [exact I|]. apply (in_map (fun l0 => kn :: map (fun o => k1 (fst o)) r ++ l0)). exact Il.
  - exists (kn :: map (fun o => k1 (fst o)) r). split; [apply kind_is; [left; reflexivity|]; apply op_shape|]. right. apply in_or_app. right. apply in_or_app. left.
    apply (in_map (fun r => kn :: map (fun o => k1 (fst o)) r)). exact O.
  - destruct O as [L L']. destruct (lit_shape l L) as (kl & H & Il), (lit_shape l' L') as (kl' & H' & Il').
    exists (kn :: (if n then [k1 "NOT_"] else []) ++ k1 "BETWEEN_" :: kl ++ k1 "AND_" :: kl'). split.
    + apply kind_is; [left; reflexivity|]. apply kinds_app; [destruct n; [apply kind_is; [left; reflexivity|]|]; apply Forall2_nil|].
      apply kind_is; [left; reflexivity|]. apply kinds_app; [exact H|]. apply kind_is; [left; reflexivity|exact H'].
    + right. apply in_or_app. right. apply in_or_app. right. apply in_flat_map. exists (if n then [k1 "NOT_"] else []). split; [destruct n; cbn; tauto|].
      apply in_flat_map. exists kl. split; [exact Il|]. apply (in_map (fun l0 => kn :: (if n then [k1 "NOT_"] else []) ++ k1 "BETWEEN_" :: kl ++ k1 "AND_" :: l0)). exact Il'.
Qed.
Lemma any_shape d : dtest_ok d -> match d with DAmong _ _ _ _ | DPar _ => False | _ => True end -> exists ks, has_kinds (dtest_toks d) ks /\ In ks shapes.
Proof.
  intros O S. destruct d as [c|c|c r l|c r|n c l l'|n c l ls|c|d]; try contradiction;
    try (destruct (single_shape _ O I) as (ks & H & J); exists ks; split; [exact H|apply in_or_app; right; apply in_or_app; right; exact J]).
  - destruct (cond_kinds c O) as (ks & H & J). exists ks. split; [exact H|]. apply in_or_app. left. exact J.
  - destruct (cond_kinds c O) as (ks & H & J). exists (k1 "NOT_" :: ks). split; [apply kind_is; [left; reflexivity|exact H]|].
    apply in_or_app. right. apply in_or_app. left. apply in_map. exact J.
Qed.
Definition hopeless (ks : list (list string)) : bool := negb (mays (Some on_follow) 5000 (MEval (Rule "expr" 0)) ks []).
Lemma hopeless_is ks : hopeless ks = true -> hopeless_kinds ks.
Proof. apply Bool.negb_true_iff. Qed.
Lemma singles_hopeless : forallb (fun ks => hopeless (ks ++ [kj])) single_shapes = true.
Proof. vm_compute. reflexivity. Qed.
Lemma pars_hopeless : forallb (fun ks => hopeless (k1 "OPEN_PAR" :: ks ++ [k1 "CLOSE_PAR"; kj])) shapes = true.
Proof. vm_compute. reflexivity. Qed.

Lemma joined_none d t2 more : dtest_ok d -> match d with DCond _ | DNot _ => False | _ => True end -> joint_tok t2 -> no_expr ((dtest_toks d ++ [t2]) ++ more).
Proof.
  intros O S T.
  assert (Si : single d -> no_expr ((dtest_toks d ++ [t2]) ++ more)).
  { intro Sd. destruct (single_shape d O Sd) as (ks & H & J). eapply kinds_none; [|apply kinds_app; [exact H|apply joint_kinds, T]].
    apply hopeless_is. exact (proj1 (forallb_forall _ _) singles_hopeless ks J). }
  destruct d as [c|c|c r l|c r|n c l l'|n c l ls|c|d]; try contradiction; try (apply Si; exact I).
  - exact (in_none false n c l ls t2 more (proj1 O) (proj2 O) T).
  - destruct O as [O N]. assert (E : (dtest_toks (DPar d) ++ [t2]) ++ more = (open_ :: dtest_toks d ++ [close_; t2]) ++ more) by (cbn [dtest_toks app]; rewrite <- !app_assoc; reflexivity).
    rewrite E.
    assert (Pa : match d with DAmong _ _ _ _ | DPar _ => False | _ => True end -> no_expr ((open_ :: dtest_toks d ++ [close_; t2]) ++ more)).
    { intro Sd. destruct (any_shape d O Sd) as (ks & H & J).
      apply (kinds_none (k1 "OPEN_PAR" :: ks ++ [k1 "CLOSE_PAR"; kj])); [apply hopeless_is; exact (proj1 (forallb_forall _ _) pars_hopeless ks J)|].
      apply kind_is; [left; reflexivity|]. apply kinds_app; [exact H|]. apply kind_is; [left; reflexivity|apply joint_kinds, T]. }
    destruct d as [c|c|c r l|c r|n c l l'|n c l ls|c|d]; try contradiction; try (apply Pa; exact I).
    exact (in_none true n c l ls t2 more (proj1 O) (proj2 O) T).
Qed.

(** ** In texts *)

(** a text that begins a condition and cannot be read on *)
Definition dead (x : string) : Prop := forall rest, exists ps rest' f fs,
  (x ++ " " ++ rest = glue ps ++ " " ++ rest')%string /\ good (ps ++ [sp]) /\ shown ps = f :: fs /\ can_start f /\ forall more, no_expr ((f :: fs) ++ more).
Lemma good_sp_end ps : good ps -> good (ps ++ [sp]).
Proof. intro G. apply good_app_sp; [exact G|apply good_nil]. Qed.
Lemma dead_kinds x ps c ks : glue ps = x -> good (ps ++ [sp]) -> has_kinds (shown ps) (c :: ks) -> hopeless (c :: ks) = true ->
  (forall k, In k c -> In k ["IDENTIFIER"; "NUMERIC_LITERAL"; "MINUS"; "OPEN_PAR"]) -> dead x.
Proof.
  intros E G H D S rest. inversion H as [|f c' fs ks' If Hf]; subst. exists ps, rest, f, fs. split; [reflexivity|]. split; [exact G|]. split; [symmetry; assumption|].
  split; [apply S; exact If|]. intro more. apply (kinds_none (c :: ks)); [apply hopeless_is, D|exact (kind_is f c fs ks If Hf)].
Qed.
Lemma shown_cons_word x ps : plain x -> shown (PWord x :: ps) = idt x :: shown ps.
Proof. intros [_ K]. change (PWord x :: ps) with ([PWord x] ++ ps). rewrite shown_app, shown_word, K. reflexivity. Qed.
Ltac words_good := repeat match goal with P : plain ?x |- _ => lazymatch goal with W : is_name x = true |- _ => fail | _ => assert (is_name x = true) by apply P end end;
  split; [cbn [app forallb ok_piece]; repeat match goal with W : is_name _ = true |- _ => rewrite W end; repeat match goal with W : is_num _ = true |- _ => rewrite W end; reflexivity|split; reflexivity].
Ltac words_kinds := rewrite ?shown_cons_word by assumption;
  repeat match goal with |- has_kinds (shown (PWord ?x :: ?ps)) _ => rewrite (shown_cons_word x ps) by assumption; apply kind_is; [left; reflexivity|]
    | |- has_kinds (shown (sp :: ?ps)) _ => change (shown (sp :: ps)) with (shown ps)
    | |- has_kinds (shown (?p :: ?ps)) _ => change (shown (p :: ps)) with (ptok p :: shown ps); apply kind_is; [cbn; tauto|]
    | |- has_kinds (shown []) _ => apply Forall2_nil
    | |- has_kinds (_ :: _) _ => apply kind_is; [cbn; tauto|] end.
Ltac words_text := rewrite ?glue_cons'; change (glue []) with ""%string; rewrite ?append_nil_r; reflexivity.
Ltac each_sign O := unfold signs, arithmetic in O; cbn [In app] in O; repeat (destruct O as [<-|O]); [..|contradiction].
Ltac dead_words ps ks := apply (dead_kinds _ ps (hd [] ks) (tl ks)); [words_text|words_good|words_kinds|vm_compute; reflexivity|intros ? X; cbn in X |- *; tauto].
Definition sign_kind (o : string) : string :=
  fold_right (fun q r => if String.eqb (snd q) o then fst q else r) "" [("ASSIGN", "="); ("NOT_EQ1", "!="); ("NOT_EQ2", "<>"); ("LT", "<"); ("GT", ">"); ("LT_EQ", "<="); ("GT_EQ", ">=");
    ("PLUS", "+"); ("MINUS", "-"); ("STAR", "*"); ("DIV", "/"); ("MOD", "%")].
Definition knum : list string := k1 "NUMERIC_LITERAL".

Lemma qualified_dead s c o : any_name s -> any_name c -> In o signs -> dead (s ++ "." ++ c ++ " " ++ o).
Proof.
  intros S C O. apply any_is in S, C. each_sign O;
  match goal with |- dead (_ ++ _ ++ _ ++ _ ++ ?o) => let k := eval vm_compute in (sign_kind o) in dead_words [PWord s; PSym "DOT" "."; PWord c; sp; PSym k o] [kn; k1 "DOT"; kn; kop] end.
Qed.
Lemma columns_dead c o d : any_name c -> In o signs -> any_name d -> dead (c ++ " " ++ o ++ " " ++ d).
Proof.
  intros C O D. apply any_is in C, D. each_sign O;
  match goal with |- dead (_ ++ _ ++ ?o ++ _) => let k := eval vm_compute in (sign_kind o) in dead_words [PWord c; sp; PSym k o; sp; PWord d] [kn; kop; kn] end.
Qed.
Lemma with_call_dead c o f : any_name c -> In o signs -> any_name f -> dead (c ++ " " ++ o ++ " " ++ f ++ "(").
Proof.
  intros C O D. apply any_is in C, D. each_sign O;
  match goal with |- dead (_ ++ _ ++ ?o ++ _) => let k := eval vm_compute in (sign_kind o) in dead_words [PWord c; sp; PSym k o; sp; PWord f; lp] [kn; kop; kn; k1 "OPEN_PAR"] end.
Qed.
Lemma with_group_dead c o : any_name c -> In o signs -> dead (c ++ " " ++ o ++ " (").
Proof.
  intros C O. apply any_is in C. each_sign O;
  match goal with |- dead (_ ++ _ ++ ?o ++ _) => let k := eval vm_compute in (sign_kind o) in dead_words [PWord c; sp; PSym k o; sp; lp] [kn; kop; k1 "OPEN_PAR"] end.
Qed.
Lemma number_dead n o : number n -> In o signs -> dead (n ++ " " ++ o).
Proof.
  intros N O. apply number_is in N. each_sign O;
  match goal with |- dead (_ ++ _ ++ ?o) => let k := eval vm_compute in (sign_kind o) in dead_words [PNum n; sp; PSym k o] [knum; kop] end.
Qed.
Lemma call_dead f c o : any_name f -> any_name c -> In o signs -> dead (f ++ "(" ++ c ++ ") " ++ o).
Proof.
  intros F C O. apply any_is in F, C. each_sign O;
  match goal with |- dead (_ ++ _ ++ _ ++ _ ++ ?o) => let k := eval vm_compute in (sign_kind o) in dead_words [PWord f; lp; PWord c; rp; sp; PSym k o] [kn; k1 "OPEN_PAR"; kn; k1 "CLOSE_PAR"; kop] end.
Qed.
Lemma computed_dead c a n o : any_name c -> In a arithmetic -> number n -> In o signs -> dead (c ++ " " ++ a ++ " " ++ n ++ " " ++ o).
Proof.
  intros C A N O. apply any_is in C. apply number_is in N. each_sign A; each_sign O;
  match goal with |- dead (_ ++ _ ++ ?a ++ _ ++ _ ++ _ ++ ?o) => let k := eval vm_compute in (sign_kind o) in let h := eval vm_compute in (sign_kind a) in
    dead_words [PWord c; sp; PSym h a; sp; PNum n; sp; PSym k o] [kn; kar; knum; kop] end.
Qed.
Lemma good_end_op ps k t : good ps -> ok_piece (PSym k t) = true -> good ((ps ++ [sp; PSym k t]) ++ [sp]).
Proof. intros G O. rewrite <- app_assoc. cbn [app]. apply good_app_sp; [exact G|]. apply good_op; [exact O|apply good_nil]. Qed.
Lemma more_dead e o : comparison_ok e -> In o (signs ++ arithmetic) -> dead (condition_text e ++ " " ++ o).
Proof.
  intros C O. destruct (comparison_pieces e C) as (ps & c & G & D & S & K).
  each_sign O; match goal with |- dead (_ ++ _ ++ ?o) => let k := eval vm_compute in (sign_kind o) in
    destruct (cmp_kinds_of c K) as [H|H];
    [apply (dead_kinds _ (ps ++ [sp; PSym k o]) kn ([kop; klit] ++ [kop ++ kar]))|apply (dead_kinds _ (ps ++ [sp; PSym k o]) kn ((kop :: kneg) ++ [kop ++ kar]))] end.
  all: lazymatch goal with
    | |- glue _ = _ => rewrite glue_app, G, !glue_cons'; reflexivity
    | |- good _ => apply good_end_op; [assumption|reflexivity]
    | |- hopeless _ = true => vm_compute; reflexivity
    | |- forall k, In k kn -> _ => intros ? X; cbn in X |- *; tauto
    | H : has_kinds _ ?k |- has_kinds _ _ => rewrite shown_app, S; lazymatch goal with |- has_kinds (_ ++ ?x) _ => apply (kinds_app (cmp_toks c) x k [kop ++ kar] H) end;
        apply kind_is; [cbn; tauto|apply Forall2_nil] end.
Qed.
Lemma joint_in j : joint_tok (mkTok (kind_of_word (joint j)) (joint j)).
Proof. destruct j; [left|right]; reflexivity. Qed.
Lemma dtest_first d : dtest_ok d -> match d with DCond _ | DNot _ => False | _ => True end -> exists f fs, dtest_toks d = f :: fs /\ can_start f.
Proof.
  intros _ S. destruct d as [c|c|c r l|c r|n c l l'|n c l ls|c|d]; try contradiction; cbn [dtest_toks]; (do 2 eexists; split; [reflexivity|]; unfold can_start; cbn; tauto).
Qed.
Lemma joined_dead t j : test_ok t -> no_comparisons t -> dead (test_text t ++ " " ++ joint j).
Proof.
  intros O N rest. destruct (to_pieces t O) as (ps & d & P).
  assert (S : match d with DCond _ | DNot _ => False | _ => True end) by (destruct P; cbn in *; auto).
  pose proof (pieces_ok _ _ _ P) as D. destruct (dtest_first d D S) as (f & fs & E & F).
  exists (ps ++ sp :: kw [joint j]), rest, f, (fs ++ [mkTok (kind_of_word (joint j)) (joint j)]).
  split; [|split; [|split; [|split]]].
  - rewrite glue_app, glue_cons', (pieces_glue _ _ _ P). unfold kw. cbn [map spaced]. rewrite glue_one. cbn [ptext]. rewrite !sapp_assoc. reflexivity.
  - apply good_sp_end, good_app_sp; [exact (pieces_good _ _ _ P)|]. destruct j; goods.
  - rewrite shown_app, (pieces_shown _ _ _ P), E. destruct j; reflexivity.
  - exact F.
  - intro more. rewrite app_comm_cons, <- E. apply joined_none; [exact D|exact S|apply joint_in].
Qed.
(** the first words of a test of one column *)
Definition krel : list string := ["EQ"; "IS_"; "LIKE_"; "GLOB_"; "REGEXP_"; "MATCH_"; "NOT_"; "BETWEEN_"; "IN_"; "ISNULL_"; "NOTNULL_"].
Lemma second_word t : test_ok t -> of_one_column t -> exists c p more, any_name c /\ In (pkind p) krel /\ ok_piece p = true /\ is_space_piece p = false
  /\ test_text t = (c ++ " " ++ ptext p ++ more)%string /\ (more = "" \/ exists m, more = (" " ++ m)%string) /\ (next_ok p sp = true).
Proof.
  intros O S. destruct t as [e|c|c r l|c n|n c a b|n c l ls|e|t]; cbn [of_one_column test_ok test_text] in *; try contradiction.
  - destruct r; cbn [relation_text];
    lazymatch goal with
    | |- context[("==" ++ " " ++ ?m)%string] => exists c, (PSym "EQ" "=="), (" " ++ m)%string
    | |- context[("IS" ++ " " ++ ?m)%string] => exists c, (PWord "IS"), (" " ++ m)%string
    | |- context[("LIKE" ++ " " ++ ?m)%string] => exists c, (PWord "LIKE"), (" " ++ m)%string
    | |- context[("GLOB" ++ " " ++ ?m)%string] => exists c, (PWord "GLOB"), (" " ++ m)%string
    | |- context[("REGEXP" ++ " " ++ ?m)%string] => exists c, (PWord "REGEXP"), (" " ++ m)%string
    | |- context[("MATCH" ++ " " ++ ?m)%string] => exists c, (PWord "MATCH"), (" " ++ m)%string
    | |- context[("IS NOT" ++ " " ++ ?m)%string] => exists c, (PWord "IS"), (" NOT " ++ m)%string
    | |- context[(String "N" (String "O" (String "T" ?w)) ++ " " ++ ?m)%string] => exists c, (PWord "NOT"), (w ++ " " ++ m)%string
    end; repeat split; try apply O; try (vm_compute; tauto); try (right; eexists; reflexivity).
  - destruct n; cbn [nullness_text]; [exists c, (PWord "ISNULL"), ""|exists c, (PWord "NOTNULL"), ""|exists c, (PWord "NOT"), " NULL"]; repeat split; try exact O; try (vm_compute; tauto); try (left; reflexivity); right; eexists; reflexivity.
  - exists c. destruct n; [exists (PWord "NOT"), (" BETWEEN " ++ literal_text a ++ " AND " ++ literal_text b)%string|exists (PWord "BETWEEN"), (" " ++ literal_text a ++ " AND " ++ literal_text b)%string];
      repeat split; try apply O; try (vm_compute; tauto); right; eexists; reflexivity.
  - exists c. destruct n; [exists (PWord "NOT"), (" IN (" ++ join ", " (map literal_text (l :: ls)) ++ ")")%string|exists (PWord "IN"), (" (" ++ join ", " (map literal_text (l :: ls)) ++ ")")%string];
      repeat split; try apply O; try (vm_compute; tauto); right; eexists; reflexivity.
Qed.
Lemma second_dead e j t : comparison_ok e -> test_ok t -> of_one_column t -> dead (condition_text e ++ " " ++ joint j ++ " " ++ test_text t).
Proof.
  intros C O S rest. destruct (comparison_pieces e C) as (ps & a & G & D & Sh & K). destruct (second_word t O S) as (c & p & more & A & Kp & Ok & Sp & E & M & Nx).
  assert (R : exists rest', (test_text t ++ " " ++ rest = c ++ " " ++ ptext p ++ " " ++ rest')%string).
  { rewrite E. destruct M as [-> |[m ->]]; [exists rest|exists (m ++ " " ++ rest)%string]; rewrite ?append_nil_r, !sapp_assoc; reflexivity. }
  destruct R as (rest' & R). apply any_is in A.
  pose (js := mkTok (kind_of_word (joint j)) (joint j)).
  assert (H : exists ks, has_kinds (cmp_toks a ++ [js; idt c; ptok p]) (kn :: ks) /\ hopeless (kn :: ks) = true).
  { assert (X : has_kinds [js; idt c; ptok p] [kj; kn; krel]).
    { apply kind_is; [destruct j; cbn; tauto|]. apply kind_is; [left; reflexivity|]. apply kind_is; [|apply Forall2_nil]. destruct p; exact Kp. }
    destruct (cmp_kinds_of a K) as [H|H]; [exists ([kop; klit] ++ [kj; kn; krel])|exists ((kop :: kneg) ++ [kj; kn; krel])]; (split; [exact (kinds_app _ _ _ _ H X)|vm_compute; reflexivity]). }
  destruct H as (ks & H & Hk).
  exists (ps ++ sp :: kw [joint j] ++ [sp; PWord c; sp; p]), rest', (idt (cm_col a)), (op_tok (cm_op a) :: lit_toks (cm_lit a) ++ [js; idt c; ptok p]).
  split; [|split; [|split; [|split]]].
  - rewrite !sapp_assoc, R. rewrite glue_app, G, glue_cons', glue_app, !glue_cons'. unfold kw. cbn [map spaced]. rewrite glue_one. change (glue []) with ""%string. cbn [ptext]. rewrite append_nil_r, !sapp_assoc. reflexivity.
  - rewrite <- app_assoc. cbn [app]. rewrite <- app_assoc. cbn [app]. apply good_app_sp; [exact D|]. apply good_app_sp; [destruct j; goods|].
    split; [cbn [forallb ok_piece]; rewrite (proj1 A), Ok; reflexivity|]. split; [|destruct p; reflexivity].
    cbn [chain]. change (next_ok (PWord c) sp) with true. assert (next_ok sp p = true) as -> by reflexivity. rewrite Nx. reflexivity.
  - rewrite shown_app, Sh. change (sp :: kw [joint j] ++ [sp; PWord c; sp; p]) with ([sp] ++ kw [joint j] ++ [sp; PWord c; sp; p]). rewrite !shown_app.
    change (shown [sp]) with (@nil token). change (shown [sp; PWord c; sp; p]) with (shown (PWord c :: [sp; p])). rewrite (shown_cons_word c _ A).
    change (shown [sp; p]) with (shown [p]). unfold shown at 2. cbn [filter]. rewrite Sp. cbn [negb map]. destruct j; reflexivity.
  - left. reflexivity.
  - intro more0. change (no_expr ((cmp_toks a ++ [js; idt c; ptok p]) ++ more0)). exact (kinds_none _ _ _ (hopeless_is _ Hk) H).
Qed.
Lemma no_condition_dead x : no_condition x -> dead x.
Proof.
  destruct 1; [apply qualified_dead|apply columns_dead|apply with_call_dead|apply with_group_dead|apply number_dead|apply call_dead|apply computed_dead|apply more_dead|apply joined_dead|apply second_dead]; assumption.
Qed.

(** ** In statements *)

Lemma stream_on ps rest : good (ps ++ [sp]) -> token_stream (glue ps ++ " " ++ rest) = shown ps ++ token_stream rest.
Proof.
  intros (O & C & _). rewrite forallb_app in O. apply andb_prop in O. destruct O as [O _]. unfold token_stream.
  replace (glue ps ++ " " ++ rest)%string with (glue (ps ++ [sp]) ++ rest)%string by (rewrite glue_app, glue_one, sapp_assoc; reflexivity).
  rewrite lex_before by assumption. unfold visible. rewrite filter_app, <- app_assoc. f_equal.
  change (visible (map ptok (ps ++ [sp])) = shown ps). rewrite visible_pieces by (rewrite forallb_app, O; reflexivity).
  rewrite shown_app. apply app_nil_r.
Qed.
Lemma dead_parse entries (ws : list (list piece)) x rest : dead x -> ws <> [] -> Forall good ws ->
  (forall f fs, can_start f -> no_expr (f :: fs) -> R (Rule "parse" 0) (flat_map shown ws ++ f :: fs) at_end = NotFound) ->
  parse entries (join " " (map glue ws) ++ " " ++ x ++ " " ++ rest) = Err ErrParse.
Proof.
  intros D N W H. destruct (D rest) as (ps & rest' & f & fs & E & G & S & F & X). rewrite E.
  assert (T : (join " " (map glue ws) ++ " " ++ glue ps ++ " " ++ rest' = glue (spaced ws ++ sp :: ps) ++ " " ++ rest')%string).
  { rewrite glue_app, glue_cons', glue_spaced, !sapp_assoc. reflexivity. }
  apply no_parse.
  - destruct (join " " (map glue ws)); discriminate.
  - intro Q. destruct (join " " (map glue ws)) as [|a [|b g]]; [discriminate Q|injection Q as _ Q; discriminate Q|injection Q as _ Q; discriminate Q].
  - rewrite T, stream_on.
    + rewrite shown_app, shown_spaced, <- app_assoc. change (shown (sp :: ps)) with (shown ps). rewrite S. apply H; [exact F|]. apply (X (token_stream rest')).
    + rewrite <- app_assoc. cbn [app]. apply good_app_sp; [apply good_spaced, W|exact G].
Qed.
Lemma refused entries t u c l x rest : any_name t -> any_name u -> any_name c -> literal_ok l -> no_condition x ->
  parse entries ("DELETE FROM " ++ t ++ " WHERE " ++ x ++ " " ++ rest) = Err ErrParse
  /\ parse entries ("SELECT * FROM " ++ t ++ " WHERE " ++ x ++ " " ++ rest) = Err ErrParse
  /\ parse entries ("UPDATE " ++ t ++ " SET " ++ c ++ " = " ++ literal_text l ++ " WHERE " ++ x ++ " " ++ rest) = Err ErrParse
  /\ parse entries ("SELECT * FROM " ++ t ++ " JOIN " ++ u ++ " ON " ++ x ++ " " ++ rest) = Err ErrParse.
Proof.
  intros T U C L N. apply no_condition_dead in N. apply any_is in T, U, C. repeat split.
  - pose proof (dead_parse entries [kw ["DELETE"]; kw ["FROM"]; [PWord t]; kw ["WHERE"]] x rest N ltac:(discriminate)) as P.
    cbn [map flat_map join] in P. rewrite glue_one, (shown_name t T) in P. rewrite ?sapp_assoc in P. apply P; [goods|]. intros f fs F E. exact (delete_none t f fs F E).
  - pose proof (dead_parse entries [kw ["SELECT"]; [PSym "STAR" "*"]; kw ["FROM"]; [PWord t]; kw ["WHERE"]] x rest N ltac:(discriminate)) as P.
    cbn [map flat_map join] in P. rewrite (glue_one (PWord t)), (shown_name t T) in P. rewrite ?sapp_assoc in P. apply P; [goods; repeat split; vm_compute; reflexivity|]. intros f fs F E. exact (select_none t f fs F E).
  - pose proof (dead_parse entries [kw ["UPDATE"]; [PWord t]; kw ["SET"]; [PWord c]; PSym "ASSIGN" "=" :: sp :: lits_pieces l; kw ["WHERE"]] x rest N ltac:(discriminate)) as P.
    cbn [map flat_map join] in P. rewrite !glue_cons', (glue_lit l L) in P. change (glue []) with ""%string in P. rewrite !append_nil_r, (shown_name t T), (shown_name c C) in P.
    change (shown (PSym "ASSIGN" "=" :: sp :: lits_pieces l)) with (mkTok "ASSIGN" "=" :: shown (lits_pieces l)) in P. rewrite (shown_lit l L) in P.
    rewrite ?sapp_assoc in P. apply P; [goods; apply good_op; [reflexivity|apply good_lit, L]|]. intros f fs F E.
    rewrite <- !app_assoc. cbn [app]. rewrite <- ?app_assoc. cbn [app]. exact (update_none t c (lit_of l) f fs (proj1 (literal_lit l L)) F E).
  - pose proof (dead_parse entries [kw ["SELECT"]; [PSym "STAR" "*"]; kw ["FROM"]; [PWord t]; kw ["JOIN"]; [PWord u]; kw ["ON"]] x rest N ltac:(discriminate)) as P.
    cbn [map flat_map join] in P. rewrite (glue_one (PWord t)), (glue_one (PWord u)), (shown_name t T), (shown_name u U) in P. rewrite ?sapp_assoc in P. apply P; [goods; repeat split; vm_compute; reflexivity|]. intros f fs F E. exact (join_none t u f fs F E).
Qed.
