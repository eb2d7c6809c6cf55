(** A third AND or OR in a WHERE clause is refused, whatever follows. *)
From Coq Require Import Lia Permutation.
From Verif Require Import GoBase ModelUtil ModelNum ModelFn ModelQuery ModelEbnf ModelGrammar ModelLex ModelVisitor
  SpecFn SpecQuery SpecParse SpecRound SpecSelect SpecValue SpecTest FactsBase ProofEbnf ProofMachine ProofFn ProofNum ProofQuery ProofParse ProofLex ProofRound ProofRound2 ProofRound3
  ProofRound4 ProofRound5 ProofRound6 ProofRound7 ProofRound8 ProofRound9 ProofRound10 ProofRound11 ProofRound12 ProofRound13 ProofSelect ProofSelect2 ProofTest ProofTest2 ProofTest3 ProofRefuse.

(** ** Words, then any text *)

Lemma lex_before : forall ps rest, forallb ok_piece ps = true -> chain (ps ++ [sp]) = true ->
  lex (glue (ps ++ [sp]) ++ rest) = map ptok (ps ++ [sp]) ++ lex rest.
Proof.
  induction ps as [|p ps IH]; intros rest O C.
  - cbn [app]. rewrite glue_one. cbn [map app].
    assert (N : next_token (ptext sp ++ rest) = (pkind sp, String.length (ptext sp))) by (apply next_tight; reflexivity).
    change (ptext sp) with (tx (ptok sp)) in N |- *. change (pkind sp) with (tk (ptok sp)) in N. apply lex_one; [discriminate|exact N].
  - cbn [forallb] in O. apply andb_prop in O. destruct O as [Op Os].
    assert (Cs : chain (ps ++ [sp]) = true).
    { cbn [app chain] in C. destruct (ps ++ [sp]) eqn:E; [reflexivity|]. apply andb_prop in C. apply C. }
    specialize (IH rest Os Cs). cbn [app map].
    rewrite glue_cons, sapp_assoc.
    assert (exists q qs, ps ++ [sp] = q :: qs /\ ok_piece q = true) as (q & qs & E & Oq).
    { destruct ps as [|q qs]; [exists sp, []; split; reflexivity|]. exists q, (qs ++ [sp]). split; [reflexivity|]. cbn [forallb] in Os. apply andb_prop in Os. apply Os. }
    assert (N : next_token (ptext p ++ glue (ps ++ [sp]) ++ rest) = (pkind p, String.length (ptext p))).
    { clear IH. cbn [app] in C. rewrite E in C |- *. cbn [chain] in C. apply andb_prop in C. destruct C as [C _].
      rewrite glue_cons, sapp_assoc. generalize (glue qs ++ rest)%string. intro more.
      destruct p as [w|n|b|k t]; cbn [ptext pkind] in *.
      + destruct q as [| | |k' t']; try discriminate C. cbn [ptext].
        pose proof (sym_ends_quoted _ _ more Oq) as Q.
        destruct (sym_head _ more k' t' eq_refl Oq) as (c & r & Eq & Ci & Cq & _). rewrite Eq in Q |- *. apply next_name; [exact Op| |exact Q].
        unfold ends_word. cbn [head_ok]. rewrite Ci, Cq. reflexivity.
      + destruct q as [| | |k' t']; try discriminate C. cbn [ptext next_ok] in *.
        destruct (sym_head _ more k' t' eq_refl Oq) as (c & r & -> & Ci & _ & Cd & _). apply next_num; [exact Op|].
        unfold ends_number. cbn [head_ok]. rewrite Ci, Cd; [reflexivity|]. intros ->. discriminate C.
      + apply next_text; [exact Op|]. destruct q as [w|n| |k' t']; try discriminate C; cbn [ptext ok_piece] in *.
        * destruct (name_head w Oq) as (c & r & -> & [W|[<-|[<-|[<-|[]]]]]); try reflexivity.
          cbn [append head_ok]. destruct c as [[] [] [] [] [] [] [] []]; try discriminate W; reflexivity.
        * destruct (num_head _ Oq) as (c & r & -> & Cd & _). cbn [append head_ok].
          destruct c as [[] [] [] [] [] [] [] []]; try discriminate Cd; reflexivity.
        * destruct (sym_head _ more k' t' eq_refl Oq) as (c & r & -> & Ci & Cq & _). cbn [head_ok]. rewrite Cq. reflexivity.
      + cbn [next_ok] in C. destruct (tight k) eqn:T; [apply next_tight; assumption|]. cbn [orb] in C.
        destruct q as [w|n| |k' t']; try discriminate C; apply String.eqb_eq in C; subst.
        * destruct (name_head w Oq) as (c & r & -> & W).
          rewrite (sym_text _ _ Op ltac:(discriminate) _ eq_refl). apply next_dot. exact W.
        * destruct (num_head _ Oq) as (c & r & -> & Cd & _).
          rewrite (sym_text _ _ Op ltac:(discriminate) _ eq_refl). apply next_minus. exact Cd.
        * destruct (sym_head _ more _ t' eq_refl Oq) as (c & r & Eq & _ & _ & _ & Cs'). cbn [ptext]. rewrite Eq.
          apply next_sym; [exact Op|]. apply Cs'. reflexivity. }
    change (ptext p) with (tx (ptok p)) in N |- *. change (pkind p) with (tk (ptok p)) in N.
    rewrite lex_one; [rewrite IH; reflexivity| |exact N]. exact (ptext_nonempty _ Op).
Qed.
Lemma good_forms ps : good ps -> forallb ok_piece ps = true /\ chain (ps ++ [sp]) = true.
Proof. intro G. split; [apply G|]. exact (proj1 (proj2 (good_app_sp ps [] G good_nil))). Qed.
Lemma stream_before ps rest : good ps -> token_stream (glue ps ++ " " ++ rest) = shown ps ++ token_stream rest.
Proof.
  intro G. destruct (good_forms ps G) as [O C]. unfold token_stream.
  replace (glue ps ++ " " ++ rest)%string with (glue (ps ++ [sp]) ++ rest)%string by (rewrite glue_app, glue_one, sapp_assoc; reflexivity).
  rewrite lex_before by assumption. unfold visible. rewrite filter_app, <- app_assoc. f_equal.
  change (visible (map ptok (ps ++ [sp])) = shown ps). rewrite visible_pieces by (rewrite forallb_app, O; reflexivity).
  rewrite shown_app. apply app_nil_r.
Qed.

(** ** No third part of a condition *)

Definition where_tok : token := mkTok "WHERE_" "WHERE".
Definition joint_tok (t : token) : Prop := tk t = "AND_"%string \/ tk t = "OR_"%string.
Lemma no_chain k a b t1 t2 rest : law (Some where_follow) k -> cmp_ok a -> cmp_ok b -> joint_tok t1 -> joint_tok t2 ->
  R (Rule "expr" 0) (cmp_toks a ++ t1 :: cmp_toks b ++ t2 :: rest) k = NotFound.
Proof.
  intros K A B T1 T2.
  assert (J : forall cs, den k expr_frames cs (t2 :: rest) = NotFound).
  { intro cs. destruct t2 as [kd tx_]. destruct T2 as [T2|T2]; cbn [tk] in T2; subst kd.
    - apply (may_false k (Some where_follow) K 2000 (MRet _) [mkTok "AND_" tx_] expr_frames); vm_compute; reflexivity.
    - apply (may_false k (Some where_follow) K 2000 (MRet _) [mkTok "OR_" tx_] expr_frames); vm_compute; reflexivity. }
  assert (Hd : R (head_of (rule "expr" 0)) (cmp_toks a ++ t1 :: cmp_toks b ++ t2 :: rest) (den k expr_frames) = NotFound).
  { assert (N1 : R (Rule "comparison_expr" 0) (cmp_toks a ++ t1 :: cmp_toks b ++ t2 :: rest) (den k expr_frames) = NotFound) by (apply cmp_then; assumption).
    assert (N2 : R (Rule "and_expr" 0) (cmp_toks a ++ t1 :: cmp_toks b ++ t2 :: rest) (den k expr_frames) = NotFound).
    { destruct t1 as [kd w]. destruct T1 as [T1|T1]; cbn [tk] in T1; subst kd.
      - pose proof (and_value w a b (t2 :: rest) (den k expr_frames) A B) as V. unfold conn_toks in V. rewrite <- app_assoc in V. cbn [app] in V. rewrite V. apply J.
      - apply and_not. exact A. }
    assert (N3 : R (Rule "or_expr" 0) (cmp_toks a ++ t1 :: cmp_toks b ++ t2 :: rest) (den k expr_frames) = NotFound).
    { destruct t1 as [kd w]. destruct T1 as [T1|T1]; cbn [tk] in T1; subst kd.
      - rewrite R_rule by reflexivity. change (rule "or_expr" 0) with g_or_expr. unfold g_or_expr. cbn [seq].
        rewrite R_seq by reflexivity. rewrite R_lab by reflexivity. rewrite cmp_value by exact A. rewrite R_seq by reflexivity. rewrite R_tok. reflexivity.
      - pose proof (or_value w a b (t2 :: rest) (den k expr_frames) A B) as V. unfold conn_toks in V. rewrite <- app_assoc in V. cbn [app] in V. rewrite V. apply J. }
    revert N1 N2 N3. destruct A as [O L]. destruct a as [x o l]. cbn [cm_op] in O. unfold cmp_toks at 1 3 5 7. cbn [cm_col cm_op cm_lit app].
    match goal with |- context[?y ++ t1 :: ?z] => generalize (y ++ t1 :: z) end. intros more N1 N2 N3.
    let h := eval vm_compute in (head_of (rule "expr" 0)) in change (head_of (rule "expr" 0)) with h.
    each_op O; unfold op_tok in *; cbn [fst snd] in *;
    repeat (rewrite R_alt by (vm_compute; reflexivity);
      first [rewrite N1|rewrite N2|rewrite N3
            |match goal with |- match R ?g (?p :: ?q :: ?m) _ with _ => _ end = _ =>
               let N := fresh in pose proof (may_false k (Some where_follow) K 2000 (MEval g) [p; q] expr_frames ltac:(vm_compute; reflexivity) ltac:(vm_compute; reflexivity) m) as N;
               cbn [denm app] in N; rewrite N; clear N end]; cbn iota);
    match goal with |- R ?g (?p :: ?q :: ?m) _ = _ => exact (may_false k (Some where_follow) K 2000 (MEval g) [p; q] expr_frames ltac:(vm_compute; reflexivity) ltac:(vm_compute; reflexivity) m) end. }
  rewrite R_rule by reflexivity.
  change (rule "expr" 0) with (LeftRec "expr" (head_of (rule "expr" 0)) (loop_of (rule "expr" 0))).
  rewrite R_leftrec by (vm_compute; reflexivity). exact Hd.
Qed.

Lemma no_delete t a b t1 t2 rest : cmp_ok a -> cmp_ok b -> joint_tok t1 -> joint_tok t2 ->
  R (Rule "parse" 0) (mkTok "DELETE_" "DELETE" :: mkTok "FROM_" "FROM" :: idt t :: where_tok :: cmp_toks a ++ t1 :: cmp_toks b ++ t2 :: rest) at_end = NotFound.
Proof.
  intros A B T1 T2. enter. follow (@None (list string)) [mkTok "DELETE_" "DELETE"; mkTok "FROM_" "FROM"; idt t; where_tok] 0 (AtRule "expr").
  all: leave; apply no_chain; try assumption; law_by (I : law None at_end).
Qed.
Lemma no_select t a b t1 t2 rest : cmp_ok a -> cmp_ok b -> joint_tok t1 -> joint_tok t2 ->
  R (Rule "parse" 0) (mkTok "SELECT_" "SELECT" :: mkTok "STAR" "*" :: mkTok "FROM_" "FROM" :: idt t :: where_tok :: cmp_toks a ++ t1 :: cmp_toks b ++ t2 :: rest) at_end = NotFound.
Proof.
  intros A B T1 T2. enter. destruct a as [x o l]. unfold cmp_toks at 1. cbn [cm_col app].
  follow (@None (list string)) [mkTok "SELECT_" "SELECT"; mkTok "STAR" "*"; mkTok "FROM_" "FROM"; idt t; where_tok; idt x] 1 (AtRule "expr").
  all: leave; apply (no_chain _ (mkCmp x o l)); try assumption; law_by (I : law None at_end).
Qed.

Lemma no_parse entries q : q <> ""%string -> q <> ";"%string -> R (Rule "parse" 0) (token_stream q) at_end = NotFound -> parse entries q = Err ErrParse.
Proof.
  intros N M H. unfold parse, parse_string. destruct (String.eqb_spec q ""); [contradiction|]. destruct (String.eqb_spec q ";"); [contradiction|].
  cbn [orb]. rewrite parse_R, H. reflexivity.
Qed.
Lemma comparison_pieces e : comparison_ok e -> exists ps c, glue ps = condition_text e /\ good ps /\ shown ps = cmp_toks c /\ cmp_ok c.
Proof.
  intro C. pose proof (comparison_as e C) as E. destruct (comparison_parts _ C) as (op & c & l & -> & O & P & L). exists (cmp_pieces op c l), (cmp_of op c l).
  split; [rewrite E; apply glue_cmp; assumption|]. split; [apply good_cmp; assumption|]. split; [apply shown_cmp; assumption|apply cmp_of_ok; assumption].
Qed.
Definition joint_word (j : bool) : token := if j then mkTok "AND_" "AND" else mkTok "OR_" "OR".
Lemma chain_stream (ws : list (list piece)) a j b j' rest : comparison_ok a -> comparison_ok b -> ws <> [] -> Forall good ws ->
  exists ca cb, cmp_ok ca /\ cmp_ok cb /\
    token_stream (join " " (map glue ws) ++ " " ++ chain_text a j b j' rest) = flat_map shown ws ++ cmp_toks ca ++ joint_word j :: cmp_toks cb ++ joint_word j' :: token_stream rest.
Proof.
  intros A B N W. destruct (comparison_pieces a A) as (pa & ca & Ga & Da & Sa & Oa). destruct (comparison_pieces b B) as (pb & cb & Gb & Db & Sb & Ob).
  exists ca, cb. split; [exact Oa|]. split; [exact Ob|].
  assert (T : (join " " (map glue ws) ++ " " ++ chain_text a j b j' rest)%string = (glue (spaced (ws ++ [pa; kw [joint j]; pb; kw [joint j']])) ++ " " ++ rest)%string).
  { rewrite glue_spaced, map_app. destruct ws as [|w ws]; [destruct (N eq_refl)|]. cbn [map app]. rewrite !join_led, led_app. cbn [led]. rewrite Ga, Gb. unfold chain_text, kw. cbn [map spaced].
    rewrite !glue_one, !append_nil_r, !sapp_assoc. reflexivity. }
  rewrite T, stream_before.
  - rewrite shown_spaced, flat_map_app, <- app_assoc. f_equal. cbn [flat_map]. rewrite Sa, Sb, app_nil_r, <- !app_assoc. destruct j, j'; reflexivity.
  - apply good_spaced, Forall_app. split; [exact W|]. repeat (apply Forall_cons; [try assumption; destruct j, j'; goods|]). apply Forall_nil.
Qed.
Lemma joint_is j : joint_tok (joint_word j).
Proof. destruct j; [left|right]; reflexivity. Qed.
Lemma chain_refused entries t a j b j' rest : any_name t -> comparison_ok a -> comparison_ok b ->
  parse entries ("DELETE FROM " ++ t ++ " WHERE " ++ chain_text a j b j' rest) = Err ErrParse /\
  parse entries ("SELECT * FROM " ++ t ++ " WHERE " ++ chain_text a j b j' rest) = Err ErrParse.
Proof.
  intros T A B. pose proof (any_is _ T) as P. split.
  - destruct (chain_stream [kw ["DELETE"%string]; kw ["FROM"%string]; [PWord t]; kw ["WHERE"%string]] a j b j' rest A B) as (ca & cb & Oa & Ob & E);
      [discriminate|repeat (apply Forall_cons; [goods|]); apply Forall_nil|].
    apply no_parse; [discriminate|discriminate|]. cbn [map flat_map join] in E. rewrite glue_one, (shown_name t P) in E. rewrite ?sapp_assoc in E.
    rewrite ?sapp_assoc. match type of E with token_stream ?x = _ => match goal with |- context[token_stream ?y] => change y with x end end. rewrite E.
    apply (no_delete t ca cb (joint_word j) (joint_word j')); try assumption; apply joint_is.
  - destruct (chain_stream [kw ["SELECT"%string]; [PSym "STAR" "*"]; kw ["FROM"%string]; [PWord t]; kw ["WHERE"%string]] a j b j' rest A B) as (ca & cb & Oa & Ob & E);
      [discriminate|repeat (apply Forall_cons; [first [repeat split; vm_compute; reflexivity|goods]|]); apply Forall_nil|].
    apply no_parse; [discriminate|discriminate|]. cbn [map flat_map join] in E. rewrite !glue_one, (shown_name t P) in E. rewrite ?sapp_assoc in E.
    rewrite ?sapp_assoc. match type of E with token_stream ?x = _ => match goal with |- context[token_stream ?y] => change y with x end end. rewrite E.
    apply (no_select t ca cb (joint_word j) (joint_word j')); try assumption; apply joint_is.
Qed.
