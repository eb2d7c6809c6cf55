(** The values of INSERT and UPDATE as they are written: what the parser makes of them. *)
From Coq Require Import Lia Permutation.
From Verif Require Import GoBase ModelUtil ModelNum ModelFn ModelQuery ModelEbnf ModelGrammar ModelLex ModelVisitor
  SpecFn SpecQuery SpecParse SpecRound FactsBase ProofEbnf ProofMachine ProofFn ProofNum ProofQuery ProofParse ProofLex ProofRound ProofRound2 ProofRound3
  ProofRound4 ProofRound5 ProofRound6 ProofRound7 ProofRound8 ProofRound9 ProofRound10 ProofRound13.

(** ** Values *)

(** a literal, a column, column operator operand, a function of columns and numbers, a number in
    parentheses *)
Inductive vexp := VLit (l : literal) | VCol (c : string) | VAr (x : string) (e : exe) (y : farg) | VFn (f : string) (args : list farg) | VPar (n : string).
Definition vexp_ok (v : vexp) : Prop :=
  match v with
  | VLit l => literal_ok l
  | VPar n => is_num n = true
  | VCol c => plain c
  | VAr x e y => plain x /\ In e ops /\ farg_ok y
  | VFn f args => plain f /\ Forall farg_ok args
  end.
Definition vexp_pieces (v : vexp) : list piece :=
  match v with
  | VLit l => lits_pieces l
  | VCol c => [PWord c]
  | VAr x e y => spaced [[PWord x]; PSym (op_kind e) (exe_name e) :: sp :: farg_piece y]
  | VFn f [] => [PWord f; lp; rp]
  | VFn f (a :: args) => PWord f :: lp :: (farg_piece a ++ listed farg_piece args) ++ [rp]
  | VPar n => lp :: [PNum n] ++ [rp]
  end.
Definition vexp_toks (v : vexp) : list token :=
  match v with
  | VLit l => lit_toks (lit_of l)
  | VCol c => [idt c]
  | VAr x e y => idt x :: mkTok (op_kind e) (exe_name e) :: farg_toks y
  | VFn f [] => [idt f; open_; close_]
  | VFn f (a :: args) => idt f :: open_ :: farg_toks a ++ clist farg_toks args ++ [close_]
  | VPar n => open_ :: lit_toks (LNum n) ++ [close_]
  end.
Definition vexp_tree (v : vexp) : tree :=
  match v with
  | VLit l => Node "expr" [(""%string, lit_tree (lit_of l))]
  | VCol c => Node "expr" (col c)
  | VAr x e y => Node "expr" [(""%string, Node "arithmetic_expr" [(""%string, Node "column_name" (ident x)); ("ope"%string, Leaf (mkTok (op_kind e) (exe_name e))); (""%string, farg_tree y)])]
  | VFn f [] => fn_tree f []
  | VFn f (a :: args) => fn_tree f (fargc a ++ ctree fargc args)
  | VPar n => Node "expr" ((""%string, Leaf open_) :: lite (LNum n) ++ [(""%string, Leaf close_)])
  end.
Definition vexpc (v : vexp) : children := [(""%string, vexp_tree v)].
Lemma good_farg a : farg_ok a -> good (farg_piece a).
Proof. destruct a as [[] y]; intro Y; [apply good_num|apply good_name]; exact Y. Qed.
Lemma good_vexp v : vexp_ok v -> good (vexp_pieces v).
Proof.
  destruct v as [l|c|x e y|f [|a args]|n]; cbn [vexp_ok vexp_pieces].
  - intro L. apply literal_pieces, L.
  - apply good_name.
  - intros (X & E & Y). goods. apply good_op; [each_op_ E; reflexivity|]. apply good_farg. exact Y.
  - intros [F _]. change [PWord f; lp; rp] with ([PWord f] ++ lp :: [] ++ rp :: []). goods.
  - intros [F A]. change (PWord f :: lp :: (farg_piece a ++ listed farg_piece args) ++ [rp]) with ([PWord f] ++ lp :: (farg_piece a ++ listed farg_piece args) ++ rp :: []).
    pose proof (Forall_impl _ good_farg A) as G. inversion G; subst. goods; assumption.
  - intro N. apply good_lp, good_app_rp; [apply good_num, N|apply good_nil].
Qed.
Lemma shown_vexp v : vexp_ok v -> shown (vexp_pieces v) = vexp_toks v.
Proof.
  destruct v as [l|c|x e y|f [|a args]|n]; cbn [vexp_ok vexp_pieces].
  - intro L. apply literal_pieces, L.
  - apply shown_name.
  - intros (X & E & Y). rewrite shown_spaced. cbn [flat_map]. rewrite (shown_name x X), app_nil_r.
    change (PSym (op_kind e) (exe_name e) :: sp :: farg_piece y) with ([PSym (op_kind e) (exe_name e); sp] ++ farg_piece y). rewrite shown_app, (shown_farg y Y).
    each_op_ E; reflexivity.
  - intros [F _]. change [PWord f; lp; rp] with ([PWord f] ++ [lp; rp]). rewrite shown_app, (shown_name f F). reflexivity.
  - intros [F A]. inversion A as [|? ? A0 As]; subst.
    change (PWord f :: lp :: (farg_piece a ++ listed farg_piece args) ++ [rp]) with ([PWord f] ++ [lp] ++ (farg_piece a ++ listed farg_piece args) ++ [rp]).
    rewrite !shown_app, (shown_name f F), (shown_farg a A0), shown_listed, (clist_ext _ farg_toks args (fun x I => shown_farg x (proj1 (Forall_forall _ _) As x I))).
    cbn [vexp_toks]. rewrite <- app_assoc. reflexivity.
  - reflexivity.
Qed.

Definition vexp_ends : list string := ["COMMA"; "CLOSE_PAR"; "SCOL"; "EOF"; "WHERE_"].
Definition vexp_follow : list string := ["COMMA"; "CLOSE_PAR"; "FROM_"; "WHERE_"; "RETURNING_"] ++ stmt_follow.
Lemma vexp_reads v : vexp_ok v -> reads (Rule "expr" 0) (vexp_toks v) (vexpc v) (Some vexp_follow) vexp_ends.
Proof.
  intros V k K tl r T H. destruct v as [l|c|x e y|f [|a args]|n]; cbn [vexp_ok vexp_toks] in *.
  - refine (lit_expr (lit_of l) (Some vexp_follow) (proj1 (literal_lit l V)) k K tl r _ H). apply (heads_incl vexp_ends); [in_list|exact T].
  - destruct tl as [|[kd tx] tl]; [contradiction|]. cbn [heads tk] in T. unfold vexp_ends in T. cbn [In] in T. cbn [app]. enter. each_kind T; go_known (Some vexp_follow) 1 AtEnd; exact H.
  - destruct V as (_ & E & _). destruct tl as [|[kd tx] tl]; [contradiction|]. cbn [heads tk] in T. unfold vexp_ends in T. cbn [In] in T. cbn [app]. enter.
    destruct y as [[] y]; unfold farg_toks; cbn [fst snd operand_tok app]; each_op_ E; cbn [op_kind exe_name]; each_kind T; (go_known (Some vexp_follow) 1 AtEnd; exact H).
  - destruct tl as [|[kd tx] tl]; [contradiction|]. cbn [heads tk] in T. unfold vexp_ends in T. cbn [In] in T. cbn [app]. enter. each_kind T; go_known (Some vexp_follow) 1 AtEnd; exact H.
  - toks. enter.
    assert (E : exists kd tx, farg_toks a = [mkTok kd tx] /\ (kd = "NUMERIC_LITERAL" \/ kd = "IDENTIFIER")%string) by (destruct a as [[] y]; eexists _, _; split; [reflexivity|tauto|reflexivity|tauto]).
    destruct E as (kd & tx & E & [-> | ->]); rewrite E; cbn [app]; go_known (Some vexp_follow) 1 (AtRule "expr");
    (match goal with |- denm _ _ (?t :: ?l) _ = _ => change (t :: l) with ([t] ++ l) end; rewrite <- E;
     by_reads (farg_reads a None); [apply heads_clist; left; reflexivity|];
     go (Some vexp_follow) (@nil token) 0 AtStar;
     by_reads (list_reads_any (Rule "expr" 0) farg_toks fargc None ["CLOSE_PAR"]%string args eq_refl ltac:(not_in) (fun x Ix => farg_reads x None)); [left; reflexivity|];
     destruct tl as [|[kd tx0] tl]; [contradiction|]; cbn [heads tk] in T; unfold vexp_ends in T; cbn [In] in T; each_kind T; go_known (Some vexp_follow) 1 AtEnd;
     unfold vexpc, vexp_tree, fn_tree in H; rewrite <- app_assoc in H; refine (machine_end _ _ _ _ _ _ H); subst; rewrite !app_nil_r, <- !app_assoc; reflexivity).
  - destruct tl as [|[kd tx] tl]; [contradiction|]. cbn [heads tk] in T. unfold vexp_ends in T. cbn [In] in T. cbn [lit_toks app]. enter. each_kind T; go_known (Some vexp_follow) 1 AtEnd; exact H.
Qed.

(** ** INSERT *)

Definition vrow := (vexp * list vexp)%type.
Definition vrow_ok (w : vrow) : Prop := vexp_ok (fst w) /\ Forall vexp_ok (snd w).
Definition vrow_pieces (w : vrow) : list piece := lp :: (vexp_pieces (fst w) ++ listed vexp_pieces (snd w)) ++ [rp].
Definition vrow_toks (w : vrow) : list token := open_ :: vexp_toks (fst w) ++ clist vexp_toks (snd w) ++ [close_].
Definition vrow_tree (w : vrow) : tree := Node "value_row" ((""%string, Leaf open_) :: vexpc (fst w) ++ ctree vexpc (snd w) ++ [(""%string, Leaf close_)]).
Definition vrowc (w : vrow) : children := [(""%string, vrow_tree w)].
Lemma good_vrow w : vrow_ok w -> good (vrow_pieces w).
Proof.
  intros [A B]. unfold vrow_pieces. apply good_lp, good_app_rp; [|apply good_nil]. apply good_then_listed; [apply good_vexp; exact A|].
  revert B. apply Forall_impl. exact good_vexp.
Qed.
Lemma shown_vrow w : vrow_ok w -> shown (vrow_pieces w) = vrow_toks w.
Proof.
  intros [A B]. unfold vrow_pieces, vrow_toks.
  change (lp :: (vexp_pieces (fst w) ++ listed vexp_pieces (snd w)) ++ [rp]) with ([lp] ++ (vexp_pieces (fst w) ++ listed vexp_pieces (snd w)) ++ [rp]).
  rewrite !shown_app, shown_listed, (shown_vexp _ A), (clist_ext _ vexp_toks (snd w) (fun x I => shown_vexp x (proj1 (Forall_forall _ _) B x I))), <- !app_assoc. reflexivity.
Qed.
Lemma vrow_reads w follow : vrow_ok w -> reads (Rule "value_row" 0) (vrow_toks w) (vrowc w) None follow.
Proof.
  intros [A B] k K rest r T H. unfold vrow_toks. toks. enter. go none [open_] 0 (AtRule "expr").
  by_reads (vexp_reads (fst w) A); [law_by K|apply (heads_incl ["COMMA"; "CLOSE_PAR"]%string); [in_list|apply heads_clist; left; reflexivity]|].
  go none (@nil token) 0 AtStar.
  by_reads (list_reads (Rule "expr" 0) vexp_toks vexpc (Some (tl vexp_follow)) ["CLOSE_PAR"%string] (snd w) ltac:(vm_compute; reflexivity) ltac:(not_in)
    (fun x Ix => reads_incl _ _ _ _ ["COMMA"; "CLOSE_PAR"]%string vexp_ends ltac:(in_list) (vexp_reads x (proj1 (Forall_forall _ _) B x Ix)))); [law_by K|left; reflexivity|].
  go none [close_] 0 AtEnd. subst. exact H.
Qed.

(** what the visitor makes of a row: the literals, with the names in order *)
Definition literals (vs : list vexp) : list literal := flat_map (fun v => match v with VLit l => [l] | _ => [] end) vs.
Lemma no_sub n v : match v with VLit _ => False | _ => True end -> In n ["comparison_expr"; "literal_value"; "bind_param"]%string -> sub n (vexp_tree v) = None.
Proof.
  intros V I. cbn [In] in I. destruct v as [l|c|x e y|f [|a args]|m]; [contradiction|..]; each_in I; reflexivity.
Qed.
Lemma v_row_vexps : forall vs names, Forall vexp_ok vs -> v_row names (map vexp_tree vs) = Ok (pair_row names (literals vs)).
Proof.
  induction vs as [|v vs IH]; intros names F; [unfold pair_row; destruct names; reflexivity|].
  inversion F as [|? ? Fl Fs]; subst. cbn [map v_row].
  assert (D : match v with VLit _ => False | _ => True end \/ exists l, v = VLit l) by (destruct v; [right; eexists; reflexivity|left; exact I..]).
  destruct D as [D|[l ->]].
  - rewrite (no_sub "comparison_expr" v D), (no_sub "literal_value" v D), (no_sub "bind_param" v D) by (cbn [In]; tauto). rewrite IH by exact Fs.
    assert (literals (v :: vs) = literals vs) as -> by (destruct v; [contradiction|reflexivity..]). reflexivity.
  - cbn [vexp_tree]. change (sub "comparison_expr" _) with (@None tree). cbn iota. change (sub "literal_value" _) with (Some (lit_tree (lit_of l))). cbn iota.
    rewrite (proj2 (literal_lit l Fl)). destruct names as [|n names]; rewrite IH by exact Fs; reflexivity.
Qed.
Lemma vrow_exprs w : subs "expr" (vrow_tree w) = map vexp_tree (fst w :: snd w).
Proof.
  unfold vrow_tree. rewrite subs_node, named_cons. cbn [is_rule].
  rewrite !named_app, named_ctree. change (named "expr" [(""%string, Leaf close_)]) with (@nil tree). rewrite app_nil_r.
  assert (E : forall x, named "expr" (vexpc x) = [vexp_tree x]) by (intros [l|c|x e y|f [|a args]|m]; reflexivity).
  rewrite E, (flat_map_ext _ (fun x => [vexp_tree x]) E), flat_map_one. reflexivity.
Qed.

(** with or without names of columns *)
Definition vcols_pieces (cols : list string) : list (list piece) := match cols with [] => [] | c :: cs => [par_names c cs] end.
Definition vinsert_pieces (t : string) (cols : list string) (w : vrow) (ws : list vrow) : list piece :=
  spaced ([kw ["INSERT"; "INTO"]; [PWord t]] ++ vcols_pieces cols ++ [kw ["VALUES"]; vrow_pieces w ++ listed vrow_pieces ws]).
Lemma insert_vrows entries t cols w ws : plain t -> Forall plain cols -> Forall vrow_ok (w :: ws) ->
  reads_as entries (vinsert_pieces t cols w ws)
    (SInsert (new_table (unescape_name_string t)) (map (fun w => pair_row cols (literals (fst w :: snd w))) (w :: ws))).
Proof.
  intros P C V. inversion V as [|? ? V0 Vs]; subst. unfold vinsert_pieces.
  assert (G0 : good (vrow_pieces w ++ listed vrow_pieces ws)).
  { apply good_then_listed; [apply good_vrow; exact V0|]. revert Vs. apply Forall_impl. exact good_vrow. }
  assert (S0 : shown (vrow_pieces w ++ listed vrow_pieces ws) = vrow_toks w ++ clist vrow_toks ws).
  { rewrite shown_app, (shown_vrow w V0), shown_listed. f_equal. apply clist_ext. intros x I. apply shown_vrow. exact (proj1 (Forall_forall _ _) Vs x I). }
  assert (R0 : forall x, In x ws -> reads (Rule "value_row" 0) (vrow_toks x) (vrowc x) None ("COMMA"%string :: stmt_ends))
    by (intros x I; apply vrow_reads; exact (proj1 (Forall_forall _ _) Vs x I)).
  assert (E0 : collect (fun row => v_row cols (subs "expr" row)) (map vrow_tree (w :: ws)) = Ok (map (fun w => pair_row cols (literals (fst w :: snd w))) (w :: ws))).
  { apply collect_map. intros x I. rewrite vrow_exprs. apply v_row_vexps. destruct (proj1 (Forall_forall _ _) V x I). constructor; assumption. }
  remember (map (fun w => pair_row cols (literals (fst w :: snd w))) (w :: ws)) as rows eqn:Er. clear Er.
  destruct cols as [|c cs]; cbn [vcols_pieces app].
  - split; [apply good_spaced; repeat (apply Forall_cons; [first [exact G0|goods]|]); apply Forall_nil|]. rewrite shown_spaced. cbn [flat_map]. rewrite S0, app_nil_r. show_words. cbn [app]. split; [starts_ok|]. eexists. split.
    + intros k K tl r T H. toks. enter. go_known (Some stmt_follow) 0 (AtRule "value_row").
      by_reads (vrow_reads w ("COMMA"%string :: stmt_ends) V0); [apply heads_clist; exact T|].
      go (Some stmt_follow) (@nil token) 0 AtStar.
      by_reads (list_reads_any (Rule "value_row" 0) vrow_toks vrowc None stmt_ends ws ltac:(vm_compute; reflexivity) ltac:(not_in) R0); [exact T|].
      read_on T tl H.
    + finds. change (fun x => named "value_row" (vrowc x)) with (fun x => [vrow_tree x]). rewrite flat_map_one.
      change (named "value_row" (vrowc w) ++ map vrow_tree ws) with (map vrow_tree (w :: ws)).
      change (fun row => v_row [] (filter (is_rule "expr") (map snd (kids row)))) with (fun row => v_row [] (subs "expr" row)).
      rewrite E0. cbn [rbind]. rewrite !append_nil_r. reflexivity.
  - inversion C as [|? ? C0 Cs]; subst.
    split; [apply good_spaced; repeat (apply Forall_cons; [first [exact G0|apply good_par_names; assumption|goods]|]); apply Forall_nil|].
    rewrite shown_spaced. cbn [flat_map]. rewrite S0, app_nil_r, (shown_par_names c cs C0 Cs). show_words. cbn [app]. split; [starts_ok|]. eexists. split.
    + intros k K tl r T H. toks. enter. go_known (Some stmt_follow) 0 AtStar.
      by_reads (names_reads cs None ["CLOSE_PAR"%string] ltac:(not_in)); [left; reflexivity|].
      go_known (Some stmt_follow) 0 (AtRule "value_row").
      by_reads (vrow_reads w ("COMMA"%string :: stmt_ends) V0); [apply heads_clist; exact T|].
      go (Some stmt_follow) (@nil token) 0 AtStar.
      by_reads (list_reads_any (Rule "value_row" 0) vrow_toks vrowc None stmt_ends ws ltac:(vm_compute; reflexivity) ltac:(not_in) R0); [exact T|].
      read_on T tl H.
    + finds. cbn [hd_error need rbind]. assert (Ct : map text (flat_map (fun x => named "column_name" (col x)) cs) = cs) by (pose proof (col_texts (fun x => x) cs) as Q; rewrite map_id in Q; exact Q).
      rewrite Ct, !append_nil_r.
      match goal with |- context[filter (is_rule "value_row") (map snd (kids (Node _ ?l)))] =>
        change (filter (is_rule "value_row") (map snd (kids (Node "values_clause" l)))) with (named "value_row" l) end.
      rewrite named_cons, named_app, named_ctree. cbn [is_rule]. change (fun x => named "value_row" (vrowc x)) with (fun x => [vrow_tree x]). rewrite flat_map_one.
      change (named "value_row" (vrowc w) ++ map vrow_tree ws) with (map vrow_tree (w :: ws)).
      change (fun row => v_row (c :: cs) (filter (is_rule "expr") (map snd (kids row)))) with (fun row => v_row (c :: cs) (subs "expr" row)).
      rewrite E0. reflexivity.
Qed.

(** ** UPDATE *)

Definition vset := (string * vexp)%type.
Definition vset_ok (u : vset) : Prop := plain (fst u) /\ vexp_ok (snd u).
Definition vset_column (u : vset) : column :=
  match snd u with VLit l => new_value_column (fst u) l | VAr x e y => new_function_column (fst u) e [x; snd y] | _ => new_column (fst u) end.
Definition vset_pieces (u : vset) : list piece := spaced [[PWord (fst u)]; PSym "ASSIGN" "=" :: sp :: vexp_pieces (snd u)].
Definition vset_toks (u : vset) : list token := [idt (fst u); mkTok "ASSIGN" "="] ++ vexp_toks (snd u).
Definition vset_tree (u : vset) : tree :=
  Node "update_column_set" [(""%string, Node "column_name" (ident (fst u))); (""%string, Leaf (mkTok "ASSIGN" "=")); (""%string, vexp_tree (snd u))].
Definition vsetc (u : vset) : children := [(""%string, vset_tree u)].
Lemma good_vset u : vset_ok u -> good (vset_pieces u).
Proof. intros [C V]. unfold vset_pieces. goods. apply good_op; [reflexivity|]. apply good_vexp. exact V. Qed.
Lemma shown_vset u : vset_ok u -> shown (vset_pieces u) = vset_toks u.
Proof.
  intros [C V]. unfold vset_pieces. rewrite shown_spaced. cbn [flat_map]. rewrite (shown_name _ C), app_nil_r.
  change (PSym "ASSIGN" "=" :: sp :: vexp_pieces (snd u)) with ([PSym "ASSIGN" "="; sp] ++ vexp_pieces (snd u)). rewrite shown_app, (shown_vexp _ V). reflexivity.
Qed.
Definition vset_follow : list string := ["COMMA"; "FROM_"; "WHERE_"; "RETURNING_"] ++ stmt_follow.
Lemma vset_reads u : vset_ok u -> reads (Rule "update_column_set" 0) (vset_toks u) (vsetc u) (Some vset_follow) set_ends.
Proof.
  intros [_ V] k K tl r T H. unfold vset_toks. toks. enter. go_known (Some vset_follow) 0 (AtRule "expr").
  by_reads (vexp_reads (snd u) V); [law_by K|apply (heads_incl set_ends); [in_list|exact T]|].
  destruct tl as [|[kd tx] rest]; [contradiction|]. cbn [heads tk] in T. unfold set_ends in T. cbn [In] in T.
  each_kind T; (match goal with |- denm _ _ (?a :: _) _ = _ => go (Some vset_follow) [a] 1 AtEnd end; the_end H).
Qed.
Lemma v_vset u : vset_ok u -> v_set (vset_tree u) = Ok (vset_column u).
Proof.
  destruct u as [c v]. intros [C V]. cbn [fst snd] in *. unfold v_set.
  assert (sub "column_name" (vset_tree (c, v)) = Some (Node "column_name" (ident c))) as -> by reflexivity.
  assert (sub "expr" (vset_tree (c, v)) = Some (vexp_tree v)) as -> by (destruct v as [l|d|x e y|f [|a args]|m]; reflexivity).
  unfold text_of at 1. cbn [need rbind]. rewrite text_ident. unfold vset_column. cbn [fst snd].
  destruct v as [l|d|x e y|f [|a args]|m]; try reflexivity.
  - cbn [vexp_tree]. change (sub "literal_value" _) with (Some (lit_tree (lit_of l))). cbn iota. rewrite (proj2 (literal_lit l V)). reflexivity.
  - destruct V as (X & E & Y).
    assert (Z : text (farg_tree y) = snd y) by (destruct y as [[] y]; unfold farg_tree; cbn [fst snd]; rewrite text_one; [unfold lit_tree; cbn [lit_toks leafs map]; rewrite !text_one; reflexivity|apply text_ident]).
    cbn [vexp_tree].
    set (a := Node "arithmetic_expr" [(""%string, Node "column_name" (ident x)); ("ope"%string, Leaf (mkTok (op_kind e) (exe_name e))); (""%string, farg_tree y)]).
    assert (sub "literal_value" (Node "expr" [(""%string, a)]) = None) as -> by reflexivity.
    assert (sub "bind_param" (Node "expr" [(""%string, a)]) = None) as -> by reflexivity.
    assert (sub "arithmetic_expr" (Node "expr" [(""%string, a)]) = Some a) as -> by reflexivity.
    assert (lab "ope" a = Some (Leaf (mkTok (op_kind e) (exe_name e)))) as -> by reflexivity.
    assert (sub "column_name" a = Some (Node "column_name" (ident x))) as -> by reflexivity.
    assert (sub "expr" a = Some (farg_tree y)) as -> by reflexivity.
    unfold text_of. cbn [need rbind]. rewrite text_ident, Z. each_op_ E; reflexivity.
Qed.
Definition vsets_pieces (u : vset) (us : list vset) : list piece := vset_pieces u ++ listed vset_pieces us.
Definition vwhere_pieces (w : option (list piece)) : list (list piece) := match w with Some ps => [kw ["WHERE"%string]; ps] | None => [] end.
Lemma no_where_in_vsets us : flat_map (fun x => marked "whereExpr" (vsetc x)) us = [].
Proof. induction us as [|v us IH]; [reflexivity|exact IH]. Qed.
Lemma v_vsets u us : Forall vset_ok (u :: us) ->
  collect v_set (named "update_column_set" (vsetc u) ++ flat_map (fun x => named "update_column_set" (vsetc x)) us) = Ok (map vset_column (u :: us)).
Proof.
  intro F. change (fun x => named "update_column_set" (vsetc x)) with (fun x => [vset_tree x]). rewrite flat_map_one.
  change (named "update_column_set" (vsetc u) ++ map vset_tree us) with (map vset_tree (u :: us)).
  apply collect_map. intros v I. apply v_vset. exact (proj1 (Forall_forall _ _) F v I).
Qed.
Definition vupdate_pieces (t : string) (u : vset) (us : list vset) (w : option (list piece)) : list piece :=
  spaced ([kw ["UPDATE"%string]; [PWord t]; kw ["SET"%string]; vsets_pieces u us] ++ vwhere_pieces w).
Lemma update_vsets entries t u us : plain t -> Forall vset_ok (u :: us) ->
  reads_as entries (vupdate_pieces t u us None) (SUpdate (new_table t) (map vset_column (u :: us)) None)
  /\ forall e, condition_ok (Some e) -> exists ps, glue ps = expr_string e /\
     reads_as entries (vupdate_pieces t u us (Some ps)) (SUpdate (new_table t) (map vset_column (u :: us)) (Some e)).
Proof.
  intros P F. inversion F as [|? ? U Us]; subst.
  assert (S0 : shown (vsets_pieces u us) = vset_toks u ++ clist vset_toks us).
  { unfold vsets_pieces. rewrite shown_app, (shown_vset u U), shown_listed. f_equal. apply clist_ext. intros v I. apply shown_vset. exact (proj1 (Forall_forall _ _) Us v I). }
  assert (D0 : good (vsets_pieces u us)).
  { apply good_then_listed; [apply good_vset; exact U|]. revert Us. apply Forall_impl. exact good_vset. }
  pose proof (v_vsets u us F) as E0. remember (map vset_column (u :: us)) as cols eqn:Ec. clear Ec.
  unfold vupdate_pieces. split; [|intros e W; destruct (condition_back e W) as (ps & c & G & Gd & S & C & V); exists ps; split; [exact G|]]; cbn [vwhere_pieces app].
  - split; [goods; exact D0|]. rewrite shown_spaced. cbn [flat_map]. rewrite S0, app_nil_r. show_words. cbn [app]. split; [starts_ok|]. eexists. split.
    + intros k K tl r T H. toks. enter. go_known (Some stmt_follow) 0 (AtRule "update_column_set").
      by_reads (vset_reads u U); [law_by K|apply (heads_incl ("COMMA" :: stmt_ends)%string); [in_list|apply heads_clist; exact T]|].
      go (Some stmt_follow) (@nil token) 0 AtStar.
      by_reads (list_reads (Rule "update_column_set" 0) vset_toks vsetc (Some (List.tl vset_follow)) stmt_ends us eq_refl ltac:(not_in)
        (fun x Ix => reads_incl _ _ _ _ ("COMMA" :: stmt_ends)%string set_ends ltac:(in_list) (vset_reads x (proj1 (Forall_forall _ _) Us x Ix)))); [law_by K|exact T|].
      read_on T tl H.
    + finds. rewrite E0, !marked_app, marked_ctree, no_where_in_vsets by discriminate.
      match goal with |- context[hd_error ?x] => change (hd_error x) with (@None tree) end.
      cbn [v_where rbind]. rewrite !append_nil_r. reflexivity.
  - split; [goods; assumption|]. rewrite shown_spaced. cbn [flat_map]. rewrite S, S0, app_nil_r. show_words. cbn [app]. split; [starts_ok|]. eexists. split.
    + intros k K tl r T H. toks. enter. go_known (Some stmt_follow) 0 (AtRule "update_column_set").
      by_reads (vset_reads u U); [law_by K|apply (heads_incl ["COMMA"; "WHERE_"]%string); [in_list|apply heads_clist; left; reflexivity]|].
      go (Some stmt_follow) (@nil token) 0 AtStar.
      by_reads (list_reads (Rule "update_column_set" 0) vset_toks vsetc (Some (List.tl vset_follow)) ["WHERE_"]%string us eq_refl ltac:(not_in)
        (fun x Ix => reads_incl _ _ _ _ ["COMMA"; "WHERE_"]%string set_ends ltac:(in_list) (vset_reads x (proj1 (Forall_forall _ _) Us x Ix)))); [law_by K|left; reflexivity|].
      go_known (Some stmt_follow) 0 (AtRule "expr").
      by_cond K C; [apply (heads_incl stmt_ends); [in_list|exact T]|]. read_on T tl H.
    + finds. rewrite E0, !marked_app, marked_ctree, no_where_in_vsets by discriminate.
      match goal with |- context[hd_error ?x] => change (hd_error x) with (Some (cond_tree c)) end.
      cbn [v_where rbind]. rewrite V, !append_nil_r. reflexivity.
Qed.
