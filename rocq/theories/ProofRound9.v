(** Reading back printed statements: UPDATE. *)
From Coq Require Import Lia Permutation.
From Verif Require Import GoBase ModelUtil ModelNum ModelFn ModelQuery ModelEbnf ModelGrammar ModelLex ModelVisitor
  SpecFn SpecQuery SpecParse SpecRound FactsBase ProofEbnf ProofMachine ProofFn ProofNum ProofQuery ProofParse ProofLex ProofRound ProofRound2 ProofRound3
  ProofRound4 ProofRound5 ProofRound6 ProofRound7 ProofRound8.

(** c = value, or c = x operator y *)
Inductive uset := UVal (c : string) (l : literal) | UAr (c : string) (e : exe) (x : string) (num : bool) (y : string).
Definition ops : list exe := [ADD; SUB; MUL; DIV; MODOP].
Definition uset_ok (u : uset) : Prop :=
  match u with
  | UVal c l => plain c /\ literal_ok l
  | UAr c e x num y => plain c /\ In e ops /\ plain x /\ (if num then is_num y = true else plain y)
  end.
Definition uset_column (u : uset) : column :=
  match u with UVal c l => new_value_column c l | UAr c e x _ y => new_function_column c e [x; y] end.
Definition op_kind (e : exe) : string := match e with ADD => "PLUS" | SUB => "MINUS" | MUL => "STAR" | DIV => "DIV" | _ => "MOD" end.
Definition operand (num : bool) (y : string) : piece := if num then PNum y else PWord y.
Definition uset_pieces (u : uset) : list piece :=
  match u with
  | UVal c l => spaced [[PWord c]; PSym "ASSIGN" "=" :: sp :: lits_pieces l]
  | UAr c e x num y => spaced [[PWord c]; PSym "ASSIGN" "=" :: sp :: [PWord x]; PSym (op_kind e) (exe_name e) :: sp :: [operand num y]]
  end.
Definition operand_tok (num : bool) (y : string) : token := if num then mkTok "NUMERIC_LITERAL" y else idt y.
Definition uset_toks (u : uset) : list token :=
  match u with
  | UVal c l => [idt c; mkTok "ASSIGN" "="] ++ lit_toks (lit_of l)
  | UAr c e x num y => [idt c; mkTok "ASSIGN" "="; idt x; mkTok (op_kind e) (exe_name e); operand_tok num y]
  end.
Definition uset_tree (u : uset) : tree :=
  Node "update_column_set"
    match u with
    | UVal c l => [(""%string, Node "column_name" (ident c)); (""%string, Leaf (mkTok "ASSIGN" "=")); (""%string, Node "expr" [(""%string, lit_tree (lit_of l))])]
    | UAr c e x num y =>
        [(""%string, Node "column_name" (ident c)); (""%string, Leaf (mkTok "ASSIGN" "="));
         (""%string, Node "expr" [(""%string, Node "arithmetic_expr"
           [(""%string, Node "column_name" (ident x)); ("ope"%string, Leaf (mkTok (op_kind e) (exe_name e)));
            (""%string, Node "expr" [(""%string, if num then lit_tree (LNum y) else Node "column_name" (ident y))])])])]
    end.
Definition usetc (u : uset) : children := [(""%string, uset_tree u)].

Ltac each_op_ E := unfold ops in E; cbn [In] in E; repeat (destruct E as [<-|E]; [|]); [..|contradiction E].
Lemma good_uset u : uset_ok u -> good (uset_pieces u).
Proof.
  destruct u as [c l|c e x num y].
  - intros [C L]. unfold uset_pieces. goods. apply good_op; [reflexivity|]. apply literal_pieces. exact L.
  - intros (C & E & X & Y). unfold uset_pieces. goods.
    + apply good_op; [reflexivity|]. apply good_name. exact X.
    + apply good_op; [each_op_ E; reflexivity|]. destruct num; [apply good_num|apply good_name]; exact Y.
Qed.
Lemma glue_uset u : uset_ok u -> glue (uset_pieces u) = set_string (uset_column u).
Proof.
  destruct u as [c l|c e x num y].
  - intros [C L]. unfold uset_pieces. rewrite glue_spaced. cbn [map]. rewrite glue_one, !glue_cons'. unfold lits_pieces. rewrite (proj1 (proj2 (literal_pieces l L))). reflexivity.
  - intros (C & E & X & Y). unfold uset_pieces. rewrite glue_spaced. cbn [map]. rewrite !glue_cons'. cbn [glue fold_right]. rewrite !append_nil_r.
    unfold set_string, updator_string. cbn [uset_column c_fn new_function_column func_executor f_exec snd c_args updator_args join c_name].
    assert (ptext (operand num y) = y) as -> by (destruct num; reflexivity). reflexivity.
Qed.
Lemma shown_uset u : uset_ok u -> shown (uset_pieces u) = uset_toks u.
Proof.
  destruct u as [c l|c e x num y].
  - intros [C L]. unfold uset_pieces. rewrite shown_spaced. cbn [flat_map]. rewrite (shown_name c C), app_nil_r.
    change (PSym "ASSIGN" "=" :: sp :: lits_pieces l) with ([PSym "ASSIGN" "="; sp] ++ lits_pieces l). rewrite shown_app.
    unfold lits_pieces. rewrite (proj2 (proj2 (literal_pieces l L))). reflexivity.
  - intros (C & E & X & Y). unfold uset_pieces. rewrite shown_spaced. cbn [flat_map]. rewrite (shown_name c C), app_nil_r.
    change (PSym "ASSIGN" "=" :: sp :: [PWord x]) with ([PSym "ASSIGN" "="; sp] ++ [PWord x]). rewrite shown_app, (shown_name x X).
    change (PSym (op_kind e) (exe_name e) :: sp :: [operand num y]) with ([PSym (op_kind e) (exe_name e); sp] ++ [operand num y]). rewrite shown_app.
    assert (shown [operand num y] = [operand_tok num y]) as -> by (destruct num; [reflexivity|apply (shown_name y Y)]).
    each_op_ E; reflexivity.
Qed.

Definition set_ends : list string := ["COMMA"; "SCOL"; "EOF"; "WHERE_"].
Lemma uset_reads u bot : uset_ok u -> reads (Rule "update_column_set" 0) (uset_toks u) (usetc u) bot set_ends.
Proof.
  intros U k K tl r T H. destruct u as [c l|c e x num y].
  - destruct U as [C L]. unfold uset_toks. toks. enter. go_known none 0 (AtRule "expr").
    by_reads (lit_expr (lit_of l) None (proj1 (literal_lit l L))); [apply (heads_incl set_ends); [in_list|exact T]|].
    destruct tl as [|[kd tx] rest]; [contradiction|]. cbn [heads tk] in T. unfold set_ends in T. cbn [In] in T.
    each_kind T; (match goal with |- denm _ _ (?a :: _) _ = _ => go none [a] 1 AtEnd end; the_end H).
  - destruct U as (C & E & X & Y). destruct tl as [|[kd tx] rest]; [contradiction|]. cbn [heads tk] in T. unfold set_ends in T. cbn [In] in T.
    unfold uset_toks. toks. enter. clear X Y C.
    destruct num; each_op_ E; cbn [op_kind exe_name operand_tok]; each_kind T; (go_known none 1 AtEnd; exact H).
Qed.

Lemma v_uset u : uset_ok u -> v_set (uset_tree u) = Ok (uset_column u).
Proof.
  destruct u as [c l|c e x num y].
  - intros [C L]. unfold v_set.
    assert (sub "column_name" (uset_tree (UVal c l)) = Some (Node "column_name" (ident c))) as -> by reflexivity.
    assert (sub "expr" (uset_tree (UVal c l)) = Some (Node "expr" [(""%string, lit_tree (lit_of l))])) as -> by reflexivity.
    unfold text_of. cbn [need rbind]. rewrite text_ident.
    assert (sub "literal_value" (Node "expr" [(""%string, lit_tree (lit_of l))]) = Some (lit_tree (lit_of l))) as -> by reflexivity.
    rewrite (proj2 (literal_lit l L)). reflexivity.
  - intros (C & E & X & Y).
    set (z := if num then lit_tree (LNum y) else Node "column_name" (ident y)).
    assert (Z : text z = y) by (unfold z; destruct num; [unfold lit_tree; cbn [lit_toks leafs map]; rewrite !text_one; reflexivity|apply text_ident]).
    set (a := Node "arithmetic_expr" [(""%string, Node "column_name" (ident x)); ("ope"%string, Leaf (mkTok (op_kind e) (exe_name e))); (""%string, Node "expr" [(""%string, z)])]).
    unfold v_set.
    assert (sub "column_name" (uset_tree (UAr c e x num y)) = Some (Node "column_name" (ident c))) as -> by reflexivity.
    assert (sub "expr" (uset_tree (UAr c e x num y)) = Some (Node "expr" [(""%string, a)])) as -> by reflexivity.
    unfold text_of at 1. cbn [need rbind]. rewrite text_ident.
    assert (sub "literal_value" (Node "expr" [(""%string, a)]) = None) as -> by reflexivity.
    assert (sub "bind_param" (Node "expr" [(""%string, a)]) = None) as -> by reflexivity.
    assert (sub "arithmetic_expr" (Node "expr" [(""%string, a)]) = Some a) as -> by reflexivity.
    assert (lab "ope" a = Some (Leaf (mkTok (op_kind e) (exe_name e)))) as -> by reflexivity.
    assert (sub "column_name" a = Some (Node "column_name" (ident x))) as -> by reflexivity.
    assert (sub "expr" a = Some (Node "expr" [(""%string, z)])) as -> by reflexivity.
    unfold text_of. cbn [need rbind]. rewrite text_ident, text_one, Z.
    each_op_ E; reflexivity.
Qed.

Definition sets_pieces (u : uset) (us : list uset) : list piece := uset_pieces u ++ listed uset_pieces us.
Lemma v_sets u us : Forall uset_ok (u :: us) ->
  collect v_set (named "update_column_set" (usetc u) ++ flat_map (fun x => named "update_column_set" (usetc x)) us) = Ok (map uset_column (u :: us)).
Proof.
  intro F. change (fun x => named "update_column_set" (usetc x)) with (fun x => [uset_tree x]). rewrite flat_map_one.
  change (named "update_column_set" (usetc u) ++ map uset_tree us) with (map uset_tree (u :: us)).
  apply collect_map. intros v I. apply v_uset. exact (proj1 (Forall_forall _ _) F v I).
Qed.
Lemma no_where_in_sets us : flat_map (fun x => marked "whereExpr" (usetc x)) us = [].
Proof. induction us as [|v us IH]; [reflexivity|exact IH]. Qed.
Lemma update_back entries t u us w : plain t -> Forall uset_ok (u :: us) -> condition_ok w ->
  comes_back entries (SUpdate (new_table t) (map uset_column (u :: us)) w).
Proof.
  intros P F W. inversion F as [|? ? U Us]; subst.
  assert (G0 : glue (sets_pieces u us) = join_with_comma (map set_string (map uset_column (u :: us)))).
  { unfold sets_pieces. rewrite glue_listed. f_equal. rewrite map_map. apply map_ext_in. intros v I. apply glue_uset. exact (proj1 (Forall_forall _ _) F v I). }
  assert (S0 : shown (sets_pieces u us) = uset_toks u ++ clist uset_toks us).
  { unfold sets_pieces. rewrite shown_app, (shown_uset u U), shown_listed. f_equal. apply clist_ext. intros v I. apply shown_uset. exact (proj1 (Forall_forall _ _) Us v I). }
  assert (D0 : good (sets_pieces u us)).
  { apply good_then_listed; [apply good_uset; exact U|]. revert Us. apply Forall_impl. exact good_uset. }
  destruct w as [e|].
  - destruct (condition_back e W) as (ps & c & G & Gd & S & C & V).
    exists (spaced [kw ["UPDATE"%string]; [PWord t]; kw ["SET"%string]; sets_pieces u us; kw ["WHERE"%string]; ps]).
    split; [unfold stmt_string, where_strings, join_with_space; rewrite <- G0, glue_spaced; cbn [map app has_conditions condition_string]; rewrite G, glue_one, full_name_of_name; reflexivity|].
    split; [goods; assumption|]. rewrite shown_spaced. cbn [flat_map]. rewrite S, S0, app_nil_r. show_words. cbn [app]. split; [starts_ok|]. eexists. split.
    + intros k K tl r T H. toks. enter. go_known (Some stmt_follow) 0 (AtRule "update_column_set").
      by_reads (uset_reads u None U); [apply (heads_incl ["COMMA"; "WHERE_"]%string); [in_list|apply heads_clist; left; reflexivity]|].
      go (Some stmt_follow) (@nil token) 0 AtStar.
      by_reads (list_reads_any (Rule "update_column_set" 0) uset_toks usetc None ["WHERE_"]%string us eq_refl ltac:(not_in)
        (fun x Ix => reads_incl _ _ _ _ ["COMMA"; "WHERE_"]%string set_ends ltac:(in_list) (uset_reads x None (proj1 (Forall_forall _ _) Us x Ix)))); [left; reflexivity|].
      go_known (Some stmt_follow) 0 (AtRule "expr").
      by_cond K C; [apply (heads_incl stmt_ends); [in_list|exact T]|]. read_on T tl H.
    + finds. rewrite (v_sets u us F), !marked_app, marked_ctree, no_where_in_sets by discriminate.
      match goal with |- context[hd_error ?x] => change (hd_error x) with (Some (cond_tree c)) end.
      cbn [v_where rbind]. rewrite V, !append_nil_r. reflexivity.
  - exists (spaced [kw ["UPDATE"%string]; [PWord t]; kw ["SET"%string]; sets_pieces u us]).
    split; [unfold stmt_string, where_strings, join_with_space; rewrite <- G0, glue_spaced; cbn [map app has_conditions]; rewrite glue_one, full_name_of_name; reflexivity|].
    split; [goods; assumption|]. rewrite shown_spaced. cbn [flat_map]. rewrite S0, app_nil_r. show_words. cbn [app]. split; [starts_ok|]. eexists. split.
    + intros k K tl r T H. toks. enter. go_known (Some stmt_follow) 0 (AtRule "update_column_set").
      by_reads (uset_reads u None U); [apply (heads_incl ("COMMA" :: stmt_ends)%string); [in_list|apply heads_clist; exact T]|].
      go (Some stmt_follow) (@nil token) 0 AtStar.
      by_reads (list_reads_any (Rule "update_column_set" 0) uset_toks usetc None stmt_ends us eq_refl ltac:(not_in)
        (fun x Ix => reads_incl _ _ _ _ ("COMMA" :: stmt_ends)%string set_ends ltac:(in_list) (uset_reads x None (proj1 (Forall_forall _ _) Us x Ix)))); [exact T|].
      read_on T tl H.
    + finds. rewrite (v_sets u us F), !marked_app, marked_ctree, no_where_in_sets by discriminate.
      match goal with |- context[hd_error ?x] => change (hd_error x) with (@None tree) end.
      cbn [v_where rbind]. rewrite !append_nil_r. reflexivity.
Qed.
(** with a schema name, which is read into the table name *)
Lemma update_full_back entries q t u us w : plain q -> plain t -> Forall uset_ok (u :: us) -> condition_ok w ->
  comes_back entries (SUpdate (new_table (q ++ "." ++ t)) (map uset_column (u :: us)) w).
Proof.
  intros Q P F W. inversion F as [|? ? U Us]; subst.
  assert (G0 : glue (sets_pieces u us) = join_with_comma (map set_string (map uset_column (u :: us)))).
  { unfold sets_pieces. rewrite glue_listed. f_equal. rewrite map_map. apply map_ext_in. intros v I. apply glue_uset. exact (proj1 (Forall_forall _ _) F v I). }
  assert (S0 : shown (sets_pieces u us) = uset_toks u ++ clist uset_toks us).
  { unfold sets_pieces. rewrite shown_app, (shown_uset u U), shown_listed. f_equal. apply clist_ext. intros v I. apply shown_uset. exact (proj1 (Forall_forall _ _) Us v I). }
  assert (D0 : good (sets_pieces u us)).
  { apply good_then_listed; [apply good_uset; exact U|]. revert Us. apply Forall_impl. exact good_uset. }
  destruct w as [e|].
  - destruct (condition_back e W) as (ps & c & G & Gd & S & C & V).
    exists (spaced [kw ["UPDATE"%string]; [PWord q; PSym "DOT" "."; PWord t]; kw ["SET"%string]; sets_pieces u us; kw ["WHERE"%string]; ps]).
    split; [unfold stmt_string, where_strings, join_with_space; rewrite <- G0, glue_spaced; cbn [map app has_conditions condition_string]; rewrite G, glue_schema, full_name_of_name; reflexivity|].
    split; [goods; assumption|]. rewrite shown_spaced. cbn [flat_map]. rewrite S, S0, app_nil_r. show_words. cbn [app]. split; [starts_ok|]. eexists. split.
    + intros k K tl r T H. toks. enter. go_known (Some stmt_follow) 0 (AtRule "update_column_set").
      by_reads (uset_reads u None U); [apply (heads_incl ["COMMA"; "WHERE_"]%string); [in_list|apply heads_clist; left; reflexivity]|].
      go (Some stmt_follow) (@nil token) 0 AtStar.
      by_reads (list_reads_any (Rule "update_column_set" 0) uset_toks usetc None ["WHERE_"]%string us eq_refl ltac:(not_in)
        (fun x Ix => reads_incl _ _ _ _ ["COMMA"; "WHERE_"]%string set_ends ltac:(in_list) (uset_reads x None (proj1 (Forall_forall _ _) Us x Ix)))); [left; reflexivity|].
      go_known (Some stmt_follow) 0 (AtRule "expr").
      by_cond K C; [apply (heads_incl stmt_ends); [in_list|exact T]|]. read_on T tl H.
    + finds. rewrite (v_sets u us F), !marked_app, marked_ctree, no_where_in_sets by discriminate.
      match goal with |- context[hd_error ?x] => change (hd_error x) with (Some (cond_tree c)) end.
      cbn [v_where rbind]. rewrite V, !append_nil_r. reflexivity.
  - exists (spaced [kw ["UPDATE"%string]; [PWord q; PSym "DOT" "."; PWord t]; kw ["SET"%string]; sets_pieces u us]).
    split; [unfold stmt_string, where_strings, join_with_space; rewrite <- G0, glue_spaced; cbn [map app has_conditions]; rewrite glue_schema, full_name_of_name; reflexivity|].
    split; [goods; assumption|]. rewrite shown_spaced. cbn [flat_map]. rewrite S0, app_nil_r. show_words. cbn [app]. split; [starts_ok|]. eexists. split.
    + intros k K tl r T H. toks. enter. go_known (Some stmt_follow) 0 (AtRule "update_column_set").
      by_reads (uset_reads u None U); [apply (heads_incl ("COMMA" :: stmt_ends)%string); [in_list|apply heads_clist; exact T]|].
      go (Some stmt_follow) (@nil token) 0 AtStar.
      by_reads (list_reads_any (Rule "update_column_set" 0) uset_toks usetc None stmt_ends us eq_refl ltac:(not_in)
        (fun x Ix => reads_incl _ _ _ _ ("COMMA" :: stmt_ends)%string set_ends ltac:(in_list) (uset_reads x None (proj1 (Forall_forall _ _) Us x Ix)))); [exact T|].
      read_on T tl H.
    + finds. rewrite (v_sets u us F), !marked_app, marked_ctree, no_where_in_sets by discriminate.
      match goal with |- context[hd_error ?x] => change (hd_error x) with (@None tree) end.
      cbn [v_where rbind]. rewrite !append_nil_r. reflexivity.
Qed.
