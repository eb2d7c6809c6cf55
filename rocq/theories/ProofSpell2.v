(** Other ways to write statements: indexes, and all of them together. *)
From Coq Require Import Lia.
From Verif Require Import GoBase ModelUtil ModelNum ModelFn ModelQuery ModelEbnf ModelGrammar ModelLex ModelVisitor SpecRound SpecSelect SpecSpell
  FactsBase ProofFn ProofEbnf ProofMachine ProofLex ProofRound ProofRound2 ProofRound3 ProofRound4 ProofRound5 ProofRound8 ProofRound10 ProofRound13 ProofSelect2 ProofSpell.
Local Open Scope string_scope.
Local Open Scope list_scope.

Definition collate_toks (c : indexed) : list token := match ix_collation c with Some x => [mkTok "COLLATE_" "COLLATE"; idt x] | None => [] end.
Definition direct_toks (c : indexed) : list token :=
  match ix_direction c with Some true => [mkTok "ASC_" "ASC"] | Some false => [mkTok "DESC_" "DESC"] | None => [] end.
Definition ix_toks (c : indexed) : list token := idt (ix_name c) :: collate_toks c ++ direct_toks c.
Definition ix_tree (c : indexed) : tree :=
  Node "indexed_column" (col (ix_name c) ++ match ix_collation c with Some x => [("", Leaf (mkTok "COLLATE_" "COLLATE")); ("", Node "collation_name" (ident x))] | None => [] end
    ++ match direct_toks c with t :: _ => [("", Node "asc_desc" [("", Leaf t)])] | [] => [] end).
Definition ixc (c : indexed) : children := [("", ix_tree c)].
Definition ix_fine (c : indexed) : Prop := plain (ix_name c) /\ match ix_collation c with Some x => plain x | None => True end.
Lemma ix_reads c bot : reads (Rule "indexed_column" 0) (ix_toks c) (ixc c) bot ["COMMA"; "CLOSE_PAR"].
Proof.
  intros k K [|[kd tx] rest] r T H; [contradiction|]. cbn [heads tk] in T. cbn [In] in T. destruct c as [n [x|] [[]|]]; cbn [app ix_toks collate_toks direct_toks ix_name ix_collation ix_direction]; enter;
  each_kind T; (match goal with |- denm _ _ ?ts _ = _ => let l := upto ts in go none l 1 AtEnd end; exact H).
Qed.
Definition ix_pieces (c : indexed) : list piece :=
  spaced ([PWord (ix_name c)] :: match ix_collation c with Some x => [kw ["COLLATE"]; [PWord x]] | None => [] end
    ++ match ix_direction c with Some true => [kw ["ASC"]] | Some false => [kw ["DESC"]] | None => [] end).
Lemma good_ix c : ix_fine c -> good (ix_pieces c).
Proof. destruct c as [n [x|] [[]|]]; intros [N X]; unfold ix_pieces; cbn [ix_name ix_collation ix_direction app] in *; goods. Qed.
Lemma shown_ix c : ix_fine c -> shown (ix_pieces c) = ix_toks c.
Proof.
  destruct c as [n [x|] [[]|]]; intros [N X]; unfold ix_pieces, ix_toks, collate_toks, direct_toks; cbn [ix_name ix_collation ix_direction app] in *; shows; reflexivity.
Qed.
Lemma glue_ix c : glue (ix_pieces c) = indexed_text c.
Proof. destruct c as [n [x|] [[]|]]; unfold ix_pieces, indexed_text, line; rewrite glue_spaced; cbn [map app ix_name ix_collation ix_direction]; rewrite !glue_one; reflexivity. Qed.
Definition ix_list (c : indexed) (cs : list indexed) : list piece := lp :: (ix_pieces c ++ listed ix_pieces cs) ++ [rp].
Lemma good_ixs c cs : ix_fine c -> Forall ix_fine cs -> good (ix_list c cs).
Proof.
  intros C F. apply good_lp. apply good_app_rp; [|apply good_nil]. apply good_then_listed; [apply good_ix, C|]. revert F. apply Forall_impl. exact good_ix.
Qed.
Lemma shown_ixs c cs : ix_fine c -> Forall ix_fine cs -> shown (ix_list c cs) = open_ :: ix_toks c ++ clist ix_toks cs ++ [close_].
Proof.
  intros C F. change (ix_list c cs) with ([lp] ++ (ix_pieces c ++ listed ix_pieces cs) ++ [rp]). rewrite !shown_app, (shown_ix c C), shown_listed, <- app_assoc.
  rewrite (clist_ext _ ix_toks cs (fun x I => shown_ix x (proj1 (Forall_forall _ _) F x I))). reflexivity.
Qed.
Lemma glue_ixs c cs : glue (ix_list c cs) = in_parentheses (join ", " (map indexed_text (c :: cs))).
Proof. unfold ix_list. rewrite glue_cons', glue_app, glue_listed, glue_one, (map_ext _ indexed_text glue_ix). reflexivity. Qed.

Definition index_pieces (u b : bool) (s : option string) (i t : string) (c : indexed) (cs : list indexed) (w : list (list piece)) : list piece :=
  spaced ([kw ["CREATE"]] ++ (if u then [kw ["UNIQUE"]] else []) ++ [kw ["INDEX"]] ++ (if b then [kw ["IF"; "NOT"; "EXISTS"]] else []) ++
    [match s with Some x => [PWord x; PSym "DOT" "."; PWord i] | None => [PWord i] end; kw ["ON"]; [PWord t]; ix_list c cs] ++ w).
Definition index_made (b : bool) (i t : string) (cs : list indexed) : stmt :=
  SCreateIndex (new_schema (unescape_name_string t) [] [secondary_index (unescape_name_string i) (map (fun c => new_column (unescape_name_string (ix_name c))) cs)]) b.
Lemma ixs_reads cs bot : reads (commas (Rule "indexed_column" 0)) (clist ix_toks cs) (ctree ixc cs) bot ["CLOSE_PAR"].
Proof. apply list_reads_any; [vm_compute; reflexivity|not_in|]. intros x _. apply ix_reads. Qed.
Lemma ix_texts {B} (f : tree -> result B) (g : indexed -> B) xs : (forall x, f (ix_tree x) = Ok (g x)) ->
  collect f (flat_map (fun x => named "indexed_column" (ixc x)) xs) = Ok (map g xs).
Proof.
  intros H. change (fun x => named "indexed_column" (ixc x)) with (fun x => [ix_tree x]). rewrite flat_map_one.
  apply collect_map. intros x I. apply H.
Qed.
Lemma ix_name_text x : name_of (sub "column_name" (ix_tree x)) = Ok (unescape_name_string (ix_name x)).
Proof. destruct x as [n [x|] [[]|]]; cbn -[unescape_name_string append]; rewrite !append_nil_r; reflexivity. Qed.
Ltac index_found c cs :=
  finds; rewrite ?append_nil_r;
  change (named "if_not_exists" (ixc c)) with (@nil tree);
  change (named "indexed_column" (ixc c) ++ flat_map (fun x => named "indexed_column" (ixc x)) cs) with (flat_map (fun x => named "indexed_column" (ixc x)) (c :: cs));
  rewrite (ix_texts _ (fun x => new_column (unescape_name_string (ix_name x))) (c :: cs));
  [reflexivity|let x := fresh "x" in intro x; change (rbind (name_of (sub "column_name" (ix_tree x))) (fun n => Ok (new_column n)) = Ok (new_column (unescape_name_string (ix_name x))));
    rewrite ix_name_text; reflexivity].
Lemma index_reads entries u b s i t c cs : (forall x, s = Some x -> plain x) -> plain i -> plain t -> ix_fine c -> Forall ix_fine cs ->
  reads_as entries (index_pieces u b s i t c cs []) (index_made b i t (c :: cs)).
Proof.
  intros S P Q C F. assert (S' : match s with Some x => plain x | None => True end) by (destruct s; [apply S; reflexivity|exact I]). clear S. unfold index_pieces.
  split; [destruct s, u, b; cbn [app]; goods; apply good_ixs; assumption|].
  rewrite shown_spaced. destruct s as [s|], u, b; cbn [flat_map app]; rewrite (shown_ixs c cs C F); show_words; cbn [app];
    (split; [starts_ok|]); eexists; (split;
     [intros k K tl r T H; toks; enter;
      go_known (Some stmt_follow) 0 (AtRule "indexed_column");
      by_reads (ix_reads c None); [apply (heads_clist ix_toks ["CLOSE_PAR"%string] cs); left; reflexivity|];
      go (Some stmt_follow) (@nil token) 0 AtStar;
      by_reads (ixs_reads cs None); [left; reflexivity|]; read_on T tl H|index_found c cs]).
Qed.
Lemma index_where_reads entries u b s i t c cs ps d : (forall x, s = Some x -> plain x) -> plain i -> plain t -> ix_fine c -> Forall ix_fine cs ->
  good ps -> shown ps = cond_toks d -> cond_ok d ->
  reads_as entries (index_pieces u b s i t c cs [kw ["WHERE"]; ps]) (index_made b i t (c :: cs)).
Proof.
  intros S P Q C F Gd Sd Cd. assert (S' : match s with Some x => plain x | None => True end) by (destruct s; [apply S; reflexivity|exact I]). clear S. unfold index_pieces.
  split; [destruct s, u, b; cbn [app]; goods; first [exact Gd|apply good_ixs; assumption]|].
  rewrite shown_spaced. destruct s as [s|], u, b; cbn [flat_map app]; rewrite (shown_ixs c cs C F), Sd; show_words; rewrite ?app_nil_r; cbn [app];
    (split; [starts_ok|]); eexists; (split;
     [intros k K tl r T H; toks; enter;
      go_known (Some stmt_follow) 0 (AtRule "indexed_column");
      by_reads (ix_reads c None); [apply (heads_clist ix_toks ["CLOSE_PAR"%string] cs); left; reflexivity|];
      go (Some stmt_follow) (@nil token) 0 AtStar;
      by_reads (ixs_reads cs None); [left; reflexivity|];
      go_known (Some stmt_follow) 0 (AtRule "expr");
      by_cond K Cd; [apply (heads_incl stmt_ends); [in_list|exact T]|]; read_on T tl H|index_found c cs]).
Qed.

(** the whole *)
Lemma index_line_glue u b s i t c cs w : glue (index_pieces u b s i t c cs w) = line (index_line u b s i t (c :: cs) (map glue w)).
Proof.
  unfold index_pieces, index_line. rewrite glue_spaced. unfold line. f_equal. rewrite !map_app. cbn [map]. rewrite glue_ixs, !glue_one.
  destruct u, b, s; cbn [map app given]; rewrite ?glue_schema, ?glue_one; reflexivity.
Qed.
Lemma name_solid' x : name x -> solid x. Proof. apply name_solid. Qed.
Lemma names_solid xs : Forall name xs -> Forall solid xs.
Proof. apply Forall_impl. exact name_solid'. Qed.
Lemma names_plain xs : Forall any_name xs -> Forall plain xs.
Proof. apply Forall_impl. exact any_is. Qed.
Lemma spelled entries ws s : spelling ws s -> parse entries (line ws) = Ok [s].
Proof.
  intros [m x M X|w b W|b|b ts [N F]|b t c d T C D|b t src x f T S X|b t cs src x f T [N F] S X].
  - apply begin_spelled; assumption.
  - cbn [In] in W. destruct W as [<-|[<-|[]]], b; vm_compute; reflexivity.
  - destruct b; vm_compute; reflexivity.
  - destruct ts as [|t ts]; [contradiction|]. apply names_plain in F. inversion F; subst. apply truncate_spelled; assumption.
  - apply rename_column_spelled; apply any_is; assumption.
  - apply (copy_tail b) in X. apply name_solid' in T, S. pose proof (copy_reads entries t src _ f T S X) as P.
    rewrite <- (reads_parse _ _ _ P). f_equal. rewrite glue_spaced, map_app, glue_kws. cbn [map]. rewrite !glue_one. reflexivity.
  - destruct cs as [|c cs]; [contradiction|]. apply names_solid in F. inversion F as [|? ? C F']; subst. apply (copy_tail b) in X. apply name_solid' in T, S.
    pose proof (copy_columns_reads entries t c cs src _ f T C F' S X) as P.
    rewrite <- (reads_parse _ _ _ P). f_equal. rewrite glue_spaced, map_app, glue_kws. cbn [map]. rewrite glue_par_names, !glue_one. reflexivity.
Qed.
Lemma drop_line entries b c s t ts : (forall x, s = Some x -> plain x) -> plain t -> Forall plain ts ->
  parse entries (line (["DROP"; "TABLE"] ++ given b "IF EXISTS" ++ [match s with Some x => dotted x (join ", " (t :: ts)) | None => join ", " (t :: ts) end] ++ given c "CASCADE"))
  = Ok [SDropTable (map (fun x => new_table (unescape_name_string x)) (t :: ts)) b].
Proof.
  intros S P F. rewrite <- (reads_parse _ _ _ (drop_spelled entries b c s t ts S P F)). f_equal. rewrite glue_spaced, !map_app.
  assert (G : glue (dotted_names s t ts) = match s with Some x => dotted x (join ", " (t :: ts)) | None => join ", " (t :: ts) end).
  { destruct s; unfold dotted_names, names; rewrite ?glue_cons', glue_names; reflexivity. }
  cbn [map]. rewrite G. destruct b, c; reflexivity.
Qed.
