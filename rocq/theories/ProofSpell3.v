(** Other ways to write statements: INSERT OR ..., REPLACE, and tables with schemas. *)
From Coq Require Import Lia.
From Verif Require Import GoBase ModelUtil ModelNum ModelFn ModelQuery ModelEbnf ModelGrammar ModelLex ModelVisitor SpecRound SpecSelect SpecSpell
  FactsBase ProofFn ProofEbnf ProofMachine ProofLex ProofRound ProofRound2 ProofRound3 ProofRound4 ProofRound5 ProofRound8 ProofRound10 ProofRound12 ProofRound13 ProofInsert ProofSelect2 ProofSpell ProofSpell2.
Local Open Scope string_scope.
Local Open Scope list_scope.

Definition keyword (w : string) : token := mkTok (w ++ "_")%string w.
Definition insert_heads : list (list string) :=
  [["INSERT"]; ["REPLACE"]; ["INSERT"; "OR"; "REPLACE"]; ["INSERT"; "OR"; "ROLLBACK"]; ["INSERT"; "OR"; "ABORT"]; ["INSERT"; "OR"; "FAIL"]; ["INSERT"; "OR"; "IGNORE"]].
Definition table_toks (s : option string) (t : string) : list token :=
  match s with Some x => [idt x; mkTok "DOT" "."; idt t] | None => [idt t] end.
Definition table_trees (s : option string) (t : string) : children :=
  match s with Some x => [(""%string, Node "schema_name" (ident x)); (""%string, Leaf (mkTok "DOT" ".")); (""%string, Node "table_name" (ident t))]
  | None => [(""%string, Node "table_name" (ident t))] end.
Definition head_toks (hs : list string) : list token := map keyword hs.
Definition head_trees (hs : list string) : children := map (fun w => (""%string, Leaf (keyword w))) hs.
Definition minsert_toks (hs : list string) (s : option string) (t c0 : string) (cs : list string) (w0 : row) (ws : list row) : list token :=
  head_toks hs ++ mkTok "INTO_" "INTO" :: table_toks s t ++ [open_; idt c0] ++ clist id1 cs ++ [close_; mkTok "VALUES_" "VALUES"]
  ++ rtoks w0 ++ clist rtoks ws.
Definition minsert_tree (hs : list string) (s : option string) (t c0 : string) (cs : list string) (w0 : row) (ws : list row) : tree :=
  Node "sql_stmt" [(""%string, Node "insert_stmt"
    (head_trees hs ++ (""%string, Leaf (mkTok "INTO_" "INTO")) ::
      table_trees s t ++ [(""%string, Leaf open_)] ++ col c0 ++ ctree col cs ++ [(""%string, Leaf close_);
      (""%string, Node "values_clause" ((""%string, Leaf (mkTok "VALUES_" "VALUES")) :: rtree w0 ++ ctree rtree ws))]))].
Lemma minsert_reads hs s t c0 cs w0 ws : In hs insert_heads -> row_ok w0 -> Forall row_ok ws ->
  stmt_reads (minsert_toks hs s t c0 cs w0 ws) (minsert_tree hs s t c0 cs w0 ws).
Proof.
  intros I W0 Ws k K tl r T H. unfold minsert_toks. rewrite <- !app_assoc.
  unfold insert_heads in I. cbn [In] in I.
  destruct I as [<-|[<-|[<-|[<-|[<-|[<-|[<-|[]]]]]]]], s as [s|];
  cbn [table_toks head_toks map app]; do 3 (rewrite <- ?app_assoc; cbn [app]);
  (enter; go_known (Some stmt_follow) 0 AtStar;
  by_reads (names_reads cs None ["CLOSE_PAR"%string] ltac:(not_in)); [left; reflexivity|];
  go (Some stmt_follow) [close_; mkTok "VALUES_" "VALUES"] 0 (AtRule "value_row");
  by_reads (row_reads (fst w0) (snd w0) None ("COMMA"%string :: stmt_ends) (proj1 W0) (proj2 W0)); [apply heads_clist; exact T|];
  go (Some stmt_follow) (@nil token) 0 AtStar;
  by_reads (list_reads_any (Rule "value_row" 0) rtoks rtree None stmt_ends ws ltac:(vm_compute; reflexivity) ltac:(not_in)
    (fun x Ix => row_reads (fst x) (snd x) None ("COMMA"%string :: stmt_ends) (proj1 (proj1 (Forall_forall _ _) Ws x Ix)) (proj2 (proj1 (Forall_forall _ _) Ws x Ix))));
    [exact T|];
  unfold minsert_tree in H; read_on T tl H).
Qed.

Definition table_word (s : option string) (t : string) : list piece := match s with Some x => [PWord x; PSym "DOT" "."; PWord t] | None => [PWord t] end.
Lemma good_table_word s t : (forall x, s = Some x -> plain x) -> plain t -> good (table_word s t).
Proof. intros S P. destruct s as [x|]; [apply good_schema; [apply S; reflexivity|exact P]|apply good_name, P]. Qed.
Lemma shown_table_word s t : (forall x, s = Some x -> plain x) -> plain t -> shown (table_word s t) = table_toks s t.
Proof. intros S P. destruct s as [x|]; [pose proof (S x eq_refl)|]; unfold table_word; show_words; toks; reflexivity. Qed.
Definition minsert_pieces (hs : list string) (s : option string) (t c0 : string) (cs : list string) (v0 : vals) (vs : list vals) : list piece :=
  spaced (map (fun w => kw [w]) hs ++ [kw ["INTO"]; table_word s t; par_names c0 cs; kw ["VALUES"]; vals_pieces v0 ++ listed vals_pieces vs]).
Lemma minsert_any entries hs s t c0 cs v0 vs : In hs insert_heads -> (forall x, s = Some x -> plain x) -> plain t -> plain c0 -> Forall plain cs -> Forall vals_ok (v0 :: vs) ->
  reads_as entries (minsert_pieces hs s t c0 cs v0 vs)
    (SInsert (new_table (unescape_name_string t)) (map (fun v => pair_row (c0 :: cs) (fst v :: snd v)) (v0 :: vs))).
Proof.
  intros I S P C0 C V. unfold minsert_pieces. inversion V as [|? ? V0 Vs]; subst. split; [|split].
  - assert (G : good (table_word s t)) by (apply good_table_word; assumption).
    unfold insert_heads in I. cbn [In] in I.
    destruct I as [<-|[<-|[<-|[<-|[<-|[<-|[<-|[]]]]]]]]; cbn [map app]; (goods; [exact G|apply good_par_names; assumption|apply good_vals; exact V0|]; revert Vs; apply Forall_impl; exact good_vals).
  - rewrite shown_spaced. unfold insert_heads in I. cbn [In] in I.
    destruct I as [<-|[<-|[<-|[<-|[<-|[<-|[<-|[]]]]]]]]; cbn [map app flat_map]; starts_ok.
  - exists (minsert_tree hs s t c0 cs (row_of v0) (map row_of vs)). split.
    + replace (shown _) with (minsert_toks hs s t c0 cs (row_of v0) (map row_of vs)).
      * apply minsert_reads; [exact I|apply vals_row; exact V0|]. apply Forall_map. revert Vs. apply Forall_impl. exact vals_row.
      * rewrite shown_spaced, flat_map_app. cbn [flat_map]. rewrite shown_app, shown_listed, (shown_par_names c0 cs C0 C), (shown_vals v0 V0), (shown_table_word s t S P).
        rewrite (clist_ext _ (fun v => rtoks (row_of v)) vs (fun v Iv => shown_vals v (proj1 (Forall_forall _ _) Vs v Iv))).
        unfold minsert_toks. rewrite clist_map, app_nil_r. change (shown (kw ["INTO"])) with [mkTok "INTO_" "INTO"]. change (shown (kw ["VALUES"])) with [mkTok "VALUES_" "VALUES"].
        assert (Hd : flat_map shown (map (fun w => kw [w]) hs) = head_toks hs).
        { unfold insert_heads in I. cbn [In] in I. destruct I as [<-|[<-|[<-|[<-|[<-|[<-|[<-|[]]]]]]]]; vm_compute; reflexivity. }
        rewrite Hd. toks. reflexivity.
    + unfold minsert_tree. match goal with |- v_statement _ (Node _ [(_, ?n)]) = _ => transitivity (rbind (v_insert n) (fun x => Ok (Some x))); [reflexivity|] end.
      assert (Hn : forall q, named q (head_trees hs) = []) by (intro q; unfold head_trees; clear; induction hs as [|h hs IH]; [reflexivity|exact IH]).
      unfold v_insert.
      match goal with |- context[sub "table_name" ?n] =>
        assert (sub "table_name" n = Some (Node "table_name" (ident t))) as ->;
        [|assert (sub "values_clause" n = Some (Node "values_clause" ((""%string, Leaf (mkTok "VALUES_" "VALUES")) :: rtree (row_of v0) ++ ctree rtree (map row_of vs)))) as ->;
        [|assert (subs "column_name" n = map (fun x => Node "column_name" (ident x)) (c0 :: cs)) as ->]] end.
      * unfold sub. rewrite subs_node, !named_app, Hn. destruct s; reflexivity.
      * unfold sub. rewrite subs_node, !named_app, Hn, !named_cons, !named_app, named_ctree. rewrite (flat_none "values_clause" col cs (fun x => eq_refl)). destruct s; reflexivity.
      * rewrite subs_node, !named_app, Hn, !named_cons, !named_app, named_ctree.
        change (fun x => named "column_name" (col x)) with (fun x => [Node "column_name" (ident x)]). rewrite flat_map_one.
        destruct s; cbn [app]; (match goal with |- context[map ?f cs ++ ?x] => change x with (@nil tree) end); rewrite app_nil_r; reflexivity.
      * unfold name_of, text_of. cbn [need rbind]. rewrite text_ident. rewrite map_map.
        rewrite (map_ext (fun x => text (Node "column_name" (ident x))) (fun x => x) (fun x => text_ident _ x)), map_id.
        rewrite subs_node, named_cons. cbn [is_rule]. rewrite !named_app, named_ctree.
        change (fun x => named "value_row" (rtree x)) with (fun x => [row_tree (fst x) (snd x)]). rewrite flat_map_one, map_map.
        change (named "value_row" (rtree (row_of v0)) ++ map (fun x => row_tree (fst (row_of x)) (snd (row_of x))) vs)
          with (map (fun x => row_tree (fst (row_of x)) (snd (row_of x))) (v0 :: vs)).
        rewrite (collect_map _ _ (fun v => pair_row (c0 :: cs) (fst v :: snd v))); [reflexivity|].
        intros v Iv. rewrite row_exprs. apply v_row_lits. destruct (proj1 (Forall_forall _ _) V v Iv). constructor; assumption.
Qed.

Lemma conflict_heads ws : conflict ws -> In ws insert_heads.
Proof.
  intros [->|[->|(w & W & ->)]]; [left; reflexivity|right; left; reflexivity|]. cbn [In] in W. unfold insert_heads.
  destruct W as [<-|[<-|[<-|[<-|[<-|[]]]]]]; cbn [In]; tauto.
Qed.
Lemma minsert_text hs s t c0 cs v0 vs : In hs insert_heads -> vals_ok v0 -> Forall vals_ok vs ->
  glue (minsert_pieces hs s t c0 cs v0 vs) = line (insert_line hs s t (c0 :: cs) (map (fun v => fst v :: snd v) (v0 :: vs))).
Proof.
  intros I V0 Vs. unfold minsert_pieces, insert_line, line. rewrite glue_spaced, map_app. f_equal. f_equal.
  - unfold insert_heads in I. cbn [In] in I. destruct I as [<-|[<-|[<-|[<-|[<-|[<-|[<-|[]]]]]]]]; vm_compute; reflexivity.
  - cbn [map]. rewrite glue_par_names, glue_listed.
    assert (E : map (fun x => glue (vals_pieces x)) (v0 :: vs) = map (fun r => in_parentheses (join ", " (map literal_text r))) (map (fun v => fst v :: snd v) (v0 :: vs))).
    { rewrite map_map. apply map_ext_in. intros v Iv.
      assert (V : vals_ok v) by (destruct Iv as [<-|Iv]; [exact V0|exact (proj1 (Forall_forall _ _) Vs v Iv)]).
      rewrite (glue_vals v V). unfold in_parentheses. destruct V as [A B].
      rewrite (map_ext_in literal_text literal_string (fst v :: snd v)); [reflexivity|]. intros l L. apply literal_as.
      destruct L as [<-|L]; [exact A|exact (proj1 (Forall_forall _ _) B l L)]. }
    rewrite E.
    assert (W : glue (table_word s t) = match s with Some x => dotted x t | None => t end) by (destruct s; unfold table_word; rewrite ?glue_one, ?(glue_cons' (PWord s)), ?(glue_cons' (PSym _ _)), ?glue_one; reflexivity).
    rewrite W. reflexivity.
Qed.
Lemma insert_line_parse entries hs s t cols rows : In hs insert_heads -> (forall x, s = Some x -> plain x) -> plain t -> some any_name cols -> some (some literal_ok) rows ->
  parse entries (line (insert_line hs s t cols rows))
  = Ok [SInsert (new_table (unescape_name_string t)) (map (fun r => map (fun p => new_value_column (fst p) (snd p)) (combine cols r)) rows)].
Proof.
  intros I S P C R. destruct (names_some cols C) as (c0 & cs & -> & C0 & Cs).
  destruct (as_map_some (fun v : vals => fst v :: snd v) (some literal_ok) vals_ok rows) with (2 := R) as (v0 & vs & -> & V0 & Vs).
  { intros r [Ne F]. destruct r as [|l r]; [contradiction|]. exists (l, r). split; [reflexivity|]. inversion F; subst. split; assumption. }
  rewrite map_map. match goal with |- parse _ ?x = _ => replace x with (glue (minsert_pieces hs s t c0 cs v0 vs)); [|exact (minsert_text hs s t c0 cs v0 vs I V0 Vs)] end.
  apply reads_parse, minsert_any; try assumption. constructor; assumption.
Qed.

Lemma losing entries ws vs : lost ws vs -> parse entries (line ws) = parse entries (line vs) /\ exists s, parse entries (line vs) = Ok [s].
Proof.
  intros [b b' n N|b f F|b t f T F|t T|b ts [N F]|b s ts S [N F]|s n m S N M|u b s i t cs w S I T [N F] W|hs s t cs rows H S T C R].
  - rewrite rollback_to by (apply any_is, N). split; [|eexists]; vm_compute; reflexivity.
  - rewrite (proj1 (vacuum_spelled entries b f (any_is f F))). split; [|eexists]; vm_compute; reflexivity.
  - rewrite (proj2 (vacuum_spelled entries b f (any_is f F)) t (any_is t T)), (proj1 (vacuum_table entries t (any_is t T))). split; [|eexists]; reflexivity.
  - rewrite (proj2 (vacuum_table entries t (any_is t T))), (proj1 (vacuum_table entries t (any_is t T))). split; [|eexists]; reflexivity.
  - destruct ts as [|t ts]; [contradiction|]. apply names_plain in F. inversion F as [|? ? P F']; subst.
    pose proof (drop_line entries b true None t ts ltac:(discriminate) P F') as A. pose proof (drop_line entries b false None t ts ltac:(discriminate) P F') as B.
    cbn [given app] in A, B. destruct b; cbn [given app] in *; rewrite A, B; (split; [|eexists]; reflexivity).
  - destruct ts as [|t ts]; [contradiction|]. apply names_plain in F. inversion F as [|? ? P F']; subst. apply any_is in S.
    pose proof (drop_line entries b false (Some s) t ts ltac:(intros x [= <-]; exact S) P F') as A. pose proof (drop_line entries b false None t ts ltac:(discriminate) P F') as B.
    cbn [given app] in A, B. destruct b; cbn [given app] in *; rewrite A, B; (split; [|eexists]; reflexivity).
  - apply any_is in S, N, M. destruct (database_spelled entries s n m S N M) as [A B]. rewrite A, B. split; [|eexists]; reflexivity.
  - destruct cs as [|c cs]; [contradiction|].
    assert (F' : Forall ix_fine (c :: cs)).
    { revert F. apply Forall_impl. intros [a [x|] d] [A X]; (split; [apply any_is, A|]); [apply any_is, X; reflexivity|exact Logic.I]. }
    assert (F2 : Forall ix_fine (map (fun c => by_name (ix_name c)) (c :: cs))).
    { apply Forall_forall. intros y Y. apply in_map_iff in Y. destruct Y as (z & <- & Z). split; [|exact Logic.I]. exact (proj1 (proj1 (Forall_forall _ _) F' z Z)). }
    clear F. inversion F' as [|? ? C G]; subst. cbn [map] in F2. inversion F2 as [|? ? C2 G2]; subst. apply any_is in I, T.
    assert (S' : forall x, s = Some x -> plain x) by (intros x X; apply any_is, S, X).
    pose proof (reads_parse _ _ _ (index_reads entries false b None i t _ _ ltac:(discriminate) I T C2 G2)) as B. rewrite index_line_glue in B. cbn [map] in B.
    change (by_name (ix_name c) :: map (fun c => by_name (ix_name c)) cs) with (map (fun c => by_name (ix_name c)) (c :: cs)) in B.
    assert (E : index_made b i t (map (fun c => by_name (ix_name c)) (c :: cs)) = index_made b i t (c :: cs)) by (unfold index_made; rewrite map_map; reflexivity).
    rewrite E in B. rewrite B. destruct w as [e|].
    + destruct (condition_back e W) as (ps & d & Gl & Gd & Sd & Cd & _).
      pose proof (reads_parse _ _ _ (index_where_reads entries u b s i t c cs ps d S' I T C G Gd Sd Cd)) as A. rewrite index_line_glue in A. cbn [map] in A. change (glue (kw ["WHERE"])) with "WHERE" in A. rewrite Gl, <- (condition_as e W) in A.
      rewrite A. split; [|eexists]; reflexivity.
    + pose proof (reads_parse _ _ _ (index_reads entries u b s i t c cs S' I T C G)) as A. rewrite index_line_glue in A. cbn [map] in A.
      rewrite A. split; [|eexists]; reflexivity.
  - apply conflict_heads in H. assert (S' : forall x, s = Some x -> plain x) by (intros x X; apply any_is, S, X).
    rewrite (insert_line_parse entries hs s t cs rows H S' (any_is t T) C R), (insert_line_parse entries ["INSERT"] None t cs rows (or_introl eq_refl) ltac:(discriminate) (any_is t T) C R).
    split; [|eexists]; reflexivity.
Qed.
