(** Reading back printed statements: several in one text. *)
From Coq Require Import Lia Permutation.
From Verif Require Import GoBase ModelUtil ModelNum ModelFn ModelQuery ModelEbnf ModelGrammar ModelLex ModelVisitor
  SpecFn SpecQuery SpecParse SpecRound SpecBatch FactsBase ProofEbnf ProofMachine ProofFn ProofNum ProofQuery ProofParse ProofLex ProofRound ProofRound2 ProofRound3
  ProofRound4 ProofRound12.

(** ** The parser *)

Definition scol : token := mkTok "SCOL" ";".
Definition scols (n : nat) : list token := repeat scol n.
Definition scolc (n : nat) : children := repeat (""%string, Leaf scol) n.
Lemma star_scols n : forall k t tl r, tk t <> "SCOL"%string -> k (scolc n) (t :: tl) = Found r -> R (Star (Tok "SCOL")) (scols n ++ t :: tl) k = Found r.
Proof.
  induction n as [|n IH]; intros k t tl r N H; rewrite R_star by reflexivity; rewrite R_tok.
  - cbn [scols repeat app]. destruct (String.eqb (tk t) "SCOL") eqn:E; [apply String.eqb_eq in E; contradiction|]. exact H.
  - cbn [scols repeat app tk scol]. cbn [String.eqb Ascii.eqb Bool.eqb]. change (repeat scol n) with (scols n).
    pose proof (IH (fun cb r' => k ([(""%string, Leaf scol)] ++ cb) r') t tl r N H) as X.
    match goal with |- match ?e with _ => _ end = _ => assert (e = Found r) as -> by exact X end. reflexivity.
Qed.
Definition more : gram := Star (Seq (Seq (Tok "SCOL") (Star (Tok "SCOL"))) (Rule "sql_stmt" 0)).
Lemma more_ok : okg more = true.
Proof. vm_compute. reflexivity. Qed.
Lemma more_body_ok : okg (Seq (Seq (Tok "SCOL") (Star (Tok "SCOL"))) (Rule "sql_stmt" 0)) = true.
Proof. vm_compute. reflexivity. Qed.
Lemma law_more k : law (Some stmt_follow) k -> law (Some stmt_follow) (fun ca r => R more r (fun cb r' => k (ca ++ cb) r')).
Proof.
  intros K cs t ts N. unfold more. rewrite R_star by exact more_ok. rewrite R_seq by exact more_body_ok. rewrite R_seq by reflexivity. rewrite R_tok.
  destruct (String.eqb (tk t) "SCOL") eqn:E; [apply String.eqb_eq in E; destruct N; rewrite E; vm_compute; tauto|]. apply K. exact N.
Qed.
Lemma no_stmt_at t tl k : ~ In (tk t) stmt_follow \/ tk t = "SCOL"%string \/ tk t = "EOF"%string -> R (Rule "sql_stmt" 0) (t :: tl) k = NotFound.
Proof.
  intro H. assert (F : exists ks, firsts None 2000 (MEval (Rule "sql_stmt" 0)) [] = Some ks /\ incl ks (filter (fun x => negb (String.eqb x "SCOL" || String.eqb x "EOF")) stmt_follow)).
  { assert (B : match firsts None 2000 (MEval (Rule "sql_stmt" 0)) [] with
      Some ks => forallb (fun x => existsb (String.eqb x) (filter (fun x => negb (String.eqb x "SCOL" || String.eqb x "EOF")) stmt_follow)) ks | None => false end = true)
      by (vm_compute; reflexivity).
    destruct (firsts None 2000 (MEval (Rule "sql_stmt" 0)) []) as [ks|]; [|discriminate]. exists ks. split; [reflexivity|].
    intros x X. rewrite forallb_forall in B. apply B in X. apply existsb_exists in X. destruct X as (y & Y & E). apply String.eqb_eq in E. subst y. exact Y. }
  destruct F as (ks & F & J). enter.
  refine (firsts_sound k None I 2000 (MEval (Rule "sql_stmt" 0)) [] ks F _ t tl _); [vm_compute; reflexivity|].
  intro X. apply J in X. apply filter_In in X. destruct X as [X Y]. destruct H as [H|[H|H]]; [contradiction|rewrite H in Y; discriminate..].
Qed.

(** at the end there is no further statement, however many semicolons there are *)
Lemma no_more n t tl k : tk t = "EOF"%string -> R (Seq (Seq (Tok "SCOL") (Star (Tok "SCOL"))) (Rule "sql_stmt" 0)) (scols n ++ t :: tl) k = NotFound.
Proof.
  intro E. rewrite R_seq by exact more_body_ok. rewrite R_seq by reflexivity. rewrite R_tok. destruct n as [|n]; cbn [scols repeat app].
  - rewrite E. reflexivity.
  - cbn [tk scol String.eqb Ascii.eqb Bool.eqb]. change (repeat scol n) with (scols n).
    assert (G : forall n kk, (forall cs u ul, tk u = "SCOL"%string \/ tk u = "EOF"%string -> kk cs (u :: ul) = NotFound) -> R (Star (Tok "SCOL")) (scols n ++ t :: tl) kk = NotFound).
    { clear -E. induction n as [|n IH]; intros kk K; rewrite R_star by reflexivity; rewrite R_tok; cbn [scols repeat app].
      - rewrite E. cbn [String.eqb Ascii.eqb Bool.eqb]. apply K. right. exact E.
      - cbn [tk scol String.eqb Ascii.eqb Bool.eqb]. change (repeat scol n) with (scols n). rewrite IH; [apply K; left; reflexivity|].
        intros cs u ul U. apply K. exact U. }
    apply G. intros cs u ul U. apply no_stmt_at. tauto.
Qed.

(** one more statement: so many semicolons before it, its tokens, its tree *)
Record item := mkItem { it_gap : nat; it_toks : list token; it_tree : tree }.
Definition item_toks (i : item) : list token := scols (it_gap i) ++ it_toks i.
Definition item_children (i : item) : children := scolc (it_gap i) ++ [(""%string, it_tree i)].
Definition item_ok (i : item) : Prop := heads starts (it_toks i) /\ stmt_reads (it_toks i) (it_tree i).
Definition items_toks (l : list item) : list token := flat_map item_toks l.
Definition items_children (l : list item) : children := flat_map item_children l.
Lemma items_children_cons i l : items_children (i :: l) = scolc (it_gap i) ++ (""%string, it_tree i) :: items_children l.
Proof. unfold items_children. cbn [flat_map]. fold (items_children l). unfold item_children. rewrite <- app_assoc. reflexivity. Qed.
Lemma starts_not_scol t ts : heads starts (t :: ts) -> tk t <> "SCOL"%string.
Proof. intros H E. cbn [heads] in H. rewrite E in H. vm_compute in H. repeat destruct H as [H|H]; discriminate || contradiction. Qed.
Definition tail_toks (m : nat) (l : list item) (e : token) : list token := items_toks l ++ scols m ++ [e].
Lemma tail_heads m l e : Forall (fun i => 0 < it_gap i) l -> tk e = "EOF"%string -> heads stmt_ends (tail_toks m l e).
Proof.
  intros F E. destruct l as [|i l].
  - destruct m; cbn; [rewrite E|]; tauto.
  - inversion F as [|? ? G _]; subst. unfold tail_toks, items_toks. cbn [flat_map]. unfold item_toks. destruct (it_gap i); [lia|]. left. reflexivity.
Qed.
Lemma more_reads m e l : tk e = "EOF"%string -> Forall (fun i => item_ok i /\ 0 < it_gap i) l ->
  forall k, law (Some stmt_follow) k -> forall r, k (items_children l) (scols m ++ [e]) = Found r -> R more (tail_toks m l e) k = Found r.
Proof.
  intros E F. induction F as [|i l [O G] F IH]; intros k K r H; unfold more; rewrite R_star by exact more_ok.
  - unfold tail_toks. cbn [items_toks flat_map app]. rewrite no_more by exact E. exact H.
  - fold more. unfold tail_toks, items_toks. cbn [flat_map]. fold (items_toks l). unfold item_toks. rewrite <- !app_assoc. fold (tail_toks m l e).
    rewrite R_seq by exact more_body_ok. rewrite R_seq by reflexivity. rewrite R_tok.
    destruct (it_gap i) as [|n] eqn:Eg; [lia|]. cbn [scols repeat app tk scol String.eqb Ascii.eqb Bool.eqb]. change (repeat scol n) with (scols n). fold scol.
    destruct O as [S Rd]. destruct (it_toks i) as [|t ts] eqn:Et; [contradiction|].
    match goal with |- match ?x with _ => _ end = _ => assert (x = Found r) as ->; [|reflexivity] end.
    change ((t :: ts) ++ tail_toks m l e) with (t :: (ts ++ tail_toks m l e)).
    apply star_scols; [exact (starts_not_scol _ _ S)|].
    change (t :: (ts ++ tail_toks m l e)) with ((t :: ts) ++ tail_toks m l e).
    refine (Rd _ _ _ _ _ _).
    + intros cs u us N. exact (law_more k K ((""%string, Leaf scol) :: scolc n ++ cs) u us N).
    + apply tail_heads; [|exact E]. revert F. apply Forall_impl. intros x [_ X]. exact X.
    + apply IH; [intros cs u us N; apply K; exact N|]. rewrite <- H. f_equal.
      rewrite items_children_cons, Eg. cbn [scolc repeat app]. rewrite <- ?app_assoc. reflexivity.
Qed.

Definition batch_children (n : nat) (T : tree) (l : list item) (m : nat) : children :=
  scolc n ++ (""%string, T) :: items_children l ++ scolc m.
Lemma no_list t tl k : tk t = "EOF"%string -> R (Rule "sql_stmt_list" 0) (t :: tl) k = NotFound.
Proof.
  intro E. destruct t as [kd tx]. cbn [tk] in E. subst kd. enter.
  exact (may_false k None I 2000 (MEval (Rule "sql_stmt_list" 0)) [mkTok "EOF" tx] [] eq_refl eq_refl tl).
Qed.
Definition after_list (cs : children) (r : list token) : outcome :=
  R (Star (Rule "sql_stmt_list" 0)) r (fun cb0 r0 => R (Tok "EOF") r0 (fun cb1 r1 =>
    at_end [(""%string, Node "parse" (([(""%string, Node "sql_stmt_list" cs)] ++ cb0) ++ cb1))] r1)).
Lemma no_list_at t tl k : ~ In (tk t) stmt_follow -> R (Rule "sql_stmt_list" 0) (t :: tl) k = NotFound.
Proof.
  intro H. assert (F : exists ks, firsts None 2000 (MEval (Rule "sql_stmt_list" 0)) [] = Some ks /\ incl ks stmt_follow).
  { assert (B : match firsts None 2000 (MEval (Rule "sql_stmt_list" 0)) [] with
      Some ks => forallb (fun x => existsb (String.eqb x) stmt_follow) ks | None => false end = true)
      by (vm_compute; reflexivity).
    destruct (firsts None 2000 (MEval (Rule "sql_stmt_list" 0)) []) as [ks|]; [|discriminate]. exists ks. split; [reflexivity|].
    intros x X. rewrite forallb_forall in B. apply B in X. apply existsb_exists in X. destruct X as (y & Y & E). apply String.eqb_eq in E. subst y. exact Y. }
  destruct F as (ks & F & J). enter.
  refine (firsts_sound k None I 2000 (MEval (Rule "sql_stmt_list" 0)) [] ks F _ t tl _); [vm_compute; reflexivity|].
  intro X. apply J in X. contradiction.
Qed.
Lemma law_after_list f : law (Some stmt_follow) (fun cs r => R (Star (Tok "SCOL")) r (fun cb r' => after_list (f (cs ++ cb)) r')).
Proof.
  intros cs t ts N. rewrite R_star by reflexivity. rewrite R_tok.
  destruct (String.eqb (tk t) "SCOL") eqn:E; [apply String.eqb_eq in E; destruct N; rewrite E; vm_compute; tauto|].
  unfold after_list. rewrite R_star by (vm_compute; reflexivity). rewrite no_list_at by exact N. rewrite R_tok.
  destruct (String.eqb (tk t) "EOF") eqn:E'; [apply String.eqb_eq in E'; destruct N; rewrite E'; vm_compute; tauto|]. reflexivity.
Qed.
Lemma batch_tree n toks T l m tx : heads starts toks -> stmt_reads toks T -> Forall (fun i => item_ok i /\ 0 < it_gap i) l ->
  parse_tree (scols n ++ toks ++ tail_toks m l (mkTok "EOF" tx)) =
  Found [(""%string, Node "parse" [(""%string, Node "sql_stmt_list" (batch_children n T l m)); (""%string, Leaf (mkTok "EOF" tx))])].
Proof.
  intros S Rd F. set (e := mkTok "EOF" tx). rewrite parse_R. rewrite R_rule by reflexivity. change (rule "parse" 0) with g_parse. unfold g_parse. cbn [seq].
  rewrite R_seq by (vm_compute; reflexivity). rewrite R_star by (vm_compute; reflexivity). rewrite R_rule by (vm_compute; reflexivity).
  change (rule "sql_stmt_list" 0) with g_sql_stmt_list. unfold g_sql_stmt_list. cbn [seq].
  match goal with |- match ?x with _ => _ end = ?o => assert (x = o) as ->; [|reflexivity] end.
  rewrite R_seq by (vm_compute; reflexivity). destruct toks as [|t ts]; [contradiction|].
  change ((t :: ts) ++ tail_toks m l e) with (t :: (ts ++ tail_toks m l e)).
  apply star_scols; [exact (starts_not_scol _ _ S)|].
  change (t :: (ts ++ tail_toks m l e)) with ((t :: ts) ++ tail_toks m l e).
  rewrite R_seq by (vm_compute; reflexivity).
  assert (Tl : heads stmt_ends (tail_toks m l e)) by (apply tail_heads; [|reflexivity]; revert F; apply Forall_impl; intros x [_ X]; exact X).
  change (Star (Seq (Plus (Tok "SCOL")) (Rule "sql_stmt" 0))) with more.
  assert (Q : okg (Seq more (Star (Tok "SCOL"))) = true) by (vm_compute; reflexivity).
  refine (Rd (fun ca r => R (Seq more (Star (Tok "SCOL"))) r (fun cb r' => after_list (scolc n ++ ca ++ cb) r')) _ _ _ Tl _).
  - intros cs u us N. rewrite R_seq by exact Q.
    refine (law_more (fun ca r => R (Star (Tok "SCOL")) r (fun cb r' => after_list (scolc n ++ cs ++ ca ++ cb) r')) _ [] u us N).
    exact (law_after_list (fun x => scolc n ++ cs ++ x)).
  - rewrite R_seq by exact Q.
    refine (more_reads m e l eq_refl F (fun ca r => R (Star (Tok "SCOL")) r (fun cb r' => after_list (scolc n ++ [(""%string, T)] ++ ca ++ cb) r')) _ _ _).
    + exact (law_after_list (fun x => scolc n ++ [(""%string, T)] ++ x)).
    + apply star_scols; [discriminate|]. unfold after_list. rewrite R_star by (vm_compute; reflexivity). rewrite no_list by reflexivity. rewrite R_tok.
      reflexivity.
Qed.

(** ** The tree of a statement is one *)

Definition only_eof (cs : children) (r : list token) : outcome :=
  match r with [t] => if String.eqb (tk t) "EOF" then Found cs else NotFound | _ => NotFound end.
Lemma stmt_tree toks T : stmt_reads toks T -> is_rule "sql_stmt" T = true.
Proof.
  intro Rd. assert (L : law (Some stmt_follow) only_eof).
  { intros cs t ts N. destruct ts; [|reflexivity]. unfold only_eof. destruct (String.eqb (tk t) "EOF") eqn:E; [|reflexivity].
    apply String.eqb_eq in E. destruct N. rewrite E. vm_compute. tauto. }
  assert (H : R (Rule "sql_stmt" 0) (toks ++ [eof]) only_eof = Found [(""%string, T)]) by (apply (Rd only_eof L [eof]); [right; left; reflexivity|reflexivity]).
  apply run_sound in H. destruct H as (w & ds & rest & _ & D & K). destruct (derives_rule_inv _ _ _ _ D) as (es & -> & _).
  unfold only_eof in K. destruct rest as [|t [|]]; [discriminate| |discriminate]. destruct (String.eqb (tk t) "EOF"); [|discriminate].
  injection K as <-. reflexivity.
Qed.

(** ** What is around the statements *)

Definition gap_piece (c : ascii) : piece := if Ascii.eqb c ";" then sc else PSym "SPACES" (String c "").
Definition gap_pieces (s : string) : list piece := map gap_piece (list_ascii_of_string s).
Fixpoint semicolons (s : string) : nat :=
  match s with EmptyString => 0 | String c r => (if Ascii.eqb c ";" then 1 else 0) + semicolons r end.
Lemma glue_gap s : glue (gap_pieces s) = s.
Proof.
  unfold gap_pieces. induction s as [|c s IH]; [reflexivity|]. cbn [list_ascii_of_string map]. rewrite glue_cons, IH.
  unfold gap_piece. destruct (Ascii.eqb c ";") eqn:E; [apply Ascii.eqb_eq in E; subst c|]; reflexivity.
Qed.
Lemma shown_gap s : shown (gap_pieces s) = scols (semicolons s).
Proof.
  unfold gap_pieces. induction s as [|c s IH]; [reflexivity|]. cbn [list_ascii_of_string map]. change (gap_piece c :: ?l) with ([gap_piece c] ++ l).
  rewrite shown_app, IH. unfold gap_piece. cbn [semicolons]. destruct (Ascii.eqb c ";"); reflexivity.
Qed.
Lemma gap_char c : blank_char c \/ c = ";"%char -> exists k t, gap_piece c = PSym k t /\ ok_piece (PSym k t) = true /\ tight k = true.
Proof.
  intros [H| ->]; [|exists "SCOL"%string, ";"%string; repeat split].
  assert (E : c = ascii_of_nat (nat_of_ascii c)) by (rewrite ascii_nat_embedding; reflexivity).
  unfold blank_char in H. cbn [In] in H. destruct H as [H|[H|[H|[H|[]]]]]; rewrite <- H in E; subst c; eexists _, _; repeat split.
Qed.
Lemma gap_cons c s : gap (String c s) -> (blank_char c \/ c = ";"%char) /\ gap s.
Proof. intro G. split; [apply G; left; reflexivity|]. intros d D. apply G. right. exact D. Qed.
Lemma good_gap s b : gap s -> good b -> good (gap_pieces s ++ b).
Proof.
  unfold gap_pieces. induction s as [|c s IH]; intros G B; [exact B|]. destruct (gap_cons _ _ G) as [C G']. cbn [list_ascii_of_string map app].
  destruct (gap_char c C) as (k & t & -> & O & T). apply good_tight; auto.
Qed.
Lemma good_app_gap a s b : good a -> gap s -> s <> ""%string \/ b = [] -> good b -> good (a ++ gap_pieces s ++ b).
Proof.
  intros A G N B. destruct s as [|c s].
  - destruct N as [N| ->]; [contradiction|]. cbn. rewrite app_nil_r. exact A.
  - pose proof (good_gap _ b G B) as H. destruct (gap_cons _ _ G) as [C _]. unfold gap_pieces in *. cbn [list_ascii_of_string map app] in *.
    destruct (gap_char c C) as (k & t & E & O & T). rewrite E in *. apply good_app; assumption.
Qed.
Lemma separator_some s : separator s -> 0 < semicolons s.
Proof.
  intros [_ H]. induction s as [|c s IH]; [contradiction|]. cbn [semicolons]. destruct H as [->|H]; [cbn; lia|]. specialize (IH H). lia.
Qed.

(** ** The pieces of a batch *)

Record part := mkPart { pt_gap : string; pt_pieces : list piece; pt_tree : tree; pt_stmt : stmt }.
Definition part_item (p : part) : item := mkItem (semicolons (pt_gap p)) (shown (pt_pieces p)) (pt_tree p).
Definition parts_pieces (l : list part) : list piece := flat_map (fun p => gap_pieces (pt_gap p) ++ pt_pieces p) l.
Definition part_ok (entries : list (dtype * string)) (p : part) : Prop :=
  good (pt_pieces p) /\ heads starts (shown (pt_pieces p)) /\ stmt_reads (shown (pt_pieces p)) (pt_tree p)
  /\ v_statement entries (pt_tree p) = Ok (Some (pt_stmt p)).
Definition more_part (p : part) : Prop := separator (pt_gap p).

Lemma batch_parts entries : Permutation entries data_type_strings -> forall ss text, batch ss text ->
  exists p ps after, part_ok entries p /\ Forall (fun q => part_ok entries q /\ more_part q) ps /\ gap after
    /\ ss = map pt_stmt (p :: ps) /\ pt_gap p = ""%string /\ text = glue (pt_pieces p ++ parts_pieces ps ++ gap_pieces after).
Proof.
  intros P ss text B. induction B as [s q after S Q G|s q sep ss r S Q Sep B (p & ps & after & O & F & G & -> & Z & ->)].
  - destruct (supported_back entries s P S) as (l & E & A & H & T & Rd & V). rewrite E in Q. injection Q as <-.
    exists (mkPart "" l T s), [], after. split; [exact (conj A (conj H (conj Rd V)))|]. split; [constructor|]. split; [exact G|]. split; [reflexivity|]. split; [reflexivity|].
    cbn [pt_pieces parts_pieces flat_map app]. rewrite glue_app, glue_gap. reflexivity.
  - destruct (supported_back entries s P S) as (l & E & A & H & T & Rd & V). rewrite E in Q. injection Q as <-.
    exists (mkPart "" l T s), (mkPart sep (pt_pieces p) (pt_tree p) (pt_stmt p) :: ps), after. split; [exact (conj A (conj H (conj Rd V)))|].
    split; [constructor; [split; [exact O|exact Sep]|exact F]|]. split; [exact G|]. split; [reflexivity|]. split; [reflexivity|].
    cbn [pt_pieces pt_gap parts_pieces flat_map]. fold (parts_pieces ps). rewrite !glue_app, !glue_gap. rewrite !sapp_assoc. reflexivity.
Qed.
Lemma good_parts entries ps after : Forall (fun q => part_ok entries q /\ more_part q) ps -> gap after ->
  forall a, good a -> good (a ++ parts_pieces ps ++ gap_pieces after).
Proof.
  intros F G. induction F as [|p ps [O M] F IH]; intros a A.
  - cbn [parts_pieces flat_map app]. rewrite <- (app_nil_r (gap_pieces after)). apply good_app_gap; [exact A|exact G|right; reflexivity|apply good_nil].
  - cbn [parts_pieces flat_map]. fold (parts_pieces ps). rewrite <- app_assoc. rewrite <- app_assoc. apply good_app_gap; [exact A|apply M| |apply IH; apply O].
    left. intro E. destruct M as [_ M]. rewrite E in M. contradiction.
Qed.
Lemma shown_parts ps : shown (parts_pieces ps) = items_toks (map part_item ps).
Proof.
  induction ps as [|p ps IH]; [reflexivity|]. cbn [parts_pieces flat_map map items_toks]. fold (parts_pieces ps) (items_toks (map part_item ps)).
  rewrite !shown_app, shown_gap, IH. reflexivity.
Qed.
Lemma named_scolc n : named "sql_stmt" (scolc n) = [].
Proof. induction n as [|n IH]; [reflexivity|exact IH]. Qed.
Lemma named_items entries ps : Forall (fun q => part_ok entries q /\ more_part q) ps -> named "sql_stmt" (items_children (map part_item ps)) = map pt_tree ps.
Proof.
  intro F. induction F as [|p ps [O _] F IH]; [reflexivity|]. cbn [map]. rewrite items_children_cons, named_app, named_scolc, named_cons. cbn [it_tree part_item].
  rewrite (stmt_tree _ _ (proj1 (proj2 (proj2 O)))), IH. reflexivity.
Qed.
Lemma collect_parts entries ps : Forall (part_ok entries) ps -> collect (v_statement entries) (map pt_tree ps) = Ok (map (fun p => Some (pt_stmt p)) ps).
Proof.
  intro F. induction F as [|p ps O F IH]; [reflexivity|]. cbn [map collect]. rewrite (proj2 (proj2 (proj2 O))). cbn [rbind]. rewrite IH. reflexivity.
Qed.
Lemma somes_map {A B} (f : A -> B) l : concat (map (fun o => match o with Some s => [s] | None => [] end) (map (fun p => Some (f p)) l)) = map f l.
Proof. induction l as [|a l IH]; [reflexivity|]. cbn [map concat app]. rewrite IH. reflexivity. Qed.

Lemma parts_back entries lead p ps after : gap lead -> part_ok entries p -> Forall (fun q => part_ok entries q /\ more_part q) ps -> gap after ->
  parse entries (lead ++ glue (pt_pieces p ++ parts_pieces ps ++ gap_pieces after)) = Ok (map pt_stmt (p :: ps)).
Proof.
  intros L O F G.
  set (all := gap_pieces lead ++ pt_pieces p ++ parts_pieces ps ++ gap_pieces after).
  assert (E : (lead ++ glue (pt_pieces p ++ parts_pieces ps ++ gap_pieces after))%string = glue all) by (unfold all; rewrite (glue_app (gap_pieces lead)), glue_gap; reflexivity).
  assert (Gd : good all) by (apply good_gap; [exact L|]; apply (good_parts entries); [exact F|exact G|apply O]).
  assert (St : token_stream (glue all) = scols (semicolons lead) ++ shown (pt_pieces p) ++ tail_toks (semicolons after) (map part_item ps) eof).
  { rewrite stream_pieces by apply Gd. unfold all. rewrite !shown_app, !shown_gap, shown_parts. unfold tail_toks. rewrite <- !app_assoc. reflexivity. }
  rewrite E. unfold parse, parse_string.
  assert (N : (String.eqb (glue all) "" || String.eqb (glue all) ";") = false).
  { destruct O as (_ & H & _). destruct (shown (pt_pieces p)) as [|t ts] eqn:Et; [contradiction|]. pose proof (starts_not_scol _ _ H) as Ns.
    assert (In t (token_stream (glue all))) as X by (rewrite St; apply in_or_app; right; left; reflexivity).
    assert (tk t <> "EOF"%string) as Ne. { intro Y. cbn [heads] in H. rewrite Y in H. vm_compute in H. repeat destruct H as [H|H]; discriminate || contradiction. }
    destruct (String.eqb (glue all) "") eqn:E1; [|destruct (String.eqb (glue all) ";") eqn:E2; [|reflexivity]]; exfalso.
    - apply String.eqb_eq in E1. rewrite E1 in X. vm_compute in X. destruct X as [<-|[]]. apply Ne. reflexivity.
    - apply String.eqb_eq in E2. rewrite E2 in X. vm_compute in X. destruct X as [<-|[<-|[]]]; [apply Ns|apply Ne]; reflexivity. }
  rewrite N, St. change eof with (mkTok "EOF" "<EOF>"). rewrite (batch_tree _ _ (pt_tree p)); [|apply O|apply O|].
  2:{ rewrite Forall_map. revert F. apply Forall_impl. intros q [(_ & H & Rd & _) M]. split; [exact (conj H Rd)|]. exact (separator_some _ M). }
  cbn [fst]. unfold v_parse. rewrite !subs_node. rewrite !named_cons. cbn [is_rule String.eqb Ascii.eqb Bool.eqb named map filter concat app].
  rewrite subs_node. unfold batch_children. rewrite named_app, named_scolc, named_cons, (stmt_tree _ _ (proj1 (proj2 (proj2 O)))), named_app, named_scolc, (named_items entries) by exact F.
  cbn [app]. rewrite !app_nil_r. change (pt_tree p :: map pt_tree ps) with (map pt_tree (p :: ps)).
  rewrite collect_parts; [|constructor; [exact O|revert F; apply Forall_impl; intros q [Q _]; exact Q]].
  cbn [rbind]. rewrite somes_map. reflexivity.
Qed.
Theorem batch_back entries lead ss text : Permutation entries data_type_strings -> gap lead -> batch ss text ->
  parse entries (lead ++ text) = Ok ss.
Proof.
  intros P L B. destruct (batch_parts entries P ss text B) as (p & ps & after & O & F & G & -> & _ & ->). apply parts_back; assumption.
Qed.

Lemma reads_parse entries ps s : reads_as entries ps s -> parse entries (glue ps) = Ok [s].
Proof.
  intros (G & H & T & Rd & V).
  pose proof (parts_back entries "" (mkPart "" ps T s) [] "" (fun c X => match X with end) (conj G (conj H (conj Rd V))) (Forall_nil _) (fun c X => match X with end)) as B.
  cbn [pt_pieces parts_pieces flat_map gap_pieces list_ascii_of_string map app pt_stmt append] in B. rewrite app_nil_r in B. exact B.
Qed.
