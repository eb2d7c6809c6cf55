(** Words before a statement that the visitor does not look at. *)
From Verif Require Import GoBase ModelFn ModelEbnf ModelGrammar ModelLex ModelVisitor SpecRound ProofEbnf ProofMachine ProofParse ProofLex ProofRound ProofRound2
  ProofRound3 ProofRound4 ProofTest5 ProofStart.
Local Open Scope string_scope.
Local Open Scope list_scope.

(** ** Outcomes that differ in the trees only *)
Section Alike.
  Context (P : children -> children -> Prop).
  Definition alike (o o' : outcome) : Prop :=
    match o, o' with Found a, Found b => P a b | NotFound, NotFound | OutOfFuel, OutOfFuel => True | _, _ => False end.
  Lemma run_alike rl n : forall g ts k k', (forall cs r, alike (k cs r) (k' cs r)) -> alike (run rl n g ts k) (run rl n g ts k').
  Proof.
    induction n as [|n IH]; [intros; exact I|]. induction g as [| |kd|nm p|a IHa b IHb|a IHa b IHb|a IHa|a IHa|l a IHa|nm a IHa b IHb|a IHa]; intros ts k k' K; rewrite (run_S _ _ _ _ k), (run_S _ _ _ _ k').
    - apply K.
    - exact I.
    - destruct ts as [|t ts]; [exact I|]. destruct (String.eqb (tk t) kd); [apply K|exact I].
    - apply IH. intros. apply K.
    - apply IHa. intros. apply IHb. intros. apply K.
    - pose proof (IHa ts k k' K) as A. pose proof (IHb ts k k' K) as B. destruct (run rl (S n) a ts k), (run rl (S n) a ts k'); try contradiction A; assumption.
    - match goal with |- alike (match ?x with _ => _ end) (match ?y with _ => _ end) => assert (A : alike x y) by (apply IHa; intros; apply IH; intros; apply K); destruct x, y end;
        try contradiction A; [exact A|apply K|exact A].
    - pose proof (K [] ts) as A. destruct (k [] ts), (k' [] ts); try contradiction A; [exact A| |exact A]. apply IHa. intros. apply IH. intros. apply K.
    - apply IHa. intros. apply K.
    - apply IHa. intros. apply IH. intros. apply K.
    - apply IHa. intros. apply K.
  Qed.
  Lemma R_alike g ts k k' : (forall cs r, alike (k cs r) (k' cs r)) -> alike (R g ts k) (R g ts k').
  Proof. apply run_alike. Qed.
End Alike.

(** ** The beginning of a text *)
Definition bodies : gram := Eval cbv [g_sql_stmt seq] in match g_sql_stmt with Seq _ b => b | _ => Fail end.
Definition more : gram := Star (seq [Plus (Tok "SCOL"); Rule "sql_stmt" 0]).
Lemma more_ok : okg more = true. Proof. vm_compute. reflexivity. Qed.

Ltac nothing := match goal with |- match ?x with _ => _ end = ?y => change y with x; destruct x; reflexivity end.
Ltac differs := rewrite R_tok; match goal with |- context[String.eqb ?a ?b] => destruct (String.eqb a b) eqn:Q_; [apply String.eqb_eq in Q_; contradiction|]; clear Q_ end.

Lemma R_first t ts k : tk t <> "EOF" ->
  R (Rule "parse" 0) (t :: ts) k = R (Rule "sql_stmt_list" 0) (t :: ts) (fun ca r => R (Star (Rule "sql_stmt_list" 0)) r (fun cb r' => R (Tok "EOF") r' (fun cd r'' =>
    k [(""%string, Node "parse" ((ca ++ cb) ++ cd))] r''))).
Proof.
  intros N. rewrite R_rule by (vm_compute; reflexivity). change (rule "parse" 0) with (Seq (Star (Rule "sql_stmt_list" 0)) (Tok "EOF")).
  rewrite R_seq by (vm_compute; reflexivity). rewrite R_star by (vm_compute; reflexivity).
  assert (X : R (Tok "EOF") (t :: ts) (fun cb r' => k [(""%string, Node "parse" ([] ++ cb))] r') = NotFound) by (differs; reflexivity).
  rewrite X. nothing.
Qed.
Lemma R_list t ts k : tk t <> "SCOL" ->
  R (Rule "sql_stmt_list" 0) (t :: ts) k = R (Rule "sql_stmt" 0) (t :: ts) (fun ca r => R (Seq more (Star (Tok "SCOL"))) r (fun cb r' =>
    k [(""%string, Node "sql_stmt_list" (ca ++ cb))] r')).
Proof.
  intros N. rewrite R_rule by (vm_compute; reflexivity). change (rule "sql_stmt_list" 0) with (Seq (Star (Tok "SCOL")) (Seq (Rule "sql_stmt" 0) (Seq more (Star (Tok "SCOL"))))).
  rewrite R_seq by (vm_compute; reflexivity). rewrite R_star by (vm_compute; reflexivity). differs.
  rewrite R_seq by (vm_compute; reflexivity). reflexivity.
Qed.
Definition explained : gram := Opt (seq [Tok "EXPLAIN_"; Opt (seq [Tok "QUERY_"; Tok "PLAN_"])]).
Lemma stmt_rule : rule "sql_stmt" 0 = Seq explained bodies. Proof. reflexivity. Qed.
Lemma bodies_ok : okg bodies = true. Proof. vm_compute. reflexivity. Qed.
Lemma R_plain t ts k : tk t <> "EXPLAIN_" ->
  R (Rule "sql_stmt" 0) (t :: ts) k = R bodies (t :: ts) (fun ca r => k [(""%string, Node "sql_stmt" ca)] r).
Proof.
  intros N. rewrite R_rule by (vm_compute; reflexivity). rewrite stmt_rule. rewrite R_seq by (vm_compute; reflexivity). unfold explained, Opt. cbn [seq].
  rewrite R_alt by (vm_compute; reflexivity). rewrite R_seq by (vm_compute; reflexivity). differs. rewrite R_eps. reflexivity.
Qed.
Lemma no_body x ts k : R bodies (mkTok "EXPLAIN_" x :: ts) k = NotFound.
Proof. exact (may_false k None I 5000 (MEval bodies) [mkTok "EXPLAIN_" x] [] ltac:(vm_compute; reflexivity) ltac:(vm_compute; reflexivity) ts). Qed.
Lemma R_explain x t ts k : tk t <> "QUERY_" ->
  R (Rule "sql_stmt" 0) (mkTok "EXPLAIN_" x :: t :: ts) k = R bodies (t :: ts) (fun ca r => k [(""%string, Node "sql_stmt" ((""%string, Leaf (mkTok "EXPLAIN_" x)) :: ca))] r).
Proof.
  intros N. rewrite R_rule by (vm_compute; reflexivity). rewrite stmt_rule. rewrite R_seq by (vm_compute; reflexivity). unfold explained, Opt. cbn [seq].
  rewrite R_alt by (vm_compute; reflexivity). rewrite R_seq by (vm_compute; reflexivity). rewrite R_tok. cbn [tk]. rewrite String.eqb_refl.
  rewrite R_alt by (vm_compute; reflexivity). rewrite R_seq by (vm_compute; reflexivity). differs. rewrite !R_eps, no_body. nothing.
Qed.
Lemma R_plan x y z t ts k :
  R (Rule "sql_stmt" 0) (mkTok "EXPLAIN_" x :: mkTok "QUERY_" y :: mkTok "PLAN_" z :: t :: ts) k
  = R bodies (t :: ts) (fun ca r => k [(""%string, Node "sql_stmt" ((""%string, Leaf (mkTok "EXPLAIN_" x)) :: (""%string, Leaf (mkTok "QUERY_" y)) :: (""%string, Leaf (mkTok "PLAN_" z)) :: ca))] r).
Proof.
  rewrite R_rule by (vm_compute; reflexivity). rewrite stmt_rule. rewrite R_seq by (vm_compute; reflexivity). unfold explained, Opt. cbn [seq].
  rewrite R_alt by (vm_compute; reflexivity). rewrite R_seq by (vm_compute; reflexivity). rewrite R_tok. cbn [tk]. rewrite String.eqb_refl.
  rewrite R_alt by (vm_compute; reflexivity). rewrite R_seq by (vm_compute; reflexivity). rewrite R_tok. cbn [tk]. rewrite String.eqb_refl.
  rewrite R_tok. cbn [tk]. rewrite String.eqb_refl. rewrite !R_eps, no_body.
  assert (Nq : forall k, R bodies (mkTok "QUERY_" y :: mkTok "PLAN_" z :: t :: ts) k = NotFound).
  { intro k0. exact (may_false k0 None I 5000 (MEval bodies) [mkTok "QUERY_" y] [] ltac:(vm_compute; reflexivity) ltac:(vm_compute; reflexivity) (mkTok "PLAN_" z :: t :: ts)). }
  rewrite Nq. cbn [app]. match goal with |- match match ?x with _ => _ end with _ => _ end = ?y => change y with x; destruct x; reflexivity end.
Qed.

(** ** Leaves before a statement are not looked at *)
Definition leaves (ts : list token) : children := map (fun t => (""%string, Leaf t)) ts.
Lemma subs_leaves q ts cs : forall n, subs q (Node n (leaves ts ++ cs)) = subs q (Node n cs).
Proof. intro n. unfold subs. cbn [kids]. induction ts as [|t ts IH]; [reflexivity|]. cbn [leaves map app snd filter is_rule]. exact IH. Qed.
Lemma statement_leaves entries ts cs : v_statement entries (Node "sql_stmt" (leaves ts ++ cs)) = v_statement entries (Node "sql_stmt" cs).
Proof.
  assert (E : forall q, sub q (Node "sql_stmt" (leaves ts ++ cs)) = sub q (Node "sql_stmt" cs)) by (intro q; unfold sub; rewrite subs_leaves; reflexivity).
  unfold v_statement. rewrite !E. reflexivity.
Qed.
Definition same_meaning entries (a b : children) : Prop := exists t t', a = [(""%string, t)] /\ b = [(""%string, t')] /\ v_parse entries t = v_parse entries t'.
Lemma explain_alike entries pre t ts : tk t <> "EOF" -> tk t <> "SCOL" -> tk t <> "EXPLAIN_" -> tk t <> "QUERY_" ->
  (exists x, pre = [mkTok "EXPLAIN_" x]) \/ (exists x y z, pre = [mkTok "EXPLAIN_" x; mkTok "QUERY_" y; mkTok "PLAN_" z]) ->
  alike (same_meaning entries) (parse_tree (pre ++ t :: ts)) (parse_tree (t :: ts)).
Proof.
  intros E S X Q P. rewrite !parse_R.
  assert (A : forall k, R (Rule "parse" 0) (pre ++ t :: ts) k = R (Rule "sql_stmt_list" 0) (pre ++ t :: ts) (fun ca r => R (Star (Rule "sql_stmt_list" 0)) r (fun cb r' => R (Tok "EOF") r' (fun cd r'' =>
    k [(""%string, Node "parse" ((ca ++ cb) ++ cd))] r'')))) by (intro k; destruct P as [(x & ->)|(x & y & z & ->)]; apply R_first; discriminate).
  assert (B : forall k, R (Rule "sql_stmt_list" 0) (pre ++ t :: ts) k = R (Rule "sql_stmt" 0) (pre ++ t :: ts) (fun ca r => R (Seq more (Star (Tok "SCOL"))) r (fun cb r' =>
    k [(""%string, Node "sql_stmt_list" (ca ++ cb))] r'))) by (intro k; destruct P as [(x & ->)|(x & y & z & ->)]; apply R_list; discriminate).
  assert (C : forall k, R (Rule "sql_stmt" 0) (pre ++ t :: ts) k = R bodies (t :: ts) (fun ca r => k [(""%string, Node "sql_stmt" (leaves pre ++ ca))] r))
    by (intro k; destruct P as [(x & ->)|(x & y & z & ->)]; [apply R_explain, Q|apply R_plan]).
  rewrite A, B, C, (R_first t ts at_end E), (R_list t ts _ S), (R_plain t ts _ X). clear A B C P.
  apply R_alike. intros ca r. apply R_alike. intros cb r'. apply R_alike. intros cc r''. apply R_alike. intros cd [|u us]; [|exact I].
  cbn [at_end alike]. do 2 eexists. split; [reflexivity|]. split; [reflexivity|].
  unfold v_parse. unfold subs at 2 4. cbn [kids app map snd filter is_rule String.eqb Ascii.eqb Bool.eqb].
  cbn [map concat]. unfold subs at 1 3. cbn [kids app map snd filter is_rule String.eqb Ascii.eqb Bool.eqb]. cbn [app collect]. rewrite statement_leaves. reflexivity.
Qed.

(** ** Texts *)
Lemma kind_differs w ws k : is_word w = true -> ~ In (to_upper w) ws -> existsb (String.eqb k) (others ws) = false -> kind_of_word w <> k.
Proof.
  intros W N F E. assert (T : existsb (String.eqb k) (others ws) = true); [|rewrite T in F; discriminate F].
  apply existsb_exists. exists (kind_of_word w). split; [apply kind_others; assumption|]. rewrite E. apply String.eqb_refl.
Qed.
Lemma parse_alike entries a b : a <> "" -> a <> ";" -> b <> "" -> b <> ";" -> alike (same_meaning entries) (parse_tree (token_stream a)) (parse_tree (token_stream b)) ->
  parse entries a = parse entries b.
Proof.
  intros A A' B B' H. unfold parse, parse_string. apply String.eqb_neq in A, A', B, B'. rewrite A, A', B, B'. cbn [orb].
  destruct (parse_tree (token_stream a)) as [x| |], (parse_tree (token_stream b)) as [y| |]; try contradiction H; [|reflexivity|reflexivity].
  destruct H as (t & t' & -> & -> & E). cbn [fst]. exact E.
Qed.
Lemma stream_word w rest : is_word w = true -> token_stream (w ++ " " ++ rest)%string = mkTok (kind_of_word w) w :: token_stream rest.
Proof. intro W. pose proof (stream_before [PWord w] rest (good_word w W)) as E. rewrite glue_one in E. exact E. Qed.
Lemma word_apart w rest : is_word w = true -> (w ++ " " ++ rest)%string <> "" /\ (w ++ " " ++ rest)%string <> ";".
Proof. destruct w as [|c w]; [discriminate|]. intros _. split; [discriminate|]. intro E. injection E as _ E. destruct w; discriminate E. Qed.
Lemma kind_word w u : to_upper w = u -> to_upper u = u -> forall k, kind_of_word u = k -> kind_of_word w = k.
Proof. intros A B k <-. apply kind_same; assumption. Qed.
Lemma explained_same entries ws w rest :
  (exists e, word e /\ to_upper e = "EXPLAIN" /\ ws = [e]) \/ (exists e q p, (word e /\ word q /\ word p) /\ map to_upper [e; q; p] = ["EXPLAIN"; "QUERY"; "PLAN"] /\ ws = [e; q; p]) ->
  word w -> to_upper w <> "EXPLAIN" -> to_upper w <> "QUERY" ->
  parse entries (join " " (ws ++ [w; rest])) = parse entries (join " " [w; rest]).
Proof.
  intros H W X Q. cbn [join]. apply word_is in W. pose proof (word_apart w rest W) as [D D'].
  assert (N : ~ In (to_upper w) ["EXPLAIN"; "QUERY"]) by (cbn [In]; intros [E|[E|[]]]; symmetry in E; contradiction).
  assert (A : forall pre, (exists x, pre = [mkTok "EXPLAIN_" x]) \/ (exists x y z, pre = [mkTok "EXPLAIN_" x; mkTok "QUERY_" y; mkTok "PLAN_" z]) ->
    alike (same_meaning entries) (parse_tree (pre ++ token_stream (w ++ " " ++ rest)%string)) (parse_tree (token_stream (w ++ " " ++ rest)%string))).
  { intros pre P. rewrite (stream_word w rest W). apply explain_alike; [..|exact P]; cbn [tk]; apply (kind_differs w ["EXPLAIN"; "QUERY"]); try assumption; vm_compute; reflexivity. }
  destruct H as [(e & We & Ue & ->)|(e & q & p & (We & Wq & Wp) & U & ->)].
  - apply word_is in We. cbn [app join]. destruct (word_apart e (w ++ " " ++ rest)%string We). apply parse_alike; try assumption.
    rewrite (stream_word e _ We). apply (A [_]). left. exists e. rewrite (kind_word e "EXPLAIN" Ue eq_refl "EXPLAIN_" ltac:(vm_compute; reflexivity)). reflexivity.
  - apply word_is in We, Wq, Wp. cbn [map] in U. injection U as Ue Uq Up. cbn [app join]. destruct (word_apart e (q ++ " " ++ p ++ " " ++ w ++ " " ++ rest)%string We). apply parse_alike; try assumption.
    rewrite (stream_word e _ We), (stream_word q _ Wq), (stream_word p _ Wp). apply (A [_; _; _]). right. exists e, q, p.
    rewrite (kind_word e "EXPLAIN" Ue eq_refl "EXPLAIN_" ltac:(vm_compute; reflexivity)), (kind_word q "QUERY" Uq eq_refl "QUERY_" ltac:(vm_compute; reflexivity)),
      (kind_word p "PLAN" Up eq_refl "PLAN_" ltac:(vm_compute; reflexivity)). reflexivity.
Qed.
