(** A statement that follows another one without a semicolon. *)
From Verif Require Import GoBase ModelUtil ModelFn ModelQuery ModelEbnf ModelGrammar ModelLex ModelVisitor SpecRound SpecSelect SpecParse
  FactsBase ProofFn ProofEbnf ProofMachine ProofParse ProofLex ProofRound ProofRound2 ProofRound3 ProofRound4 ProofTest5 ProofRefuse2 ProofStart ProofExplain ProofType.
Local Open Scope string_scope.
Local Open Scope list_scope.

Lemma R_none ns ts k : okg (alt (map (fun n => Rule n 0) ns)) = true -> (forall n, In n ns -> R (Rule n 0) ts k = NotFound) ->
  R (alt (map (fun n => Rule n 0) ns)) ts k = NotFound.
Proof.
  induction ns as [|a [|b xs] IH]; intros O X; [reflexivity|exact (X a (or_introl eq_refl))|].
  change (alt (map (fun n => Rule n 0) (a :: b :: xs))) with (Alt (Rule a 0) (alt (map (fun n => Rule n 0) (b :: xs)))) in *.
  rewrite (R_alt _ _ _ _ O), (X a (or_introl eq_refl)). exact (IH (proj2 (okg_alt _ _ O)) (fun x Y => X x (or_intror Y))).
Qed.
Lemma R_only target ts k ns : okg (alt (map (fun n => Rule n 0) ns)) = true ->
  (forall n, In n ns -> n = target \/ R (Rule n 0) ts k = NotFound) -> In target ns -> R (alt (map (fun n => Rule n 0) ns)) ts k = R (Rule target 0) ts k.
Proof.
  induction ns as [|n [|m ns] IH]; intros O A I; [contradiction I| |].
  - destruct I as [->|[]]. reflexivity.
  - change (alt (map (fun n => Rule n 0) (n :: m :: ns))) with (Alt (Rule n 0) (alt (map (fun n => Rule n 0) (m :: ns)))) in *.
    rewrite (R_alt _ _ _ _ O). destruct (okg_alt _ _ O) as [_ O']. specialize (IH O' (fun x X => A x (or_intror X))).
    assert (J : In target (m :: ns) \/ R (alt (map (fun n => Rule n 0) (m :: ns))) ts k = NotFound).
    { destruct (in_dec string_dec target (m :: ns)) as [J|J]; [left; exact J|right]. apply R_none; [exact O'|].
      intros x X. destruct (A x (or_intror X)) as [->|Y]; [contradiction|exact Y]. }
    destruct (string_dec n target) as [->|Ne].
    + destruct (R (Rule target 0) ts k) eqn:E; try reflexivity. destruct J as [J|J]; [exact (IH J)|exact J].
    + destruct I as [->|I]; [contradiction Ne; reflexivity|]. destruct (A n (or_introl eq_refl)) as [->|N]; [contradiction Ne; reflexivity|]. rewrite N. exact (IH I).
Qed.
Lemma R_body target l rest k : only_rule target (map tk l) = true -> In target body_names -> R bodies (l ++ rest) k = R (Rule target 0) (l ++ rest) k.
Proof.
  intros O I. rewrite bodies_names. apply R_only; [vm_compute; reflexivity| |exact I].
  intros n J. exact (only_other target _ l rest k n O eq_refl J).
Qed.

Definition use_toks (u n : string) : list token := [mkTok "USE_" u; idt n].
Definition use_node (u n : string) : tree :=
  Node "sql_stmt" [(""%string, Node "use_stmt" [(""%string, Leaf (mkTok "USE_" u)); (""%string, Node "database_name" [(""%string, Node "any_name" [(""%string, Leaf (idt n))])])])].
Definition other_names : gram := Alt (Rule "keyword" 0) (Alt (Tok "STRING_LITERAL") (Seq (Tok "OPEN_PAR") (Seq (Rule "any_name" 0) (Tok "CLOSE_PAR")))).
Lemma no_other n ts k : R other_names (mkTok "IDENTIFIER" n :: ts) k = NotFound.
Proof. exact (may_false k None I 5000 (MEval other_names) [mkTok "IDENTIFIER" n] [] ltac:(vm_compute; reflexivity) ltac:(vm_compute; reflexivity) ts). Qed.
Lemma any_rule : rule "any_name" 0 = Alt (Tok "IDENTIFIER") other_names. Proof. reflexivity. Qed.
Lemma R_use u n ts k : R (Rule "sql_stmt" 0) (use_toks u n ++ ts) k = k [(""%string, use_node u n)] ts.
Proof.
  change (use_toks u n ++ ts) with (mkTok "USE_" u :: idt n :: ts). rewrite R_plain by discriminate.
  change (mkTok "USE_" u :: idt n :: ts) with ([mkTok "USE_" u] ++ idt n :: ts). rewrite (R_body "use_stmt"); [|vm_compute; reflexivity|vm_compute; tauto].
  rewrite R_rule by (vm_compute; reflexivity). change (rule "use_stmt" 0) with (Seq (Tok "USE_") (Rule "database_name" 0)). rewrite R_seq by (vm_compute; reflexivity).
  cbn [app]. rewrite R_tok. cbn [tk String.eqb Ascii.eqb Bool.eqb]. rewrite R_rule by (vm_compute; reflexivity). change (rule "database_name" 0) with (Rule "any_name" 0).
  rewrite R_rule by (vm_compute; reflexivity).
  rewrite any_rule. rewrite R_alt by (vm_compute; reflexivity). rewrite R_tok. unfold idt. cbn [tk]. rewrite String.eqb_refl. rewrite no_other. cbn [app].
  match goal with |- match ?x with _ => _ end = ?y => change y with x; destruct x; reflexivity end.
Qed.
Lemma R_no_more t ts k : tk t <> "SCOL" -> R (Seq more (Star (Tok "SCOL"))) (t :: ts) k = k [] (t :: ts).
Proof.
  intro S. rewrite R_seq by (vm_compute; reflexivity). unfold more. rewrite R_star by (vm_compute; reflexivity). unfold Plus. cbn [seq].
  rewrite R_seq by (vm_compute; reflexivity). rewrite R_seq by (vm_compute; reflexivity). differs. rewrite R_star by (vm_compute; reflexivity). differs. reflexivity.
Qed.
Definition in_front (u n : string) (a b : children) : Prop :=
  exists x, a = [(""%string, Node "parse" ((""%string, Node "sql_stmt_list" [(""%string, use_node u n)]) :: x))] /\ b = [(""%string, Node "parse" x)].
Lemma use_alike u n t ts : tk t <> "SCOL" -> alike (in_front u n) (parse_tree (use_toks u n ++ t :: ts)) (parse_tree (t :: ts)).
Proof.
  intros S. rewrite !parse_R. change (use_toks u n ++ t :: ts) with (mkTok "USE_" u :: (idt n :: t :: ts)). rewrite R_first by discriminate. rewrite R_list by discriminate.
  change (mkTok "USE_" u :: (idt n :: t :: ts)) with (use_toks u n ++ t :: ts). rewrite R_use, (R_no_more t ts _ S).
  rewrite (R_rule "parse") by (vm_compute; reflexivity). change (rule "parse" 0) with (Seq (Star (Rule "sql_stmt_list" 0)) (Tok "EOF")). rewrite (R_seq (Star _)) by (vm_compute; reflexivity).
  apply R_alike. intros ca r. apply R_alike. intros cd [|v vs]; [|exact I]. cbn [at_end alike app]. exists (ca ++ cd). split; reflexivity.
Qed.
Lemma parse_front entries u n z : v_parse entries (Node "parse" ((""%string, Node "sql_stmt_list" [(""%string, use_node u n)]) :: z))
  = rbind (v_parse entries (Node "parse" z)) (fun ss => Ok (SUse n :: ss)).
Proof.
  unfold v_parse. assert (E : subs "sql_stmt_list" (Node "parse" ((""%string, Node "sql_stmt_list" [(""%string, use_node u n)]) :: z))
    = Node "sql_stmt_list" [(""%string, use_node u n)] :: subs "sql_stmt_list" (Node "parse" z)) by reflexivity.
  rewrite E. clear E. generalize (subs "sql_stmt_list" (Node "parse" z)) as l. intro l. cbn [map concat].
  change (subs "sql_stmt" (Node "sql_stmt_list" [(""%string, use_node u n)])) with [use_node u n]. cbn [app collect].
  assert (V : v_statement entries (use_node u n) = Ok (Some (SUse ((n ++ "") ++ "")%string))) by (vm_compute; reflexivity). rewrite !append_nil_r in V. rewrite V. cbn [rbind].
  generalize (collect (v_statement entries) (concat (map (subs "sql_stmt") l))) as c. intros [c|e|]; reflexivity.
Qed.
Lemma use_first entries u n w rest : word u -> to_upper u = "USE" -> any_name n -> word w ->
  parse entries (u ++ " " ++ n ++ " " ++ w ++ " " ++ rest) = rbind (parse entries (w ++ " " ++ rest)) (fun ss => Ok (SUse n :: ss)).
Proof.
  intros U E N W. apply word_is in U, W. apply any_is in N.
  assert (St : token_stream (u ++ " " ++ n ++ " " ++ w ++ " " ++ rest) = use_toks u n ++ token_stream (w ++ " " ++ rest)).
  { rewrite (stream_word u _ U), (kind_word u "USE" E eq_refl "USE_" ltac:(vm_compute; reflexivity)). unfold use_toks. cbn [app]. f_equal.
    pose proof (stream_before [PWord n] (w ++ " " ++ rest) (good_name n N)) as X. rewrite glue_one in X. rewrite (shown_name n N) in X. exact X. }
  assert (S : tk (mkTok (kind_of_word w) w) <> "SCOL") by (cbn [tk]; apply (kind_differs w []); [exact W|intros []|vm_compute; reflexivity]).
  pose proof (use_alike u n _ (token_stream rest) S) as A. rewrite <- (stream_word w rest W), <- St in A.
  destruct (word_apart u (n ++ " " ++ w ++ " " ++ rest) U) as [D1 D2]. destruct (word_apart w rest W) as [D3 D4].
  unfold parse, parse_string. apply String.eqb_neq in D1, D2, D3, D4. rewrite D1, D2, D3, D4. cbn [orb].
  destruct (parse_tree (token_stream (u ++ " " ++ n ++ " " ++ w ++ " " ++ rest))) as [x| |], (parse_tree (token_stream (w ++ " " ++ rest))) as [y| |];
    try contradiction A; [|reflexivity|reflexivity].
  destruct A as (z & -> & ->). cbn [fst]. apply parse_front.
Qed.
