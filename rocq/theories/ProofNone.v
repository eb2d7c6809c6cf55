(** Statements that are read as nothing, and statements that make the parser panic. *)
From Coq Require Import Lia.
From Verif Require Import GoBase ModelUtil ModelNum ModelFn ModelQuery ModelEbnf ModelGrammar ModelLex ModelVisitor SpecRound SpecSelect SpecSpell SpecNone
  FactsBase ProofFn ProofEbnf ProofMachine ProofLex ProofParse ProofRound ProofRound2 ProofRound3 ProofRound4 ProofRound5 ProofRound8 ProofRound10 ProofRound13 ProofSelect2 ProofSpell ProofSpell3.
Local Open Scope string_scope.
Local Open Scope list_scope.

(** the pieces of one statement, of whatever kind, and what the visitor makes of its tree *)
Definition reads_into (entries : list (dtype * string)) (ps : list piece) (r : result (option stmt)) : Prop :=
  good ps /\ (exists t ts, shown ps = t :: ts /\ tk t <> "SCOL" /\ tk t <> "EOF") /\ exists T, stmt_reads (shown ps) T /\ v_statement entries T = r.
Definition one_of (r : result (option stmt)) : result (list stmt) := rbind r (fun o => Ok (match o with Some s => [s] | None => [] end)).

Lemma one_tree t ts T : tk t <> "SCOL" -> stmt_reads (t :: ts) T ->
  parse_tree ((t :: ts) ++ [eof]) = Found [("", Node "parse" [("", Node "sql_stmt_list" [("", T)]); ("", Leaf (mkTok "EOF" "<EOF>"))])].
Proof.
  intros S Rd. rewrite parse_R. rewrite R_rule by reflexivity. change (rule "parse" 0) with g_parse. unfold g_parse. cbn [seq].
  rewrite R_seq by (vm_compute; reflexivity). rewrite R_star by (vm_compute; reflexivity). rewrite R_rule by (vm_compute; reflexivity).
  change (rule "sql_stmt_list" 0) with g_sql_stmt_list. unfold g_sql_stmt_list. cbn [seq].
  match goal with |- match ?x with _ => _ end = ?o => assert (x = o) as ->; [|reflexivity] end.
  rewrite R_seq by (vm_compute; reflexivity).
  change ((t :: ts) ++ [eof]) with (scols 0 ++ t :: (ts ++ [eof])). apply star_scols; [exact S|].
  change (t :: (ts ++ [eof])) with ((t :: ts) ++ [eof]).
  rewrite R_seq by (vm_compute; reflexivity).
  change (Star (Seq (Plus (Tok "SCOL")) (Rule "sql_stmt" 0))) with more.
  assert (Q : okg (Seq more (Star (Tok "SCOL"))) = true) by (vm_compute; reflexivity).
  refine (Rd (fun ca r => R (Seq more (Star (Tok "SCOL"))) r (fun cb r' => after_list (scolc 0 ++ ca ++ cb) r')) _ _ _ (tail_heads 0 [] (mkTok "EOF" "<EOF>") (Forall_nil _) eq_refl) _).
  - intros cs u us N. rewrite R_seq by exact Q.
    refine (law_more (fun ca r => R (Star (Tok "SCOL")) r (fun cb r' => after_list (scolc 0 ++ cs ++ ca ++ cb) r')) _ [] u us N).
    exact (law_after_list (fun x => scolc 0 ++ cs ++ x)).
  - rewrite R_seq by exact Q.
    refine (more_reads 0 (mkTok "EOF" "<EOF>") [] eq_refl (Forall_nil _) (fun ca r => R (Star (Tok "SCOL")) r (fun cb r' => after_list (scolc 0 ++ [(""%string, T)] ++ ca ++ cb) r')) _ _ _).
    + exact (law_after_list (fun x => scolc 0 ++ [(""%string, T)] ++ x)).
    + apply (star_scols 0); [discriminate|]. unfold after_list. rewrite R_star by (vm_compute; reflexivity). rewrite no_list by reflexivity. rewrite R_tok. reflexivity.
Qed.
Lemma into_parse entries ps r : reads_into entries ps r -> parse entries (glue ps) = one_of r.
Proof.
  intros (G & (t & ts & E & S & F) & T & Rd & V).
  assert (St : token_stream (glue ps) = (t :: ts) ++ [eof]) by (rewrite stream_pieces by apply G; rewrite E; reflexivity).
  unfold parse, parse_string.
  assert (N : (String.eqb (glue ps) "" || String.eqb (glue ps) ";") = false).
  { destruct (String.eqb (glue ps) "") eqn:E1; [|destruct (String.eqb (glue ps) ";") eqn:E2; [|reflexivity]]; exfalso.
    - apply String.eqb_eq in E1. rewrite E1 in St. vm_compute in St. injection St as <- _. apply F. reflexivity.
    - apply String.eqb_eq in E2. rewrite E2 in St. vm_compute in St. injection St as <- _. apply S. reflexivity. }
  rewrite E in Rd. rewrite N, St, (one_tree t ts T S Rd). cbn [fst]. unfold v_parse. rewrite !subs_node, !named_cons. cbn [is_rule String.eqb Ascii.eqb Bool.eqb named map filter concat app].
  rewrite subs_node, named_cons, (stmt_tree _ _ Rd). cbn [named map filter concat app collect]. rewrite V. unfold one_of. destruct r as [[s|]|e|]; reflexivity.
Qed.
Ltac not_end := do 2 eexists; split; [reflexivity|]; split; discriminate.
(** a symbol and a name *)
Definition op (k t x : string) : list piece := PSym k t :: sp :: [PWord x].
Lemma good_opw k t x : ok_piece (PSym k t) = true -> plain x -> good (op k t x).
Proof. intros K X. apply good_op; [exact K|apply good_name, X]. Qed.
Lemma glue_opw k t x : glue (op k t x) = (t ++ " " ++ x)%string.
Proof. unfold op. cbn [glue fold_right ptext sp]. rewrite append_nil_r. reflexivity. Qed.
Ltac syms := repeat match goal with P : plain ?x |- context[shown (op ?k ?t ?x)] => change (shown (op k t x)) with (mkTok k t :: shown [PWord x]); rewrite (shown_name x P); unfold id1 end; cbn [app].
Ltac plainly := split; [goods; solve [apply good_opw; [reflexivity|assumption]]|]; shows; syms; split; [not_end|]; eexists; split; [read_all|vm_compute; reflexivity].
Lemma by_into entries r ps q : reads_into entries ps r -> q = glue ps -> parse entries q = one_of r.
Proof. intros P ->. exact (into_parse _ _ _ P). Qed.
Ltac text := rewrite glue_spaced; cbn [map app given]; rewrite ?glue_schema, ?glue_opw, ?glue_one; reflexivity.
Definition dot (s x : string) : list piece := [PWord s; PSym "DOT" "."; PWord x].
Ltac nothing ps := eapply (by_into _ (Ok None) (spaced ps)); [unfold dot; plainly|unfold dot; text].

Lemma object_is n : object n -> plain n \/ exists s x, n = dotted s x /\ plain s /\ plain x.
Proof. intros [m M|s m S M]; [left; apply any_is, M|right; exists s, m; split; [reflexivity|]; split; apply any_is; assumption]. Qed.
Ltac anys := repeat match goal with H : any_name _ |- _ => apply any_is in H end.
Ltac obj N s x := apply object_is in N; let Ps := fresh "Ps" in let Px := fresh "Px" in destruct N as [N|(s & x & -> & Ps & Px)].

Lemma pragma_none entries n : object n -> parse entries (line ["PRAGMA"; n]) = Ok [].
Proof. intro N. obj N s x; [nothing [kw ["PRAGMA"]; [PWord n]]|nothing [kw ["PRAGMA"]; dot s x]]. Qed.
Lemma pragma_set_none entries n v : object n -> plain v -> parse entries (line ["PRAGMA"; n; "="; v]) = Ok [].
Proof. intros N V. obj N s x; [nothing [kw ["PRAGMA"]; [PWord n]; op "ASSIGN" "=" v]|nothing [kw ["PRAGMA"]; dot s x; op "ASSIGN" "=" v]]. Qed.
Lemma analyze_none entries n : object n -> parse entries (line ["ANALYZE"; n]) = Ok [].
Proof. intro N. obj N s x; [nothing [kw ["ANALYZE"]; [PWord n]]|nothing [kw ["ANALYZE"]; dot s x]]. Qed.
Lemma reindex_none entries n : object n -> parse entries (line ["REINDEX"; n]) = Ok [].
Proof. intro N. obj N s x; [nothing [kw ["REINDEX"]; [PWord n]]|nothing [kw ["REINDEX"]; dot s x]]. Qed.
Lemma savepoint_none entries n : plain n -> parse entries (line ["SAVEPOINT"; n]) = Ok [].
Proof. intro N. nothing [kw ["SAVEPOINT"]; [PWord n]]. Qed.
Lemma release_none entries b n : plain n -> parse entries (line ("RELEASE" :: given b "SAVEPOINT" ++ [n])) = Ok [].
Proof. intro N. destruct b; [nothing [kw ["RELEASE"]; kw ["SAVEPOINT"]; [PWord n]]|nothing [kw ["RELEASE"]; [PWord n]]]. Qed.
Lemma attach_none entries b f s : plain f -> plain s -> parse entries (line ("ATTACH" :: given b "DATABASE" ++ [f; "AS"; s])) = Ok [].
Proof. intros N M. destruct b; [nothing [kw ["ATTACH"]; kw ["DATABASE"]; [PWord f]; kw ["AS"]; [PWord s]]|nothing [kw ["ATTACH"]; [PWord f]; kw ["AS"]; [PWord s]]]. Qed.
Lemma detach_none entries b n : plain n -> parse entries (line ("DETACH" :: given b "DATABASE" ++ [n])) = Ok [].
Proof. intro N. destruct b; [nothing [kw ["DETACH"]; kw ["DATABASE"]; [PWord n]]|nothing [kw ["DETACH"]; [PWord n]]]. Qed.
Lemma drop_none entries w b n : In w ["VIEW"; "TRIGGER"] -> object n -> parse entries (line (["DROP"; w] ++ given b "IF EXISTS" ++ [n])) = Ok [].
Proof.
  intros W N. cbn [In] in W. destruct W as [<-|[<-|[]]], b; obj N s x.
  - nothing [kw ["DROP"]; kw ["VIEW"]; kw ["IF"; "EXISTS"]; [PWord n]].
  - nothing [kw ["DROP"]; kw ["VIEW"]; kw ["IF"; "EXISTS"]; dot s x].
  - nothing [kw ["DROP"]; kw ["VIEW"]; [PWord n]].
  - nothing [kw ["DROP"]; kw ["VIEW"]; dot s x].
  - nothing [kw ["DROP"]; kw ["TRIGGER"]; kw ["IF"; "EXISTS"]; [PWord n]].
  - nothing [kw ["DROP"]; kw ["TRIGGER"]; kw ["IF"; "EXISTS"]; dot s x].
  - nothing [kw ["DROP"]; kw ["TRIGGER"]; [PWord n]].
  - nothing [kw ["DROP"]; kw ["TRIGGER"]; dot s x].
Qed.
Lemma virtual_none entries b n m : object n -> plain m -> parse entries (line (["CREATE"; "VIRTUAL"; "TABLE"] ++ given b "IF NOT EXISTS" ++ [n; "USING"; m])) = Ok [].
Proof.
  intros N M. destruct b; obj N s x.
  - nothing [kw ["CREATE"]; kw ["VIRTUAL"]; kw ["TABLE"]; kw ["IF"; "NOT"; "EXISTS"]; [PWord n]; kw ["USING"]; [PWord m]].
  - nothing [kw ["CREATE"]; kw ["VIRTUAL"]; kw ["TABLE"]; kw ["IF"; "NOT"; "EXISTS"]; dot s x; kw ["USING"]; [PWord m]].
  - nothing [kw ["CREATE"]; kw ["VIRTUAL"]; kw ["TABLE"]; [PWord n]; kw ["USING"]; [PWord m]].
  - nothing [kw ["CREATE"]; kw ["VIRTUAL"]; kw ["TABLE"]; dot s x; kw ["USING"]; [PWord m]].
Qed.
Lemma view_none entries p b n c t : In p [[]; ["TEMP"]; ["TEMPORARY"]] -> object n -> plain c -> plain t ->
  parse entries (line ("CREATE" :: p ++ "VIEW" :: given b "IF NOT EXISTS" ++ [n; "AS"; "SELECT"; c; "FROM"; t])) = Ok [].
Proof.
  intros Q N C U. cbn [In] in Q. destruct b; obj N s x; (destruct Q as [<-|[<-|[<-|[]]]]).
  - nothing [kw ["CREATE"]; kw ["VIEW"]; kw ["IF"; "NOT"; "EXISTS"]; [PWord n]; kw ["AS"]; kw ["SELECT"]; [PWord c]; kw ["FROM"]; [PWord t]].
  - nothing [kw ["CREATE"]; kw ["TEMP"]; kw ["VIEW"]; kw ["IF"; "NOT"; "EXISTS"]; [PWord n]; kw ["AS"]; kw ["SELECT"]; [PWord c]; kw ["FROM"]; [PWord t]].
  - nothing [kw ["CREATE"]; kw ["TEMPORARY"]; kw ["VIEW"]; kw ["IF"; "NOT"; "EXISTS"]; [PWord n]; kw ["AS"]; kw ["SELECT"]; [PWord c]; kw ["FROM"]; [PWord t]].
  - nothing [kw ["CREATE"]; kw ["VIEW"]; kw ["IF"; "NOT"; "EXISTS"]; dot s x; kw ["AS"]; kw ["SELECT"]; [PWord c]; kw ["FROM"]; [PWord t]].
  - nothing [kw ["CREATE"]; kw ["TEMP"]; kw ["VIEW"]; kw ["IF"; "NOT"; "EXISTS"]; dot s x; kw ["AS"]; kw ["SELECT"]; [PWord c]; kw ["FROM"]; [PWord t]].
  - nothing [kw ["CREATE"]; kw ["TEMPORARY"]; kw ["VIEW"]; kw ["IF"; "NOT"; "EXISTS"]; dot s x; kw ["AS"]; kw ["SELECT"]; [PWord c]; kw ["FROM"]; [PWord t]].
  - nothing [kw ["CREATE"]; kw ["VIEW"]; [PWord n]; kw ["AS"]; kw ["SELECT"]; [PWord c]; kw ["FROM"]; [PWord t]].
  - nothing [kw ["CREATE"]; kw ["TEMP"]; kw ["VIEW"]; [PWord n]; kw ["AS"]; kw ["SELECT"]; [PWord c]; kw ["FROM"]; [PWord t]].
  - nothing [kw ["CREATE"]; kw ["TEMPORARY"]; kw ["VIEW"]; [PWord n]; kw ["AS"]; kw ["SELECT"]; [PWord c]; kw ["FROM"]; [PWord t]].
  - nothing [kw ["CREATE"]; kw ["VIEW"]; dot s x; kw ["AS"]; kw ["SELECT"]; [PWord c]; kw ["FROM"]; [PWord t]].
  - nothing [kw ["CREATE"]; kw ["TEMP"]; kw ["VIEW"]; dot s x; kw ["AS"]; kw ["SELECT"]; [PWord c]; kw ["FROM"]; [PWord t]].
  - nothing [kw ["CREATE"]; kw ["TEMPORARY"]; kw ["VIEW"]; dot s x; kw ["AS"]; kw ["SELECT"]; [PWord c]; kw ["FROM"]; [PWord t]].
Qed.
Lemma none entries ws : unreported ws -> parse entries (line ws) = Ok [].
Proof.
  intros [n N|n v N V|n N|n N|n N|b n N|b f s F S|b s S|w b n W N|p b v c t P V C T|b t m T M]; anys.
  - apply pragma_none, N.
  - apply pragma_set_none; assumption.
  - apply analyze_none, N.
  - apply reindex_none, N.
  - apply savepoint_none, N.
  - apply release_none, N.
  - apply attach_none; assumption.
  - apply detach_none, S.
  - apply drop_none; assumption.
  - apply view_none; assumption.
  - apply virtual_none; assumption.
Qed.

(** ** Panics *)
Ltac panics ps := eapply (by_into _ Panic (spaced ps)); [unfold dot; plainly|unfold dot; text].
Ltac each_head I := unfold insert_heads in I; cbn [In] in I; destruct I as [<-|[<-|[<-|[<-|[<-|[<-|[<-|[]]]]]]]].
Ltac after_head more :=
  match goal with |- parse _ (line (?ws ++ _)) = _ => let l := eval cbn [map app] in (map (fun w => kw [w]) ws ++ more) in panics l end.
Lemma default_panics entries ws n : conflict ws -> object n -> parse entries (line (ws ++ ["INTO"; n; "DEFAULT"; "VALUES"])) = Panic.
Proof.
  intros C N. apply conflict_heads in C. obj N s x; each_head C.
  1-7: after_head [kw ["INTO"]; [PWord n]; kw ["DEFAULT"]; kw ["VALUES"]].
  1-7: after_head [kw ["INTO"]; dot s x; kw ["DEFAULT"]; kw ["VALUES"]].
Qed.
Lemma select_panics entries ws n c u : conflict ws -> object n -> plain c -> plain u -> parse entries (line (ws ++ ["INTO"; n; "SELECT"; c; "FROM"; u])) = Panic.
Proof.
  intros C N P Q. apply conflict_heads in C. obj N s x; each_head C.
  1-7: after_head [kw ["INTO"]; [PWord n]; kw ["SELECT"]; [PWord c]; kw ["FROM"]; [PWord u]].
  1-7: after_head [kw ["INTO"]; dot s x; kw ["SELECT"]; [PWord c]; kw ["FROM"]; [PWord u]].
Qed.
