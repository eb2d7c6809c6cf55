(** What may stand before the first statement of a text. *)
From Verif Require Import GoBase ModelFn ModelEbnf ModelGrammar ModelLex ModelVisitor SpecRound SpecBatch ProofEbnf ProofMachine ProofParse ProofLex ProofRound ProofRound2
  ProofRound3 ProofRound4 ProofRound13 ProofTest5 ProofStart ProofExplain ProofFn.
Local Open Scope string_scope.
Local Open Scope list_scope.

Lemma no_stmt x ts k : R (Rule "sql_stmt" 0) (mkTok "SCOL" x :: ts) k = NotFound.
Proof. exact (may_false k None I 5000 (MEval (Rule "sql_stmt" 0)) [mkTok "SCOL" x] [] ltac:(vm_compute; reflexivity) ltac:(vm_compute; reflexivity) ts). Qed.
Definition semi (x : string) : token := mkTok "SCOL" x.
Lemma R_stars xs t ts : tk t <> "SCOL" -> forall K, (forall cs x r, K cs (semi x :: r) = NotFound) ->
  R (Star (Tok "SCOL")) (map semi xs ++ t :: ts) K = K (leaves (map semi xs)) (t :: ts).
Proof.
  intros N. induction xs as [|x xs IH]; intros K Z.
  - rewrite R_star by (vm_compute; reflexivity). cbn [map app]. differs. reflexivity.
  - rewrite R_star by (vm_compute; reflexivity). cbn [map app]. rewrite R_tok. cbn [semi tk]. rewrite String.eqb_refl.
    rewrite IH; [|intros; apply Z]. fold (semi x). rewrite Z.
    match goal with |- match ?a with _ => _ end = ?b => change a with b; destruct b; reflexivity end.
Qed.
Lemma R_semis xs t ts k : tk t <> "SCOL" ->
  R (Rule "sql_stmt_list" 0) (map semi xs ++ t :: ts) k = R (Rule "sql_stmt" 0) (t :: ts) (fun ca r => R (Seq more (Star (Tok "SCOL"))) r (fun cb r' =>
    k [(""%string, Node "sql_stmt_list" (leaves (map semi xs) ++ ca ++ cb))] r')).
Proof.
  intros N. rewrite R_rule by (vm_compute; reflexivity). change (rule "sql_stmt_list" 0) with (Seq (Star (Tok "SCOL")) (Seq (Rule "sql_stmt" 0) (Seq more (Star (Tok "SCOL"))))).
  rewrite R_seq by (vm_compute; reflexivity). rewrite (R_stars xs t ts N).
  - rewrite R_seq by (vm_compute; reflexivity). reflexivity.
  - intros cs x r. rewrite R_seq by (vm_compute; reflexivity). apply no_stmt.
Qed.
Lemma lead_alike entries xs t ts : tk t <> "EOF" -> tk t <> "SCOL" ->
  alike (same_meaning entries) (parse_tree (map semi xs ++ t :: ts)) (parse_tree (t :: ts)).
Proof.
  intros E S. rewrite !parse_R.
  assert (A : forall k, R (Rule "parse" 0) (map semi xs ++ t :: ts) k = R (Rule "sql_stmt_list" 0) (map semi xs ++ t :: ts) (fun ca r => R (Star (Rule "sql_stmt_list" 0)) r (fun cb r' => R (Tok "EOF") r' (fun cd r'' =>
    k [(""%string, Node "parse" ((ca ++ cb) ++ cd))] r'')))) by (intro k; destruct xs; apply R_first; [exact E|discriminate]).
  rewrite A, (R_semis xs t ts _ S), (R_first t ts at_end E), (R_list t ts _ S).
  apply R_alike. intros ca r. apply R_alike. intros cb r'. apply R_alike. intros cc r''. apply R_alike. intros cd [|u us]; [|exact I].
  cbn [at_end alike]. do 2 eexists. split; [reflexivity|]. split; [reflexivity|].
  unfold v_parse. unfold subs at 2 4. cbn [kids app map snd filter is_rule String.eqb Ascii.eqb Bool.eqb].
  cbn [map concat]. rewrite subs_leaves. reflexivity.
Qed.
Lemma lead_same entries g w rest : gap g -> word w -> parse entries (g ++ w ++ " " ++ rest)%string = parse entries (w ++ " " ++ rest)%string.
Proof.
  intros G W. apply word_is in W. destruct (word_apart w rest W) as [D D'].
  assert (E : token_stream (g ++ w ++ " " ++ rest)%string = map semi (repeat ";" (semicolons g)) ++ token_stream (w ++ " " ++ rest)%string).
  { pose proof (stream_before (gap_pieces g ++ [PWord w]) rest (good_gap g _ G (good_word w W))) as E.
    rewrite glue_app, glue_one, shown_app, shown_gap in E. rewrite glue_gap in E. rewrite sapp_assoc in E. cbn [ptext] in E. rewrite E.
    pose proof (stream_before [PWord w] rest (good_word w W)) as F. rewrite glue_one in F. cbn [ptext] in F. rewrite F, <- app_assoc.
    assert (S : scols (semicolons g) = map semi (repeat ";" (semicolons g))); [|rewrite S; reflexivity].
    clear E F. unfold scols. induction (semicolons g) as [|n IH]; [reflexivity|]. cbn [repeat map]. rewrite IH. reflexivity. }
  apply parse_alike; try assumption.
  - destruct g; [exact D|discriminate].
  - intro X. assert (L : String.length (g ++ w ++ " " ++ rest) = 1) by (rewrite X; reflexivity). destruct w as [|c w]; [discriminate W|].
    destruct g as [|d g]; cbn in L; [rewrite ?length_append in L|].
    + apply D'. exact X.
    + injection L as L. destruct g; discriminate L.
  - rewrite E, (stream_word w rest W). apply lead_alike; cbn [tk]; apply (kind_differs w []); try assumption; try (intros []); vm_compute; reflexivity.
Qed.
