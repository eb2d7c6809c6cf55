(** What a bound string with paired quotes is read as. *)
From Verif Require Import GoBase FactsBase ModelUtil ModelQuery ModelEbnf ModelLex ModelVisitor ModelBind SpecQuery SpecRound SpecBind
  ProofFn ProofQuery ProofLex ProofRound ProofRound2 ProofRound3 ProofRound4 ProofRound5 ProofRound6 ProofRound7 ProofRound8 ProofRound12 ProofRound13 ProofInsert ProofBind ProofBind2.

Lemma smem_quote c : smem c (squote ++ dquote) = true -> quote_char c.
Proof.
  unfold smem. cbn -[Ascii.eqb]. destruct (Ascii.eqb c "'") eqn:A; [intros _; left; apply Ascii.eqb_eq, A|].
  intro H. right. apply Ascii.eqb_eq. destruct (Ascii.eqb c dquote_char) eqn:B; [reflexivity|]. exfalso.
  change (orb false (orb (Ascii.eqb c dquote_char) false) = true) in H. rewrite B in H. discriminate H.
Qed.
Lemma trim_left_quotes s : exists a, s = (a ++ trim_left (squote ++ dquote) s)%string /\ chars quote_char a.
Proof.
  induction s as [|c s (a & E & C)]; [exists ""%string; split; [reflexivity|intros ? []]|]. cbn [trim_left].
  destruct (smem c (squote ++ dquote)) eqn:M; [|exists ""%string; split; [reflexivity|intros ? []]].
  exists (String c a). split; [cbn [append]; congruence|]. intros d [<-|I]; [apply smem_quote, M|apply C, I].
Qed.
Lemma chars_rev P a : chars P a -> chars P (srev a).
Proof. intros A c. rewrite list_ascii_srev, <- in_rev. apply A. Qed.
(** taking quotes off both ends *)
Lemma unquoted_trim s : unquoted s (unescape_string s).
Proof.
  unfold unescape_string. destruct (trim_left_quotes s) as (a & E & A).
  destruct (trim_left_quotes (srev (trim_left (squote ++ dquote) s))) as (b & F & B).
  exists a, (srev b). split; [|split; [exact A|split; [apply chars_rev, B|]]].
  - unfold trim. rewrite <- srev_append, <- F, srev_involutive. exact E.
  - destruct (trim_ends (squote ++ dquote) s) as [S T]. split; intros c r X Q.
    + apply S. exists c, r. split; [exact X|]. destruct Q as [->| ->]; [left|right; left]; reflexivity.
    + apply T. exists c, r. split; [exact X|]. destruct Q as [->| ->]; [left|right; left]; reflexivity.
Qed.
Lemma trim_left_some c s : smem c (squote ++ dquote) = true -> trim_left (squote ++ dquote) (s ++ String c "") 
  = match trim_left (squote ++ dquote) s with "" => "" | r => r ++ String c "" end%string.
Proof.
  intro M. induction s as [|d s IH]; [cbn [append trim_left]; rewrite M; reflexivity|]. cbn [append trim_left].
  destruct (smem d (squote ++ dquote)); [exact IH|reflexivity].
Qed.
Lemma trim_quotes_off v : unescape_string ("'" ++ v ++ "'") = unescape_string v.
Proof.
  unfold unescape_string, trim. change ("'" ++ v ++ "'")%string with (String "'" (v ++ "'")). cbn [trim_left].
  change (smem "'" (squote ++ dquote)) with true. cbv iota. rewrite trim_left_some by reflexivity.
  destruct (trim_left (squote ++ dquote) v) as [|c r]; [reflexivity|].
  rewrite srev_append. change (srev (String "'" "")) with (String "'" ""). cbn [append trim_left]. reflexivity.
Qed.

(** ** An INSERT of one string *)

Lemma text_literal v : v_literal (Some (lit_tree (LText v))) = Some (mkLit (VStr (unescape_string v)) StringLiteral).
Proof.
  unfold v_literal, lit_tree. cbn [lit_toks leafs map].
  unfold sub, subs. cbn [kids map snd filter is_rule String.eqb Ascii.eqb Bool.eqb hd_error]. rewrite text_one, text_leaf. cbn [tx].
  rewrite trim_quotes_off. reflexivity.
Qed.
Definition one_pieces (t c v : string) : list piece :=
  spaced [kw ["INSERT"]; kw ["INTO"]; [PWord t]; par_names c []; kw ["VALUES"]; [lp; PText v; rp]].
Lemma one_insert entries t c v : bare t -> plain c -> paired v ->
  let ps := one_pieces t c v in
  good ps /\ heads starts (shown ps) /\ exists T, stmt_reads (shown ps) T
    /\ v_statement entries T = Ok (Some (SInsert (new_table t) [[new_value_column c (mkLit (VStr (unescape_string v)) StringLiteral)]])).
Proof.
  intros P C V ps. subst ps. unfold one_pieces. split; [|split].
  - goods; [apply good_par_names; [exact C|constructor]|].
    split; [|split; reflexivity]. cbn [forallb ok_piece]. rewrite (paired_pairs v V). reflexivity.
  - rewrite shown_spaced. cbn [flat_map]. starts_ok.
  - exists (insert_tree t c [] (LText v, []) []). split.
    + replace (shown _) with (insert_toks t c [] (LText v, []) []).
      * apply insert_reads; [split; [exact I|constructor]|constructor].
      * rewrite shown_spaced. cbn [flat_map]. rewrite (shown_par_names c [] C (Forall_nil _)). show_words. reflexivity.
    + unfold insert_tree. match goal with |- v_statement _ (Node _ [(_, ?n)]) = _ => transitivity (rbind (v_insert n) (fun x => Ok (Some x))); [reflexivity|] end.
      unfold v_insert. change (sub "table_name" _) with (Some (Node "table_name" (ident t))).
      unfold name_of, text_of. cbn [need rbind]. rewrite text_ident, (proj2 P).
      match goal with |- context[sub "values_clause" ?n] =>
        change (sub "values_clause" n) with (Some (Node "values_clause" ((""%string, Leaf (mkTok "VALUES_" "VALUES")) :: rtree (LText v, []))));
        change (subs "column_name" n) with [Node "column_name" (ident c)] end.
      cbn [need rbind map]. rewrite text_ident.
      match goal with |- context[subs "value_row" ?n] => change (subs "value_row" n) with [row_tree (LText v) []] end.
      cbn [collect]. match goal with |- context[subs "expr" ?n] => change (subs "expr" n) with [Node "expr" [(""%string, lit_tree (LText v))]] end.
      cbn [v_row]. change (sub "comparison_expr" _) with (@None tree). cbn iota. change (sub "literal_value" _) with (Some (lit_tree (LText v))). cbn iota.
      rewrite text_literal. reflexivity.
Qed.
Lemma one_text t c v : glue (one_pieces t c v) = ("INSERT INTO " ++ t ++ " (" ++ c ++ ") VALUES ('" ++ v ++ "')")%string.
Proof.
  unfold one_pieces. rewrite glue_spaced. cbn [map]. rewrite glue_par_names, glue_one. cbn [map ptext].
  change (glue (kw ["INSERT"%string])) with "INSERT"%string. change (glue (kw ["INTO"%string])) with "INTO"%string. change (glue (kw ["VALUES"%string])) with "VALUES"%string.
  rewrite !glue_cons'. unfold join_with_comma. rewrite !join_cons. cbn [join append ptext glue]. repeat (cbn [append]; rewrite ?sapp_assoc). reflexivity.
Qed.
Lemma one_bound entries t c v : name t -> name c -> paired v -> free ["?"%char] v ->
  bound_statements entries ("INSERT INTO " ++ t ++ " (" ++ c ++ ") VALUES (?)") [BText v]
  = Ok [SInsert (new_table t) [[new_value_column c (mkLit (VStr (unescape_string v)) StringLiteral)]]].
Proof.
  intros N C V F. 
  assert (R : rendered [BText v] [("'" ++ v ++ "'")%string]) by (constructor; [reflexivity|constructor]).
  assert (D : clear_of ["?"%char] (head_text t [c]) [(0, ")"%string)] [("'" ++ v ++ "'")%string]).
  { assert (W : forall s, free signs s -> free ["?"%char] s) by (intros s G d [<-|[]]; apply G; left; reflexivity).
    split; [|split].
    - apply W, head_free; [exact N|]. split; [discriminate|]. constructor; [exact C|constructor].
    - constructor; [|constructor]. apply W, const_free. reflexivity.
    - constructor; [|constructor]. apply free_app. split; [apply W, const_free; reflexivity|]. apply free_app. split; [exact F|apply W, const_free; reflexivity]. }
  assert (B := question_text (head_text t [c]) [(0, ")"%string)] [BText v] [("'" ++ v ++ "'")%string] (head_some t [c]) eq_refl D R eq_refl).
  cbn [spread] in B. unfold question, value in B. cbn [nth] in B.
  assert (E : ("INSERT INTO " ++ t ++ " (" ++ c ++ ") VALUES (?)" = head_text t [c] ++ "?" ++ ")")%string).
  { unfold head_text. cbn [join]. repeat (cbn [append]; rewrite ?sapp_assoc). reflexivity. }
  rewrite E. unfold bound_statements. rewrite B. cbn [rbind].
  assert (G : (head_text t [c] ++ ("'" ++ v ++ "'") ++ ")" = glue (one_pieces t c v))%string).
  { rewrite one_text. unfold head_text. cbn [join]. repeat (cbn [append]; rewrite ?sapp_assoc). reflexivity. }
  rewrite G. apply reads_parse. apply one_insert; [apply name_bare, N|apply name_plain, C|exact V].
Qed.
