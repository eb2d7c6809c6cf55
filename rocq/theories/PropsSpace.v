(** Property C62: white space between the parts of a text. *)
From Verif Require Import GoBase ModelEbnf ModelLex ModelVisitor ModelQuery SpecSpace ProofSpace.

Lemma weave_long w y rest x : white_run w -> weave x ((w, y) :: rest) <> ""%string /\ weave x ((w, y) :: rest) <> ";"%string.
Proof.
  intros [N W]. destruct w as [|c w]; [congruence|]. pose proof (W c (or_introl eq_refl)) as Wc. cbn [weave append].
  destruct x as [|d x]; cbn [append].
  - split; [discriminate|]. intro E. injection E as -> _. discriminate Wc.
  - split; [discriminate|]. intro E. injection E as _ E. destruct x; discriminate E.
Qed.
Lemma parse_stream entries q q' : token_stream q = token_stream q' ->
  (q <> "" /\ q <> ";")%string -> (q' <> "" /\ q' <> ";")%string -> parse entries q = parse entries q'.
Proof.
  intros T [A B] [A' B']. unfold parse, parse_string.
  apply String.eqb_neq in A, B, A', B'. rewrite A, B, A', B', T. reflexivity.
Qed.
Lemma woven entries x rest rest' : part x ->
  Forall (fun p => white_run (fst p) /\ part (snd p)) rest -> Forall (fun p => white_run (fst p) /\ part (snd p)) rest' ->
  map snd rest = map snd rest' -> parse entries (weave x rest) = parse entries (weave x rest').
Proof.
  intros F A A' E. destruct rest as [|(w, y) rest]; destruct rest' as [|(w', y') rest']; try discriminate E; [reflexivity|].
  apply parse_stream.
  - unfold token_stream. rewrite (lex_weave _ x F A), (lex_weave _ x F A').
    rewrite <- (map_map snd (fun y => visible (lex y)) ((w, y) :: rest)), E, map_map. reflexivity.
  - inversion A as [|? ? [Wr _] _]; subst. apply weave_long. exact Wr.
  - inversion A' as [|? ? [Wr _] _]; subst. apply weave_long. exact Wr.
Qed.
Lemma part_nil : part "". Proof. split; [intros t []|exact Logic.I]. Qed.
Lemma around entries a s b : part s -> s <> ""%string -> s <> ";"%string ->
  (forall c, In c (list_ascii_of_string a) -> white c = true) -> (forall c, In c (list_ascii_of_string b) -> white c = true) ->
  parse entries (a ++ s ++ b) = parse entries s.
Proof.
  intros F N N' A B. apply parse_stream; [|clear F B|split; assumption].
  - unfold token_stream. f_equal. rewrite lex_run by exact A.
    destruct b as [|c b]; [rewrite FactsBase.append_nil_r; reflexivity|].
    rewrite <- (FactsBase.append_nil_r (String c b)), (lex_gap s (String c b) "" F); [|split; [discriminate|exact B]].
    change (visible (lex "")) with (@nil token). apply app_nil_r.
  - split; intro E.
    + destruct a as [|d a]; [destruct s as [|d s]; [congruence|discriminate E]|discriminate E].
    + destruct a as [|d a].
      * destruct s as [|d s]; [congruence|]. injection E as -> E. destruct s; [congruence|discriminate E].
      * injection E as -> _. specialize (A _ (or_introl eq_refl)). discriminate A.
Qed.

(** C62: the runs of white space between the parts of a text can be exchanged for any others; *)
Theorem C62_between_parts : forall entries x rest rest', part x ->
  Forall (fun p => white_run (fst p) /\ part (snd p)) rest -> Forall (fun p => white_run (fst p) /\ part (snd p)) rest' ->
  map snd rest = map snd rest' -> parse entries (weave x rest) = parse entries (weave x rest').
Proof. exact woven. Qed.
Print Assumptions C62_between_parts.
(** and white space before and after the text makes no difference. *)
Theorem C62_around : forall entries a s b, part s -> s <> ""%string -> s <> ";"%string ->
  (forall c, In c (list_ascii_of_string a) -> white c = true) -> (forall c, In c (list_ascii_of_string b) -> white c = true) ->
  parse entries (a ++ s ++ b) = parse entries s.
Proof. exact around. Qed.
Print Assumptions C62_around.
(** It does make a difference in a comment, which ends at a newline: a - - 1 without blanks is a comment. *)
Theorem C62_comment_refuted : forall entries,
  parse entries ("SELECT a--1" ++ String (ascii_of_nat 10) "FROM t") <> parse entries "SELECT a--1 FROM t".
Proof. intros entries E. vm_compute in E. discriminate E. Qed.
Print Assumptions C62_comment_refuted.
Example C62_example :
  let tab := String (ascii_of_nat 9) (String (ascii_of_nat 10) "") in
  weave "DELETE" [(" ", "FROM"); (" ", "t"); (" ", "WHERE"); (" ", "a='x  y'")]%string = "DELETE FROM t WHERE a='x  y'"%string /\
  Forall part ["DELETE"; "FROM"; "t"; "WHERE"; "a='x  y'"]%string /\ white_run tab /\
  (exists s, parse data_type_strings (weave "DELETE" [(tab, "FROM"); (" ", "t"); (tab ++ tab, "WHERE"); (" ", "a='x  y'")])%string = Ok [s]).
Proof.
  cbv zeta. split; [reflexivity|]. split; [|split; [split; [discriminate|cbn [list_ascii_of_string In]; intuition (subst; reflexivity)]|eexists; vm_compute; reflexivity]].
  assert (P : forall s, forallb (fun t => negb (existsb (String.eqb (tk t)) ["UNEXPECTED_CHAR"; "SINGLE_LINE_COMMENT"; "MULTILINE_COMMENT"]%string)) (lex s) = true ->
    no_comment_start (lex s) -> part s).
  { intros s H N. split; [|exact N]. intros t I J. rewrite forallb_forall in H. specialize (H t I).
    assert (existsb (String.eqb (tk t)) ["UNEXPECTED_CHAR"; "SINGLE_LINE_COMMENT"; "MULTILINE_COMMENT"]%string = true) as Z
      by (apply existsb_exists; exists (tk t); split; [exact J|apply String.eqb_refl]). rewrite Z in H. discriminate. }
  repeat (apply Forall_cons; [apply P; [vm_compute; reflexivity|vm_compute; repeat split; intros [A B]; discriminate]|]). apply Forall_nil.
Qed.
