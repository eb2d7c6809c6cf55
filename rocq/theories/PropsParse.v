(** Properties C41, C42 and C59: the lexer and the parser. *)
From Coq Require Import Permutation.
From Verif Require Import GoBase ModelUtil ModelNum ModelFn ModelQuery ModelEbnf ModelGrammar ModelLex ModelVisitor
  SpecParse SpecSession ProofLex ProofParse ProofSession ProofFn.

(** C41: the tokens of any text, hidden ones included, make up the text; none of them is empty. *)
Theorem C41_lexing : forall s,
  String.concat "" (map tx (lex s)) = s /\ Forall (fun t => tx t <> ""%string) (lex s).
Proof. intro s. split; [apply lex_concat|apply lex_nonempty]. Qed.
Print Assumptions C41_lexing.
(** and when a text is accepted, the leaves of its parse tree are its tokens but the hidden ones (white
    space and comments), in order, and the end of input *)
Theorem C41_parse_tree : forall entries q ss, parse entries q = Ok ss ->
  exists t, leaves t = filter (fun k => negb (hidden (tk k))) (lex q) ++ [mkTok "EOF" "<EOF>"] /\ v_parse entries t = Ok ss.
Proof.
  intros entries q ss H. destruct (parse_result entries q (Ok ss) H) as (d & _ & L & E); [discriminate|].
  exists (Node "parse" d). split; [exact L|symmetry; exact E].
Qed.
Print Assumptions C41_parse_tree.
Example C41_example : lex "a=1;--x" = [mkTok "IDENTIFIER" "a"; mkTok "ASSIGN" "="; mkTok "NUMERIC_LITERAL" "1"; mkTok "SCOL" ";"; mkTok "SINGLE_LINE_COMMENT" "--x"].
Proof. vm_compute. reflexivity. Qed.

(** C42: the answer depends only on the text, as long as no text before was a syntax error.  After one
    that was, every text is an error, whatever it is: nothing resets the error listener. *)
Theorem C42_reuse_partial : forall entries texts q,
  (forall p, In p texts -> parse entries p <> Err ErrParse) -> answer entries texts q = parse entries q.
Proof. exact reuse. Qed.
Print Assumptions C42_reuse_partial.
Theorem C42_sticky_error_refuted : forall entries texts p q,
  In p texts -> parse entries p = Err ErrParse -> q <> ""%string -> q <> ";"%string ->
  answer entries texts q = Err ErrParse.
Proof. exact sticky. Qed.
Print Assumptions C42_sticky_error_refuted.
Example C42_example :
  answer data_type_strings ["BEGIN"] "COMMIT" = Ok [SCommit] /\ parse data_type_strings "BEGIN" = Ok [SBegin] /\
  answer data_type_strings ["BEGIN"; "COMIT"; "BEGIN"] "COMMIT" = Err ErrParse /\ parse data_type_strings "COMIT" = Err ErrParse.
Proof. vm_compute. repeat split. Qed.

(** C59: a text that is not empty and not a lone semicolon is a syntax error exactly when its tokens
    are not a sentence of the grammar; no other error is reported. *)
Theorem C59_syntax_errors : forall entries q, q <> ""%string -> q <> ";"%string ->
  (parse entries q = Err ErrParse <-> ~ sentence rule "parse" (token_stream q)).
Proof. intros entries q A B. apply parse_error. intros [H|H]; contradiction. Qed.
Print Assumptions C59_syntax_errors.
Theorem C59_errors : forall entries q e, parse entries q = Err e ->
  (e = ErrEmptyQuery /\ (q = ""%string \/ q = ";"%string)) \/ (e = ErrParse /\ q <> ""%string /\ q <> ";"%string).
Proof.
  intros entries q e H. apply parse_errors in H. destruct H as [[E B]|[E B]]; [left|right].
  - split; [exact E|exact B].
  - split; [exact E|]. split; intro X; apply B; [left|right]; exact X.
Qed.
Print Assumptions C59_errors.
Example C59_example : parse data_type_strings "DROP t" = Err ErrParse /\ parse data_type_strings "VACUUM" = Ok [SVacuum None].
Proof. vm_compute. split; reflexivity. Qed.
