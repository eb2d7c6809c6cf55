(** Property C73: the tokens of a text are those of the rules of SQLiteLexer.g4. *)
From Verif Require Import GoBase ModelEbnf ModelLex FactsBase ProofFn ProofLex SpecLexer ProofLexer.

(** Any text has tokens by the rules of the file, each the longest possible by the first possible rule, and they are the
    tokens of the lexer; there are no others. *)
Theorem C73_tokens : forall s ts, tokens s ts <-> ts = map (fun t => (tk t, tx t)) (lex s).
Proof.
  intros s ts. split; [|intros ->; apply lex_tokens]. intro T. exact (tokens_unique s ts T _ (lex_tokens s)).
Qed.
Print Assumptions C73_tokens.
(** The parser gets those that are not hidden, and the end of the input. *)
Theorem C73_stream : forall s ts, tokens s ts ->
  map (fun t => (tk t, tx t)) (token_stream s)
  = filter (fun p => negb (existsb (String.eqb (fst p)) ["SINGLE_LINE_COMMENT"; "MULTILINE_COMMENT"; "SPACES"]%string)) ts ++ [("EOF", "<EOF>")]%string.
Proof.
  intros s ts T. apply C73_tokens in T. subst ts. unfold token_stream, visible. rewrite map_app. f_equal.
  induction (lex s) as [|t l IH]; [reflexivity|]. cbn [filter map]. unfold hidden at 1. cbn [fst].
  destruct (existsb (String.eqb (tk t)) ["SINGLE_LINE_COMMENT"; "MULTILINE_COMMENT"; "SPACES"]%string); cbn [negb map]; rewrite IH; reflexivity.
Qed.
Print Assumptions C73_stream.
(** Keywords, for example, are the names that are written like one of the words of the file. *)
Example C73_example : tokens "Select 1.5e3--x" [("SELECT_", "Select"); ("SPACES", " "); ("NUMERIC_LITERAL", "1.5e3"); ("SINGLE_LINE_COMMENT", "--x")]%string
  /\ tokens "selected" [("IDENTIFIER", "selected")]%string.
Proof. split; apply C73_tokens; vm_compute; reflexivity. Qed.
