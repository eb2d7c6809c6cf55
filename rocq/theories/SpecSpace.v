(** White space between the parts of a text. *)
From Verif Require Import GoBase ModelEbnf ModelLex.

(** space, tab, vertical tab, newline, carriage return *)
Definition white (c : ascii) : bool := existsb (Nat.eqb (nat_of_ascii c)) [32; 9; 11; 10; 13].
(** white space, parentheses, commas and semicolons: never part of a longer token *)
Definition sep (c : ascii) : bool := white c || existsb (Ascii.eqb c) ["("; ")"; ","; ";"]%char.
(** a non-empty run of white space *)
Definition white_run (s : string) : Prop := s <> ""%string /\ forall c, In c (list_ascii_of_string s) -> white c = true.

(** A part of a text: its tokens are no comments and no stray characters (such as a quote that is not
    closed), and nothing in it looks like the start of a comment ("--" or "/*" made of two tokens). *)
Fixpoint no_comment_start (ts : list token) : Prop :=
  match ts with
  | t :: ((u :: _) as r) =>
      ~ (tx t = "-" /\ has_prefix "-" (tx u) = true)%string /\ ~ (tx t = "/" /\ has_prefix "*" (tx u) = true)%string
      /\ no_comment_start r
  | _ => True
  end.
Definition part (s : string) : Prop :=
  (forall t, In t (lex s) -> ~ In (tk t) ["UNEXPECTED_CHAR"; "SINGLE_LINE_COMMENT"; "MULTILINE_COMMENT"]%string)
  /\ no_comment_start (lex s).

(** x, then a run of white space and a part, again and again *)
Fixpoint weave (x : string) (rest : list (string * string)) : string :=
  match rest with [] => x | (w, y) :: r => (x ++ w ++ weave y r)%string end.
