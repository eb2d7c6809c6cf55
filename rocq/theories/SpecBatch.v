(** Several statements in one text. *)
From Verif Require Import GoBase ModelQuery SpecRound.

(** blanks: space, tab, newline, carriage return *)
Definition blank_char (c : ascii) : Prop := In (nat_of_ascii c) [32; 9; 10; 13].
(** what may stand around statements: blanks and semicolons *)
Definition gap (s : string) : Prop := chars (fun c => blank_char c \/ c = ";"%char) s.
(** and between two of them: at least one semicolon *)
Definition separator (s : string) : Prop := gap s /\ In ";"%char (list_ascii_of_string s).

(** the texts of some statements, one after the other *)
Inductive batch : list stmt -> string -> Prop :=
| b_last s q after : supported s -> stmt_string s = Ok q -> gap after -> batch [s] (q ++ after)
| b_more s q sep ss r : supported s -> stmt_string s = Ok q -> separator sep -> batch ss r -> batch (s :: ss) (q ++ sep ++ r).
