(** What the checks of sqltest are about. *)
From Verif Require Import GoBase ModelSqltest.

(** the bytes of a text that are not white space or semicolons, letters in lower case *)
Definition counts (c : ascii) : bool := negb (existsb (Nat.eqb (nat_of_ascii c)) [9; 10; 12; 13; 32; 59]).
Definition essence (s : string) : list ascii := filter counts (list_ascii_of_string (to_lower s)).

(** a query in a file: something without semicolon that neither begins nor ends with a newline or blank, nor begins with # *)
Definition gap_char (c : ascii) : Prop := nat_of_ascii c = 10 \/ c = " "%char.
Definition query_ok (q : string) : Prop :=
  q <> ""%string /\ ~ In ";"%char (list_ascii_of_string q) /\ (forall c r, q = String c r -> ~ gap_char c /\ c <> "#"%char) /\
  (forall c r, q = (r ++ String c "")%string -> ~ gap_char c).
Fixpoint newlines (n : nat) : string := match n with 0 => "" | S n => String (ascii_of_nat 10) (newlines n) end.
(** [file_of qs text]: the text consists of the queries qs, each with a semicolon after it, in lines of their own, and of
    comments that begin with # and end with a semicolon *)
Inductive file_of : list string -> string -> Prop :=
| fo_end n : file_of [] (newlines n)
| fo_query n q qs text : query_ok q -> file_of qs text -> file_of (q :: qs) (newlines n ++ q ++ ";" ++ text)
| fo_comment n c qs text : ~ In ";"%char (list_ascii_of_string c) -> file_of qs text -> file_of qs (newlines n ++ "#" ++ c ++ ";" ++ text).

(** [laid_out ws t]: the text t consists of the words ws with white space between them: a blank, tab or newline, or any two or
    more bytes of white space *)
Definition white (c : ascii) : Prop := In (nat_of_ascii c) [9; 10; 12; 13; 32].
Definition one_word (w : string) : Prop := w <> ""%string /\ forall c, In c (list_ascii_of_string w) -> ~ white c /\ c <> ";"%char.
Definition spacing (g : string) : Prop :=
  (forall c, In c (list_ascii_of_string g) -> white c) /\ (String.length g >= 2 \/ In g [" "; newlines 1; String (ascii_of_nat 9) ""]%string).
Inductive laid_out : list string -> string -> Prop :=
| lo_one w : one_word w -> laid_out [w] w
| lo_more w g ws t : one_word w -> spacing g -> laid_out ws t -> laid_out (w :: ws) (w ++ g ++ t).
