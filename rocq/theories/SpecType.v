(** What the first words of a text say about the statement. *)
From Verif Require Import GoBase SpecRound SpecSelect SpecNone.
Local Open Scope string_scope.

(** the type of the statement that begins with the word *)
Definition one_word : list (string * string) :=
  [("SELECT", "SELECT"); ("VALUES", "SELECT"); ("INSERT", "INSERT"); ("REPLACE", "INSERT"); ("BEGIN", "BEGIN"); ("COMMIT", "COMMIT");
   ("END", "COMMIT"); ("ROLLBACK", "ROLLBACK"); ("USE", "USE"); ("COPY", "COPY"); ("TRUNCATE", "TRUNCATE"); ("VACUUM", "VACUUM")].
(** the type of the statement that begins with the two words *)
Definition two_words : list (string * string * string) :=
  [("CREATE", "DATABASE", "CREATE DATABASE"); ("CREATE", "TABLE", "CREATE TABLE"); ("CREATE", "INDEX", "CREATE INDEX");
   ("CREATE", "UNIQUE", "CREATE INDEX"); ("ALTER", "DATABASE", "ALTER DATABASE"); ("ALTER", "TABLE", "ALTER TABLE");
   ("DROP", "DATABASE", "DROP DATABASE"); ("DROP", "TABLE", "DROP TABLE"); ("DROP", "INDEX", "DROP INDEX")].

(** the words of a DELETE or an UPDATE of some rows only *)
Inductive limited : list string -> Prop :=
| li_delete t n : object t -> number n -> limited ["DELETE"; "FROM"; t; "LIMIT"; n]
| li_delete_where t c v n : object t -> any_name c -> number v -> number n -> limited ["DELETE"; "FROM"; t; "WHERE"; c; "="; v; "LIMIT"; n]
| li_update t c v n : object t -> any_name c -> number v -> number n -> limited ["UPDATE"; t; "SET"; c; "="; v; "LIMIT"; n]
| li_update_where t c v d w n : object t -> any_name c -> number v -> any_name d -> number w -> number n ->
    limited ["UPDATE"; t; "SET"; c; "="; v; "WHERE"; d; "="; w; "LIMIT"; n].
