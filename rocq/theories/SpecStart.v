(** How a text can begin. *)
From Verif Require Import GoBase.
Local Open Scope string_scope.

(** the words a statement begins with *)
Definition first_words : list string :=
  ["ALTER"; "ANALYZE"; "ATTACH"; "BEGIN"; "COMMIT"; "COPY"; "CREATE"; "DELETE"; "DETACH"; "DROP"; "END"; "EXPLAIN"; "INSERT";
   "PRAGMA"; "REINDEX"; "RELEASE"; "REPLACE"; "ROLLBACK"; "SAVEPOINT"; "SELECT"; "TRUNCATE"; "UPDATE"; "USE"; "VACUUM"; "VALUES";
   "WITH"].
(** the words that can come next, for those which not every name can follow *)
Definition second_words : list (string * list string) :=
  [("ALTER", ["DATABASE"; "TABLE"]);
   ("CREATE", ["DATABASE"; "INDEX"; "UNIQUE"; "TABLE"; "TEMP"; "TEMPORARY"; "TRIGGER"; "VIEW"; "VIRTUAL"]);
   ("DROP", ["DATABASE"; "INDEX"; "TABLE"; "TRIGGER"; "VIEW"]);
   ("INSERT", ["INTO"; "OR"]); ("REPLACE", ["INTO"]); ("DELETE", ["FROM"]); ("VALUES", []);
   ("EXPLAIN", "QUERY" :: first_words);
   ("BEGIN", "DEFERRED" :: "IMMEDIATE" :: "EXCLUSIVE" :: "TRANSACTION" :: first_words);
   ("COMMIT", "TRANSACTION" :: first_words); ("END", "TRANSACTION" :: first_words);
   ("ROLLBACK", "TRANSACTION" :: "TO" :: first_words)].
