(** Other ways to write statements, and what of them is not kept. *)
From Verif Require Import GoBase ModelFn ModelQuery SpecRound SpecSelect.
Local Open Scope string_scope.

Definition dotted (a b : string) : string := a ++ "." ++ b.
Definition in_parentheses (x : string) : string := "(" ++ x ++ ")".
Local Open Scope list_scope.

Definition given (b : bool) (w : string) : list string := if b then [w] else [].
(** a text of parts with a blank between them *)
Definition line (ws : list string) : string := join " " ws.

(** what can follow BEGIN [...] *)
Inductive transaction : list string -> Prop :=
| tn_none : transaction []
| tn_word : transaction ["TRANSACTION"]
| tn_named n : any_name n -> transaction ["TRANSACTION"; n].
(** the format of COPY *)
Inductive format : list string -> copy_format -> Prop :=
| fm_none : format [] CopyText
| fm_some b w f : In (w, f) [("TEXT", CopyText); ("CSV", CopyCSV); ("BINARY", CopyBinary)] -> format (given b "FORMAT" ++ [w]) f.

(** the words of a statement, the words in brackets in any number of ways *)
Inductive spelling : list string -> stmt -> Prop :=
| sg_begin m x : In m [[]; ["DEFERRED"]; ["IMMEDIATE"]; ["EXCLUSIVE"]] -> transaction x -> spelling ("BEGIN" :: m ++ x) SBegin
| sg_commit w b : In w ["COMMIT"; "END"] -> spelling (w :: given b "TRANSACTION") SCommit
| sg_rollback b : spelling ("ROLLBACK" :: given b "TRANSACTION") SRollback
| sg_truncate b ts : some any_name ts -> spelling ("TRUNCATE" :: given b "TABLE" ++ [join ", " ts]) (STruncate (map new_table ts))
| sg_rename_column b t c d : any_name t -> any_name c -> any_name d ->
    spelling (["ALTER"; "TABLE"; t; "RENAME"] ++ given b "COLUMN" ++ [c; "TO"; d])
      (SAlterTable (mkAlter (new_table t) None (Some (new_column c, new_column d)) None None None None))
| sg_copy b t src x f : name t -> name src -> format x f ->
    spelling (["COPY"; t; "FROM"; src] ++ given b "WITH" ++ x) (SCopy (new_table t) [] src f)
| sg_copy_columns b t cs src x f : name t -> some name cs -> name src -> format x f ->
    spelling (["COPY"; t; in_parentheses (join ", " cs); "FROM"; src] ++ given b "WITH" ++ x) (SCopy (new_table t) (map new_column cs) src f).

(** an index column: its name, a collation and a direction *)
Record indexed := mkIndexed { ix_name : string; ix_collation : option string; ix_direction : option bool }.
Definition indexed_text (c : indexed) : string :=
  line (ix_name c :: match ix_collation c with Some x => ["COLLATE"; x] | None => [] end
    ++ match ix_direction c with Some true => ["ASC"] | Some false => ["DESC"] | None => [] end).
Definition indexed_ok (c : indexed) : Prop := any_name (ix_name c) /\ forall x, ix_collation c = Some x -> any_name x.
Definition by_name (n : string) : indexed := mkIndexed n None None.
Definition index_line (unique unless : bool) (schema : option string) (i t : string) (cs : list indexed) (w : list string) : list string :=
  ("CREATE" :: given unique "UNIQUE" ++ "INDEX" :: given unless "IF NOT EXISTS"
    ++ [match schema with Some s => dotted s i | None => i end; "ON"; t; in_parentheses (join ", " (map indexed_text cs))] ++ w).

(** INSERT and what can stand in its place *)
Definition conflict (ws : list string) : Prop :=
  ws = ["INSERT"] \/ ws = ["REPLACE"] \/ exists w, In w ["REPLACE"; "ROLLBACK"; "ABORT"; "FAIL"; "IGNORE"] /\ ws = ["INSERT"; "OR"; w].
Definition insert_line (ws : list string) (schema : option string) (t : string) (cs : list string) (rows : list (list literal)) : list string :=
  ws ++ ["INTO"; match schema with Some s => dotted s t | None => t end; in_parentheses (join ", " cs); "VALUES";
    join ", " (map (fun r => in_parentheses (join ", " (map literal_text r))) rows)].

(** the words of a statement and those of another one, which says less *)
Inductive lost : list string -> list string -> Prop :=
| lo_savepoint b b' n : any_name n -> lost ("ROLLBACK" :: given b "TRANSACTION" ++ "TO" :: given b' "SAVEPOINT" ++ [n]) ["ROLLBACK"]
| lo_vacuum b f : any_name f -> lost ("VACUUM" :: given b "ANALYZE" ++ ["INTO"; f]) ["VACUUM"]
| lo_vacuum_table b t f : any_name t -> any_name f -> lost ("VACUUM" :: given b "ANALYZE" ++ [t; "INTO"; f]) ["VACUUM"; t]
| lo_vacuum_analyze t : any_name t -> lost ["VACUUM"; "ANALYZE"; t] ["VACUUM"; t]
| lo_cascade b ts : some any_name ts -> lost (["DROP"; "TABLE"] ++ given b "IF EXISTS" ++ [join ", " ts; "CASCADE"]) (["DROP"; "TABLE"] ++ given b "IF EXISTS" ++ [join ", " ts])
| lo_table_schema b s ts : any_name s -> some any_name ts ->
    lost (["DROP"; "TABLE"] ++ given b "IF EXISTS" ++ [dotted s (join ", " ts)]) (["DROP"; "TABLE"] ++ given b "IF EXISTS" ++ [join ", " ts])
| lo_database_schema s n m : any_name s -> any_name n -> any_name m ->
    lost ["ALTER"; "DATABASE"; dotted s n; "RENAME"; "TO"; m] ["ALTER"; "DATABASE"; n; "RENAME"; "TO"; m]
| lo_index u b s i t cs w : (forall x, s = Some x -> any_name x) -> any_name i -> any_name t -> some indexed_ok cs -> condition_ok w ->
    lost (index_line u b s i t cs (match w with Some e => ["WHERE"; condition_text e] | None => [] end))
      (index_line false b None i t (map (fun c => by_name (ix_name c)) cs) [])
| lo_insert ws s t cs rows : conflict ws -> (forall x, s = Some x -> any_name x) -> any_name t -> some any_name cs -> some (some literal_ok) rows ->
    lost (insert_line ws s t cs rows) (insert_line ["INSERT"] None t cs rows).

(** EXPLAIN or EXPLAIN QUERY PLAN, in letters of any case *)
Definition explain (ws : list string) : Prop :=
  Forall word ws /\ (map to_upper ws = ["EXPLAIN"] \/ map to_upper ws = ["EXPLAIN"; "QUERY"; "PLAN"]).
