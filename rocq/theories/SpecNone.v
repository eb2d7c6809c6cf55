(** Statements that are read as nothing, and statements on which ParseString panics. *)
From Verif Require Import GoBase SpecRound SpecSelect SpecSpell.
Local Open Scope string_scope.
Local Open Scope list_scope.

(** a name, or one with a schema before it *)
Inductive object : string -> Prop :=
| ob_name n : any_name n -> object n
| ob_dotted s n : any_name s -> any_name n -> object (dotted s n).

(** the words of statements that change data, schemas, files or transactions *)
Inductive unreported : list string -> Prop :=
| un_pragma n : object n -> unreported ["PRAGMA"; n]
| un_pragma_set n v : object n -> any_name v -> unreported ["PRAGMA"; n; "="; v]
| un_analyze n : object n -> unreported ["ANALYZE"; n]
| un_reindex n : object n -> unreported ["REINDEX"; n]
| un_savepoint n : any_name n -> unreported ["SAVEPOINT"; n]
| un_release b n : any_name n -> unreported ("RELEASE" :: given b "SAVEPOINT" ++ [n])
| un_attach b f s : any_name f -> any_name s -> unreported ("ATTACH" :: given b "DATABASE" ++ [f; "AS"; s])
| un_detach b s : any_name s -> unreported ("DETACH" :: given b "DATABASE" ++ [s])
| un_drop w b n : In w ["VIEW"; "TRIGGER"] -> object n -> unreported (["DROP"; w] ++ given b "IF EXISTS" ++ [n])
| un_view p b v c t : In p [[]; ["TEMP"]; ["TEMPORARY"]] -> object v -> any_name c -> any_name t ->
    unreported ("CREATE" :: p ++ "VIEW" :: given b "IF NOT EXISTS" ++ [v; "AS"; "SELECT"; c; "FROM"; t])
| un_virtual b t m : object t -> any_name m -> unreported (["CREATE"; "VIRTUAL"; "TABLE"] ++ given b "IF NOT EXISTS" ++ [t; "USING"; m]).

(** the words of statements of SQL that make ParseString panic *)
Inductive panicking : list string -> Prop :=
| pa_default ws t : conflict ws -> object t -> panicking (ws ++ ["INTO"; t; "DEFAULT"; "VALUES"])
| pa_select ws t c u : conflict ws -> object t -> any_name c -> any_name u -> panicking (ws ++ ["INTO"; t; "SELECT"; c; "FROM"; u])
| pa_select_columns ws t cs c u : conflict ws -> object t -> some any_name cs -> any_name c -> any_name u ->
    panicking (ws ++ ["INTO"; t; in_parentheses (join ", " cs); "SELECT"; c; "FROM"; u])
| pa_update t a cs c : any_name t -> any_name a -> some any_name cs -> any_name c -> panicking ["UPDATE"; t; "SET"; in_parentheses (join ", " (a :: cs)); "="; c]
| pa_index u i t op a b : any_name i -> any_name t -> In op ["+"; "-"; "*"; "/"; "%"] -> any_name a -> any_name b ->
    panicking ("CREATE" :: given u "UNIQUE" ++ ["INDEX"; i; "ON"; t; in_parentheses (line [a; op; b])]).
