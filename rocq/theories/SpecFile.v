(** Specification of the files in a directory tree. *)
From Verif Require Import GoBase ModelFile.

(** [file_at path n q]: [q] is the path of a file at or below the node [n] at [path], not below a directory that cannot be read *)
Inductive file_at : string -> node -> string -> Prop :=
| fa_file path name : file_at path (NFile name) path
| fa_entry path name es e q : In e es -> file_at (path ++ "/" ++ node_name e) e q -> file_at path (NDir name (Some es)) q.

(** some entry at or below the node is gone *)
Inductive gone_below : node -> Prop :=
| gb_here name : gone_below (NGone name)
| gb_entry name es e : In e es -> gone_below e -> gone_below (NDir name (Some es)).

(** names have no slash, and those of the entries of a directory are different *)
Inductive well_named : node -> Prop :=
| wn_file name : well_named (NFile name)
| wn_gone name : well_named (NGone name)
| wn_closed name : well_named (NDir name None)
| wn_dir name es : NoDup (map node_name es) -> (forall e, In e es -> ~ In "/"%char (list_ascii_of_string (node_name e)) /\ well_named e) ->
    well_named (NDir name (Some es)).
