(** Model of sql/fn/groupby.go. *)
From Verif Require Import GoBase ModelUtil.

(** groupby.go:40-45 *)
Definition new_group_by_set (groups : list string) : string :=
  match groups with [] => "" | _ => join "," groups end.
(** groupby.go:65-70 *)
Definition group_bys_from_set (s : string) : list string :=
  if String.length s =? 0 then [] else split_byte "," s.
