(** Specification of building a result set from options. *)
From Verif Require Import GoBase ModelResultSet ModelAggregate ModelOptions.

(** What the last option of a kind gives, or the default. *)
Definition last_given {V X} (pick : rsopt V -> option X) (opts : list (rsopt V)) (default : X) : X :=
  fold_left (fun x o => match pick o with Some y => y | None => x end) opts default.

Definition given_schema {V} (o : rsopt V) : option (option rschema) := match o with RsSchema s => Some (Some s) | _ => None end.
Definition given_affected {V} (o : rsopt V) : option N := match o with RsAffected n => Some n | _ => None end.
Definition given_offset {V} (o : rsopt V) : option N := match o with RsOffset n => Some n | _ => None end.
Definition given_limit {V} (o : rsopt V) : option N := match o with RsLimit n => Some n | _ => None end.
Definition given_group {V} (o : rsopt V) : option string := match o with RsGroup g => Some g | _ => None end.
(** Rows may be given as rows or as maps; the map of a row is what Object() returns. *)
Definition given_rows {V} (o : rsopt V) : option (list (object V)) :=
  match o with
  | RsRows l | RsRowsOf (RoRows l) => Some (map (fun r => snd (row_get_object r)) l)
  | RsRowsOf (RoMaps l) => Some l
  | _ => None
  end.
