(** Model of how result sets are built and their rows scanned: sql/query/response/resultset,
    resultset_impl.go, resultset_helper.go, rows_helper.go and row_impl.go:157-188. *)
From Verif Require Import GoBase ModelResultSet ModelFn ModelQuery ModelAggregate.

(** resultset_impl.go:21-29 without the cursor; [None] is a nil schema *)
Record rbuilt (V : Type) := mkRbuilt {
  rb_schema : option rschema; rb_rows : list (row V); rb_affected : N; rb_offset : N; rb_limit : N; rb_group : string }.
Arguments mkRbuilt {V}. Arguments rb_schema {V}. Arguments rb_rows {V}. Arguments rb_affected {V}.
Arguments rb_offset {V}. Arguments rb_limit {V}. Arguments rb_group {V}.
(** resultset_impl.go:91-101 *)
Definition blank_rset {V} : rbuilt V := mkRbuilt None [] 0 0 0 "".

(** The Go value given to WithResultSetRowsOf: rows, maps, or something else. *)
Inductive rows_of (V : Type) := RoRows (l : list (row V)) | RoMaps (l : list (object V)) | RoOther.
Arguments RoRows {V}. Arguments RoMaps {V}. Arguments RoOther {V}.

(** The options of NewResultSet: resultset_impl.go:35-80, resultset_helper.go:22-42. *)
Inductive rsopt (V : Type) :=
| RsAffected (n : N) | RsSchema (s : rschema) | RsRows (l : list (row V)) | RsOffset (n : N) | RsLimit (n : N)
| RsGroup (g : string) | RsRowsOf (v : rows_of V).
Arguments RsAffected {V}. Arguments RsSchema {V}. Arguments RsRows {V}. Arguments RsOffset {V}.
Arguments RsLimit {V}. Arguments RsGroup {V}. Arguments RsRowsOf {V}.

(** resultset_impl.go:43-48 *)
Definition set_rows {V} (b : rbuilt V) (l : list (row V)) : rbuilt V :=
  mkRbuilt (rb_schema b) l (rb_affected b) (rb_offset b) (rb_limit b) (rb_group b).
(** resultset_impl.go:35-80; resultset_helper.go:23-41: a row made from a map gets the schema the result
    set has at that time *)
Definition apply_rsopt {V} (b : rbuilt V) (o : rsopt V) : rbuilt V * result unit :=
  match o with
  | RsAffected n => (mkRbuilt (rb_schema b) (rb_rows b) n (rb_offset b) (rb_limit b) (rb_group b), Ok tt)
  | RsSchema s => (mkRbuilt (Some s) (rb_rows b) (rb_affected b) (rb_offset b) (rb_limit b) (rb_group b), Ok tt)
  | RsRows l => (set_rows b l, Ok tt)
  | RsOffset n => (mkRbuilt (rb_schema b) (rb_rows b) (rb_affected b) n (rb_limit b) (rb_group b), Ok tt)
  | RsLimit n => (mkRbuilt (rb_schema b) (rb_rows b) (rb_affected b) (rb_offset b) n (rb_group b), Ok tt)
  | RsGroup g => (mkRbuilt (rb_schema b) (rb_rows b) (rb_affected b) (rb_offset b) (rb_limit b) g, Ok tt)
  | RsRowsOf (RoRows l) => (set_rows b l, Ok tt)
  | RsRowsOf (RoMaps l) =>
      (set_rows b (map (fun m => mkRow (Some m) (option_map (fun s => map sc_name (rss_columns s)) (rb_schema b)) None) l), Ok tt)
  | RsRowsOf RoOther => (b, Err ErrOther)
  end.

(** resultset_impl.go:83-89: errors are dropped *)
Definition new_result_set {V} (opts : list (rsopt V)) : rbuilt V :=
  fold_left (fun b o => fst (apply_rsopt b o)) opts blank_rset.
(** resultset_impl.go:104-112 *)
Fixpoint result_set_from_opts {V} (b : rbuilt V) (opts : list (rsopt V)) : result (rbuilt V) :=
  match opts with
  | [] => Ok b
  | o :: opts' => let (b', e) := apply_rsopt b o in rbind e (fun _ => result_set_from_opts b' opts')
  end.
Definition new_result_set_from {V} (opts : list (rsopt V)) : result (rbuilt V) := result_set_from_opts blank_rset opts.

(** rows_helper.go:18-28 *)
Definition rows_from_map_rows {V} (l : list (object V)) : list (row V) :=
  map (fun m => mkRow (Some m) None None) l.

(** resultset_impl.go:139-140 with row_helper.go:19: asking a nil schema for its selectors panics *)
Definition built_row {V} (execute : exe -> list string -> object V -> result (option V)) (b : rbuilt V) (r : row V)
  : result (row V) :=
  match rb_schema b with
  | None => Panic
  | Some s => schema_row execute s (snd (row_get_object r))
  end.
(** The caller's loop of Next and Row over a new result set, giving the values of each row. *)
Definition read_rows {V} (execute : exe -> list string -> object V -> result (option V)) (b : rbuilt V) (fuel : nat)
  : option (list (result (list (option V)))) :=
  option_map (map (fun r => rbind (rbind r (built_row execute b)) (fun r => Ok (snd (row_get_values r)))))
    (rs_loop fuel (new_rset (rb_rows b) (rb_offset b) (rb_limit b))).

(** ** row_impl.go:157-188: Scan.  [to] is safecast.To(v, to) for one destination; the destinations of
    one call are different variables. *)
Section Scan.
  Context {A T : Type} (to : option A -> T -> result T).
  Fixpoint scan_values (values : list (option A)) (tos : list T) : list T * result unit :=
    match tos with
    | [] => ([], Ok tt)
    | t :: tos' =>
        match values with
        | [] => (tos, Err ErrNotExist)
        | v :: values' =>
            match to v t with
            | Ok t' => let (r, e) := scan_values values' tos' in (t' :: r, e)
            | Err e => (tos, Err e)
            | Panic => (tos, Panic)
            end
        end
    end.
  (** row_impl.go:157-170 *)
  Definition scan (r : row A) (tos : list T) : list T * result unit :=
    scan_values (snd (row_get_values r)) tos.
  (** row_impl.go:173-179 *)
  Definition scan_at (r : row A) (i : Z) (t : T) : result T := rbind (snd (row_value_at r i)) (fun v => to v t).
  (** row_impl.go:182-188 *)
  Definition scan_by (r : row A) (name : string) (t : T) : result T := rbind (snd (row_value_by r name)) (fun v => to v t).
End Scan.
