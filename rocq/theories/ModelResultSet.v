(** Model of sql/query/response/resultset (cursor, rows, projection) and of the cursor of
    sql/fn/resultset_impl.go. *)
From Verif Require Import GoBase.

(** ** resultset_impl.go: the cursor *)

(** Go's [uint] is 64 bits wide (on the 64-bit platforms the project supports). *)
Definition u64 (x : N) : N := (x mod 2 ^ 64)%N.

(** resultset_impl.go:21-29, the fields the cursor uses. *)
Record rset (R : Type) := mkRset { rs_rows : list R; rs_cursor : N; rs_offset : N; rs_limit : N }.
Arguments mkRset {R}. Arguments rs_rows {R}. Arguments rs_cursor {R}.
Arguments rs_offset {R}. Arguments rs_limit {R}.

(** resultset_impl.go:83-101: rowCursor = 0 *)
Definition new_rset {R} (rows : list R) (offset limit : N) : rset R := mkRset rows 0 offset limit.

Definition with_cursor {R} (rs : rset R) (c : N) : rset R :=
  mkRset (rs_rows rs) c (rs_offset rs) (rs_limit rs).

(** resultset_impl.go:120-131 *)
Definition rs_next {R} (rs : rset R) : rset R * bool :=
  let c0 := if (rs_cursor rs <? rs_offset rs)%N then rs_offset rs else rs_cursor rs in
  let c := u64 (c0 + 1) in
  let rs' := with_cursor rs c in
  if ((0 <? rs_limit rs) && (u64 (rs_offset rs + rs_limit rs) <? c))%N%bool then (rs', false)
  else (rs', (c <=? N.of_nat (length (rs_rows rs)))%N).

(** resultset_impl.go:134-138: the stored row under the cursor *)
Definition rs_current {R} (rs : rset R) : result R :=
  if ((rs_cursor rs =? 0) || (N.of_nat (length (rs_rows rs)) <? rs_cursor rs))%N%bool
  then Err ErrNoRows
  else match nth_error (rs_rows rs) (N.to_nat (rs_cursor rs - 1)) with
       | Some r => Ok r
       | None => Panic
       end.

(** resultset_impl.go:134-140; [project] is NewRowFromObject with the result set's schema *)
Definition rs_row {R P} (project : R -> result P) (rs : rset R) : result P :=
  rbind (rs_current rs) project.

(** n successive calls of Next *)
Fixpoint rs_advance {R} (n : nat) (rs : rset R) : rset R :=
  match n with O => rs | S n' => rs_advance n' (fst (rs_next rs)) end.

(** The caller's loop [for rs.Next() { use rs.Row() }], giving up after [fuel] rounds ([None]). *)
Fixpoint rs_loop {R} (fuel : nat) (rs : rset R) : option (list (result R)) :=
  match fuel with
  | O => None
  | S fuel' =>
      let (rs', more) := rs_next rs in
      if more then
        match rs_loop fuel' rs' with
        | Some l => Some (rs_current rs' :: l)
        | None => None
        end
      else Some []
  end.

(** ** sql/fn/resultset_impl.go: the cursor of aggregation results *)

(** fn/resultset_impl.go:17-21 *)
Record fn_rset (R : Type) := mkFnRset { fr_columns : list string; fr_rows : list R; fr_index : Z }.
Arguments mkFnRset {R}. Arguments fr_columns {R}. Arguments fr_rows {R}. Arguments fr_index {R}.

(** fn/resultset_impl.go:40-50 *)
Definition new_fn_rset {R} (columns : list string) (rows : list R) : fn_rset R :=
  mkFnRset columns rows (-1).

(** fn/resultset_impl.go:58-64 *)
Definition fr_next {R} (rs : fn_rset R) : fn_rset R * bool :=
  if (Z.of_nat (length (fr_rows rs)) <=? fr_index rs + 1)%Z then (rs, false)
  else (mkFnRset (fr_columns rs) (fr_rows rs) (fr_index rs + 1), true).

(** fn/resultset_impl.go:67-72 *)
Definition fr_row {R} (rs : fn_rset R) : result R :=
  if ((fr_index rs <? 0) || (Z.of_nat (length (fr_rows rs)) <=? fr_index rs))%Z%bool
  then Err ErrNoData
  else match nth_error (fr_rows rs) (Z.to_nat (fr_index rs)) with
       | Some r => Ok r
       | None => Panic
       end.

Fixpoint fr_advance {R} (n : nat) (rs : fn_rset R) : fn_rset R :=
  match n with O => rs | S n' => fr_advance n' (fst (fr_next rs)) end.

(** fn/map.go:23-33: later columns of the same name overwrite earlier ones.
    A value [None] is nil. *)
Fixpoint map_with_row_from {A} (i : nat) (columns : list string) (row : list (option A))
  (m : list (string * option A)) : list (string * option A) :=
  match columns with
  | [] => m
  | c :: cs =>
      let v := if i <? length row then nth i row None else None in
      map_with_row_from (S i) cs row (mset String.eqb c v m)
  end.
Definition new_map_with_row {A} (columns : list string) (row : list (option A)) :=
  map_with_row_from 0 columns row [].

(** fn/resultset_impl.go:75-81 *)
Definition fr_map {A} (rs : fn_rset (list (option A))) : result (list (string * option A)) :=
  rbind (fr_row rs) (fun row => Ok (new_map_with_row (fr_columns rs) row)).

(** ** row_impl.go *)

(** Go values; [None] is nil.  An object is a Go map. *)
Definition object (A : Type) := list (string * option A).

(** row_impl.go:25-29; [None] is a nil map / nil schema / nil slice.  The schema is its list of
    column names. *)
Record row (A : Type) := mkRow {
  row_object : option (object A); row_schema : option (list string);
  row_values : option (list (option A)) }.
Arguments mkRow {A}. Arguments row_object {A}. Arguments row_schema {A}. Arguments row_values {A}.

(** strconv.Itoa for the default column names 1, 2, ... *)
Definition digit (n : N) : ascii := ascii_of_N (48 + n).
Fixpoint itoa_fuel (fuel : nat) (n : N) (acc : string) : string :=
  match fuel with
  | O => acc
  | S f => let acc' := String (digit (n mod 10)) acc in
           if (n <? 10)%N then acc' else itoa_fuel f (n / 10) acc'
  end.
Definition itoa (n : N) : string := itoa_fuel (S (N.to_nat (N.log2 n))) n "".

(** row_impl.go:88-96: names to values, nil past the end of the values *)
Fixpoint object_of {A} (i : nat) (names : list string) (values : list (option A)) (m : object A)
  : object A :=
  match names with
  | [] => m
  | c :: cs =>
      let v := if i <? length values then nth i values None else None in
      object_of (S i) cs values (mset String.eqb c v m)
  end.

(** row_impl.go:69-98 *)
Definition row_get_object {A} (r : row A) : row A * object A :=
  match row_object r with
  | Some o => (r, o)
  | None =>
      match row_values r with
      | None => (r, [])
      | Some vs =>
          let names := match row_schema r with
                       | Some cols => cols
                       | None => map (fun n => itoa (N.of_nat (S n))) (seq 0 (length vs))
                       end in
          let o := object_of 0 names vs [] in
          (mkRow (Some o) (row_schema r) (row_values r), o)
      end
  end.

(** sort.Strings: byte-wise order; insertion sort gives the same list for any sorting algorithm. *)
Fixpoint sle (a b : string) : bool :=
  match a, b with
  | EmptyString, _ => true
  | String _ _, EmptyString => false
  | String x a', String y b' =>
      if Ascii.eqb x y then sle a' b' else N.ltb (N_of_ascii x) (N_of_ascii y)
  end.
Fixpoint sinsert (x : string) (l : list string) : list string :=
  match l with
  | [] => [x]
  | y :: l' => if sle x y then x :: l else y :: sinsert x l'
  end.
Definition sort_strings (l : list string) : list string := fold_right sinsert [] l.

(** row_impl.go:101-132 *)
Definition row_get_values {A} (r : row A) : row A * list (option A) :=
  match row_values r with
  | Some vs => (r, vs)
  | None =>
      match row_object r with
      | None => (r, [])
      | Some o =>
          let names := match row_schema r with
                       | Some cols => cols
                       | None => sort_strings (map fst o)
                       end in
          let vs := map (fun n => match mget String.eqb n o with Some v => v | None => None end) names in
          (mkRow (row_object r) (row_schema r) (Some vs), vs)
      end
  end.

(** row_impl.go:135-141: no test for a negative index *)
Definition row_value_at {A} (r : row A) (i : Z) : row A * result (option A) :=
  let (r', vs) := row_get_values r in
  (r', if (Z.of_nat (length vs) <=? i)%Z then Err ErrNotExist
       else if (i <? 0)%Z then Panic
       else match nth_error vs (Z.to_nat i) with Some v => Ok v | None => Panic end).

(** row_impl.go:144-154 *)
Definition row_value_by {A} (r : row A) (name : string) : row A * result (option A) :=
  let (r', o) := row_get_object r in
  (r', match mget String.eqb name o with Some v => Ok v | None => Err ErrNotExist end).

Inductive rop := RObject (name : string) | RValues | RValueAt (i : Z) | RValueBy (name : string).
Inductive rout (A : Type) :=
| ROLookup (v : option (option A)) | ROValues (l : list (option A)) | RORes (r : result (option A)).
Arguments ROLookup {A}. Arguments ROValues {A}. Arguments RORes {A}.

(** Calls on a row.  [RObject name] is [v, ok := row.Object()[name]]. *)
Definition row_step {A} (r : row A) (o : rop) : row A * rout A :=
  match o with
  | RObject n => let (r', m) := row_get_object r in (r', ROLookup (mget String.eqb n m))
  | RValues => let (r', vs) := row_get_values r in (r', ROValues vs)
  | RValueAt i => let (r', x) := row_value_at r i in (r', RORes x)
  | RValueBy n => let (r', x) := row_value_by r n in (r', RORes x)
  end.
Fixpoint row_run {A} (r : row A) (ops : list rop) : list (rout A) :=
  match ops with
  | [] => []
  | o :: ops' => let (r', x) := row_step r o in x :: row_run r' ops'
  end.

(** ** row_helper.go: projection of a stored object on the result schema *)

(** A schema column: its name and, when [selector.Function()] yields a function whose [Executor()]
    succeeds, that executor. *)
Record rcolumn (A : Type) := mkRcolumn {
  rc_name : string; rc_exec : option (object A -> result (option A)) }.
Arguments mkRcolumn {A}. Arguments rc_name {A}. Arguments rc_exec {A}.

(** row_helper.go:21-38 *)
Fixpoint project_columns {A} (cols : list (rcolumn A)) (obj : object A) (acc : object A)
  : result (object A) :=
  match cols with
  | [] => Ok acc
  | c :: cs =>
      let acc0 := mset String.eqb (rc_name c) None acc in
      match rc_exec c with
      | Some ex =>
          match ex obj with
          | Ok v => project_columns cs obj (mset String.eqb (rc_name c) v acc0)
          | Err e => Err e
          | Panic => Panic
          end
      | None =>
          match mget String.eqb (rc_name c) obj with
          | Some v => project_columns cs obj (mset String.eqb (rc_name c) v acc0)
          | None => project_columns cs obj acc0
          end
      end
  end.

(** row_helper.go:18-43 *)
Definition new_row_from_object {A} (cols : list (rcolumn A)) (obj : object A) : result (row A) :=
  rbind (project_columns cols obj [])
        (fun o => Ok (mkRow (Some o) (Some (map rc_name cols)) None)).
