(** Properties C08-C11 and C46: result sets and rows. *)
From Verif Require Import GoBase ModelResultSet SpecResultSet ProofResultSet.

(** C08: the caller's loop ends after one round per row of the window and sees exactly the window.
    The guards say that offset+limit and the row counter fit in a uint. *)
Theorem C08_limit_offset_window :
  forall (R : Type) (rows : list R) (offset limit : N) (fuel : nat),
    (offset + limit < 2 ^ 64)%N ->
    (offset + N.of_nat (length (window rows offset limit)) + 1 < 2 ^ 64)%N ->
    length (window rows offset limit) < fuel ->
    rs_loop fuel (new_rset rows offset limit) = Some (map Ok (window rows offset limit)).
Proof.
  intros R rows offset limit fuel H1 H2 H3.
  apply (loop_spec rows offset limit 0 fuel); auto; lia.
Qed.
Print Assumptions C08_limit_offset_window.

Example C08_example :
  window ["a"; "b"; "c"; "d"] 1 2 = ["b"; "c"] /\
  rs_loop 3 (new_rset ["a"; "b"; "c"; "d"] 1 2) = Some [Ok "b"; Ok "c"].
Proof. split; vm_compute; reflexivity. Qed.

(** Without the guard the property fails: with the customary no-limit value 2^64-1 and a positive
    offset nothing is returned. *)
Theorem C08_limit_wrap_refuted :
  forall (R : Type) (rows : list R) (offset limit : N) (fuel : nat),
    (offset + 1 < 2 ^ 64)%N -> (limit < 2 ^ 64)%N -> (2 ^ 64 <= offset + limit)%N ->
    rs_loop (S fuel) (new_rset rows offset limit) = Some [].
Proof.
  intros R rows offset limit fuel O L W. cbn [rs_loop]. unfold rs_next. cbn [new_rset rs_cursor rs_offset rs_limit rs_rows].
  assert (C : (if (0 <? offset)%N then offset else 0%N) = offset) by (destruct (N.ltb_spec 0 offset); lia). rewrite C.
  assert (E : u64 (offset + limit) = (offset + limit - 2 ^ 64)%N).
  { unfold u64. symmetry. apply (N.mod_unique _ _ 1); lia. }
  rewrite E, (u64_small (offset + 1)) by exact O.
  replace ((0 <? limit)%N) with true by (symmetry; apply N.ltb_lt; lia).
  replace ((offset + limit - 2 ^ 64 <? offset + 1)%N) with true by (symmetry; apply N.ltb_lt; lia). reflexivity.
Qed.
Print Assumptions C08_limit_wrap_refuted.
Example C08_limit_wrap_example :
  (1 + 1 < 2 ^ 64)%N /\ (2 ^ 64 - 1 < 2 ^ 64)%N /\ (2 ^ 64 <= 1 + (2 ^ 64 - 1))%N /\ window ["a"; "b"; "c"] 1 3 = ["b"; "c"].
Proof. split; [lia|]. split; [lia|]. split; [lia|reflexivity]. Qed.

(** With the largest offset the loop never ends, whatever the rows. *)
Theorem C08_max_offset_loops_refuted :
  forall (R : Type) (rows : list R) (fuel : nat),
    rs_loop fuel (new_rset rows (2 ^ 64 - 1) 0) = None.
Proof. exact @max_offset_diverges. Qed.
Print Assumptions C08_max_offset_loops_refuted.

(** C09: once Next has answered false it answers false for ever (as long as the row counter fits in
    a uint), and before the first Next, or once the rows have run out, Row reports ErrNoRows.
    Missing from the full property: Row after the LIMIT was reached, refuted below. *)
Theorem C09_exhausted_stays_exhausted_partial :
  forall (R : Type) (rows : list R) (offset limit : N) (n m : nat),
    (offset + limit < 2 ^ 64)%N -> (offset + N.of_nat m < 2 ^ 64)%N -> 1 <= n <= m ->
    nth_next (new_rset rows offset limit) n = false ->
    nth_next (new_rset rows offset limit) m = false /\
    (length rows <= N.to_nat offset \/ limit = 0%N \/ length rows <= N.to_nat (offset + limit) ->
     rs_current (rs_advance m (new_rset rows offset limit)) = Err ErrNoRows) /\
    rs_current (new_rset rows offset limit) = Err ErrNoRows.
Proof. exact @exhausted. Qed.
Print Assumptions C09_exhausted_stays_exhausted_partial.

Example C09_example :
  nth_next (new_rset ["a"; "b"; "c"] 1 2) 3 = false /\ nth_next (new_rset ["a"; "b"; "c"] 1 2) 2 = true.
Proof. split; vm_compute; reflexivity. Qed.

(** After the LIMIT was reached Row hands out the first row beyond it. *)
Theorem C09_row_past_limit_refuted :
  forall (R : Type) (rows : list R) (offset limit : N),
    (0 < limit)%N -> (offset + limit < N.of_nat (length rows))%N -> (N.of_nat (length rows) < 2 ^ 64)%N ->
    nth_next (new_rset rows offset limit) (S (N.to_nat limit)) = false /\
    exists r, nth_error rows (N.to_nat (offset + limit)) = Some r /\
      rs_current (rs_advance (S (N.to_nat limit)) (new_rset rows offset limit)) = Ok r.
Proof.
  intros R rows offset limit P L B. split.
  - rewrite nth_next_spec by lia. rewrite window_length. destruct (N.eqb_spec limit 0) as [->|]; [lia|]. apply Nat.leb_gt. lia.
  - assert (X : nth_error rows (N.to_nat (offset + limit)) <> None) by (apply nth_error_Some; lia).
    destruct (nth_error rows (N.to_nat (offset + limit))) as [r|] eqn:E; [|contradiction]. exists r. split; [reflexivity|].
    rewrite current_spec by lia. rewrite nth_error_skipn. replace (N.to_nat offset + (S (N.to_nat limit) - 1)) with (N.to_nat (offset + limit)) by lia.
    rewrite E. reflexivity.
Qed.
Print Assumptions C09_row_past_limit_refuted.
Example C09_row_past_limit_example : (0 < 1)%N /\ (0 + 1 < N.of_nat (length ["a"; "b"]))%N /\ window ["a"; "b"] 0 1 = ["a"] /\
  rs_current (rs_advance 2 (new_rset ["a"; "b"] 0 1)) = Ok "b".
Proof. split; [lia|]. split; [cbn; lia|]. split; reflexivity. Qed.

(** C10: whatever accessors are called in whatever order, a row built from values under a schema
    answers from one naming of these values ... *)
Theorem C10_row_from_values :
  forall (A : Type) (cols : list string) (values : list (option A)),
    NoDup cols -> length cols = length values ->
    exists lookup, names_values cols values lookup /\
      forall ops, row_run (mkRow None (Some cols) (Some values)) ops = map (row_answer lookup values) ops.
Proof. exact @row_from_values. Qed.
Print Assumptions C10_row_from_values.

(** ... and a row built from an object answers from the object, its values being those of the schema
    columns in order, nil for absent ones. *)
Theorem C10_row_from_object :
  forall (A : Type) (cols : list string) (obj : object A),
    exists values, length values = length cols /\
      (forall i c, nth_error cols i = Some c ->
         nth_error values i = Some (match mget String.eqb c obj with Some v => v | None => None end)) /\
      forall ops, row_run (mkRow (Some obj) (Some cols) None) ops
                  = map (row_answer (fun n => mget String.eqb n obj) values) ops.
Proof. exact @row_from_object. Qed.
Print Assumptions C10_row_from_object.

(** Without a schema, values are named 1, 2, 3, ... *)
Theorem C10_row_from_values_without_schema :
  forall (A : Type) (values : list (option A)),
    exists lookup,
      names_values (map (fun n => itoa (N.of_nat (S n))) (seq 0 (length values))) values lookup /\
      forall ops, row_run (mkRow None None (Some values)) ops = map (row_answer lookup values) ops.
Proof. exact @row_from_values_noschema. Qed.
Print Assumptions C10_row_from_values_without_schema.

(** Without a schema, the values of an object are listed by ascending key, each key once. *)
Theorem C10_row_from_object_without_schema :
  forall (A : Type) (obj : object A), NoDup (map fst obj) ->
    exists cols values,
      Permutation cols (map fst obj) /\ ssorted cols /\
      names_values cols values (fun n => mget String.eqb n obj) /\
      forall ops, row_run (mkRow (Some obj) None None) ops
                  = map (row_answer (fun n => mget String.eqb n obj) values) ops.
Proof. exact @row_from_object_noschema. Qed.
Print Assumptions C10_row_from_object_without_schema.

Example C10_example :
  row_run (mkRow None (Some ["id"; "name"]) (Some [Some 1; Some 2]))
    [RValueBy "name"; RValueAt 0; RObject "id"; RValueAt 2; RValueBy "x"; RValueAt (-1)]
  = [RORes (Ok (Some 2)); RORes (Ok (Some 1)); ROLookup (Some (Some 1)); RORes (Err ErrNotExist);
     RORes (Err ErrNotExist); RORes Panic] /\
  NoDup ["id"; "name"].
Proof. split; [vm_compute; reflexivity|]. repeat constructor; cbn; intuition; discriminate. Qed.

(** C11: the n-th Next answers true iff there is an n-th row, and Row is then that row; before the
    first Next Row reports ErrNoData; past the end the last row stays current. *)
Theorem C11_aggregation_cursor :
  forall (R : Type) (columns : list string) (rows : list R) (n : nat),
    let rs := new_fn_rset columns rows in
    snd (fr_next (fr_advance n rs)) = (S n <=? length rows) /\
    fr_row (fr_advance 0 rs) = Err ErrNoData /\
    (forall r, nth_error rows n = Some r -> fr_row (fr_advance (S n) rs) = Ok r) /\
    (length rows <= n -> forall r rows', rows = rows' ++ [r] -> fr_row (fr_advance n rs) = Ok r) /\
    (rows = [] -> fr_row (fr_advance n rs) = Err ErrNoData).
Proof. exact @fn_cursor. Qed.
Print Assumptions C11_aggregation_cursor.

Example C11_example :
  fr_row (fr_advance 5 (new_fn_rset ["c"] [1; 2; 3])) = Ok 3.
Proof. reflexivity. Qed.

(** C46: projecting a stored object on the result columns gives, per column, the scalar function's
    result or the stored value (nil when absent), or the first failure. *)
Theorem C46_projection :
  forall (A : Type) (cols : list (rcolumn A)) (obj : object A),
    NoDup (map rc_name cols) ->
    match all_ok (map (fun c => column_value c obj) cols) with
    | Ok values => exists r lookup, new_row_from_object cols obj = Ok r /\
        names_values (map rc_name cols) values lookup /\
        forall ops, row_run r ops = map (row_answer lookup values) ops
    | Err e => new_row_from_object cols obj = Err e
    | Panic => new_row_from_object cols obj = Panic
    end.
Proof. exact @projection. Qed.
Print Assumptions C46_projection.

Example C46_example :
  let cols := [mkRcolumn "a" None; mkRcolumn "f" (Some (fun _ => Ok (Some 7))); mkRcolumn "z" None] in
  NoDup (map rc_name cols) /\
  all_ok (map (fun c => column_value c [("a", Some 1)]) cols) = Ok [Some 1; Some 7; None].
Proof. split; [|reflexivity]. cbn. repeat constructor; cbn; intuition; discriminate. Qed.

(** C47: the map view of an aggregation row pairs columns with values by position. *)
Theorem C47_map_of_row :
  forall (A : Type) (columns : list string) (row : list (option A)),
    NoDup columns ->
    (forall i c, nth_error columns i = Some c ->
       mget String.eqb c (new_map_with_row columns row) = Some (nth i row None)) /\
    (forall c, ~ In c columns -> mget String.eqb c (new_map_with_row columns row) = None).
Proof. exact @map_of_row. Qed.
Print Assumptions C47_map_of_row.

(** The map of the current row of a result set. *)
Theorem C47_map_of_result_set :
  forall (A : Type) (columns : list string) (rows : list (list (option A))) n row, NoDup columns -> nth_error rows n = Some row ->
    exists m, fr_map (fr_advance (S n) (new_fn_rset columns rows)) = Ok m /\
    (forall i c, nth_error columns i = Some c -> mget String.eqb c m = Some (nth i row None)) /\
    (forall c, ~ In c columns -> mget String.eqb c m = None).
Proof.
  intros A columns rows n row D E. destruct (fn_cursor _ columns rows n) as (_ & _ & F & _).
  assert (C : forall k (rs : fn_rset (list (option A))), fr_columns (fr_advance k rs) = fr_columns rs).
  { induction k as [|k IH]; [reflexivity|]. intro rs. cbn [fr_advance]. rewrite IH. unfold fr_next. destruct (_ <=? _)%Z; reflexivity. }
  exists (new_map_with_row columns row). split; [|exact (map_of_row _ columns row D)].
  unfold fr_map. rewrite (F row E), C. reflexivity.
Qed.
Print Assumptions C47_map_of_result_set.

Example C47_example :
  mget String.eqb "b" (new_map_with_row ["a"; "b"; "c"] [Some 1; Some 2]) = Some (Some 2) /\
  mget String.eqb "c" (new_map_with_row ["a"; "b"; "c"] [Some 1; Some 2]) = Some None.
Proof. split; reflexivity. Qed.
