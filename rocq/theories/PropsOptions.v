(** Properties C67-C68: building a result set from options and reading it, and scanning rows. *)
From Verif Require Import GoBase ModelResultSet ModelFn ModelQuery ModelAggregate ModelOptions SpecResultSet SpecAggregate SpecOptions
  ProofOptions.

(** C67: NewResultSetFrom fails iff some option gives rows of a type it does not know; otherwise every
    getter returns what the last option of its kind gave, whatever the order of the options. *)
Theorem C67_options :
  forall (V : Type) (opts : list (rsopt V)),
    match new_result_set_from opts with
    | Ok b =>
        ~ In (RsRowsOf RoOther) opts /\ new_result_set opts = b /\
        rb_schema b = last_given given_schema opts None /\
        rb_affected b = last_given given_affected opts 0%N /\
        rb_offset b = last_given given_offset opts 0%N /\
        rb_limit b = last_given given_limit opts 0%N /\
        rb_group b = last_given given_group opts "" /\
        map (fun r => snd (row_get_object r)) (rb_rows b) = last_given given_rows opts []
    | Err _ => In (RsRowsOf RoOther) opts
    | Panic => False
    end.
Proof. exact @built. Qed.
Print Assumptions C67_options.

(** Reading it in a loop of Next and Row gives, for the rows of the LIMIT/OFFSET window and nothing
    else, the value of every schema column: the function's result, or the row's value of that name. *)
Theorem C67_read_back :
  forall (V : Type) (execute : exe -> list string -> object V -> result (option V)) (opts : list (rsopt V)) s fuel,
    let rows := window (last_given given_rows opts []) (last_given given_offset opts 0%N) (last_given given_limit opts 0%N) in
    ~ In (RsRowsOf RoOther) opts ->
    last_given given_schema opts None = Some s -> NoDup (headings s) ->
    (last_given given_offset opts 0 + last_given given_limit opts 0 < 2 ^ 64)%N ->
    (last_given given_offset opts 0 + N.of_nat (length rows) + 1 < 2 ^ 64)%N ->
    length rows < fuel ->
    exists b, new_result_set_from opts = Ok b /\
      read_rows execute b fuel =
        Some (map (fun o => all_ok (map (fun c => column_value (rcolumn_of execute c) o) (rss_columns s))) rows).
Proof. intros V. exact (@read_back V). Qed.
Print Assumptions C67_read_back.

Definition op_exec (_ : exe) (_ : list string) (_ : object nat) : result (option nat) := Panic.
Definition op_schema : rschema :=
  mkRschema "db" "t" [mkScol "b" IntType 0%N None; mkScol "a" IntType 0%N None] None.
(** The rows are given before the schema. *)
Definition op_opts : list (rsopt nat) :=
  [RsLimit 9; RsRowsOf (RoMaps [[("a", Some 1); ("b", Some 2)]; [("a", Some 3)]; [("b", Some 4); ("c", Some 9)]]);
   RsSchema op_schema; RsOffset 1; RsLimit 2].
Example C67_example :
  last_given given_schema op_opts None = Some op_schema /\ NoDup (headings op_schema) /\
  last_given given_offset op_opts 0%N = 1%N /\ last_given given_limit op_opts 0%N = 2%N /\
  match new_result_set_from op_opts with
  | Ok b => read_rows op_exec b 3 = Some [Ok [None; Some 3]; Ok [Some 4; None]]
  | _ => False
  end.
Proof.
  split; [reflexivity|]. split; [|repeat split; reflexivity].
  repeat constructor; cbn; intuition discriminate.
Qed.

(** NewRowsFromMapRows makes one row of each map, in their order. *)
Theorem C67_map_rows : forall (V : Type) (maps : list (object V)),
  length (rows_from_map_rows maps) = length maps /\
  forall i m, nth_error maps i = Some m -> exists r, nth_error (rows_from_map_rows maps) i = Some r /\ snd (row_get_object r) = m.
Proof.
  intros V maps. split; [apply map_length|]. intros i m H. eexists. split; [exact (map_nth_error _ i maps H)|]. reflexivity.
Qed.
Print Assumptions C67_map_rows.

(** Without a schema every row that is read panics. *)
Theorem C67_no_schema_refuted :
  forall (V : Type) (execute : exe -> list string -> object V -> result (option V)) (opts : list (rsopt V)) b r rest,
    new_result_set_from opts = Ok b -> last_given given_schema opts None = None ->
    (last_given given_offset opts 0 + last_given given_limit opts 0 < 2 ^ 64)%N ->
    window (last_given given_rows opts []) (last_given given_offset opts 0%N) (last_given given_limit opts 0%N) = r :: rest ->
    (last_given given_offset opts 0 + N.of_nat (length (r :: rest)) + 1 < 2 ^ 64)%N ->
    exists l, read_rows execute b (S (length (r :: rest))) = Some (Panic :: l).
Proof. intros V. exact (@unread_without_schema V). Qed.
Print Assumptions C67_no_schema_refuted.

Example C67_no_schema_example :
  match new_result_set_from [RsRows [mkRow (Some [("a", Some 1)]) (Some ["a"]) None]] with
  | Ok b => read_rows op_exec b 3 = Some [Panic]
  | _ => False
  end.
Proof. reflexivity. Qed.

(** NewResultSet does not report rows of an unknown type: the result set is empty. *)
Theorem C67_hidden_error_refuted :
  forall V : Type, rb_rows (new_result_set [@RsRowsOf V RoOther]) = [] /\ new_result_set_from [@RsRowsOf V RoOther] = Err ErrOther.
Proof. intros V. split; reflexivity. Qed.
Print Assumptions C67_hidden_error_refuted.

(** C68: Scan converts the row's values into the destinations in order: with [n] conversions done the
    first [n] destinations hold the converted values and the others are as before; it succeeds iff
    all are done, and otherwise reports the failure of the next conversion, or ErrNotExist when the
    row has no more values.  [to] is the conversion of one value, whatever it is. *)
Theorem C68_scan :
  forall (A T : Type) (to : option A -> T -> result T) (r : row A) (tos : list T) values,
    row_run r [RValues] = [ROValues values] ->
    exists n done_,
      fst (scan to r tos) = done_ ++ skipn n tos /\ n <= length tos /\ n <= length values /\
      Forall2 (fun vt t' => to (fst vt) (snd vt) = Ok t') (combine (firstn n values) (firstn n tos)) done_ /\
      match snd (scan to r tos) with
      | Ok _ => n = length tos
      | Err ErrNotExist =>
          nth_error tos n <> None /\ (n = length values \/
            exists v t, nth_error values n = Some v /\ nth_error tos n = Some t /\ to v t = Err ErrNotExist)
      | Err e => exists v t, nth_error values n = Some v /\ nth_error tos n = Some t /\ to v t = Err e
      | Panic => exists v t, nth_error values n = Some v /\ nth_error tos n = Some t /\ to v t = Panic
      end.
Proof. exact @scan_prefix. Qed.
Print Assumptions C68_scan.

(** ScanAt and ScanBy convert what ValueAt and ValueBy return (so ScanAt panics on a negative index
    like ValueAt, property C10). *)
Theorem C68_scan_at_by :
  forall (A T : Type) (to : option A -> T -> result T) (r : row A) i name t,
    (forall x, row_run r [RValueAt i] = [RORes x] -> scan_at to r i t = rbind x (fun v => to v t)) /\
    (forall x, row_run r [RValueBy name] = [RORes x] -> scan_by to r name t = rbind x (fun v => to v t)).
Proof. exact @scan_one. Qed.
Print Assumptions C68_scan_at_by.

Definition op_to (v : option nat) (t : nat) : result nat :=
  match v with Some 7 => Err ErrCast | Some x => Ok x | None => Ok 0 end.
Example C68_example :
  let r := mkRow None (Some ["a"; "b"; "c"]) (Some [Some 1; Some 7; Some 3]) in
  row_run r [RValues] = [ROValues [Some 1; Some 7; Some 3]] /\
  scan op_to r [10; 20; 30] = ([1; 20; 30], Err ErrCast) /\ scan op_to r [10] = ([1], Ok tt) /\
  scan_by op_to r "c" 5 = Ok 3 /\ scan_at op_to r 1 5 = Err ErrCast /\ scan_at op_to r 3 5 = Err ErrNotExist /\
  scan_at op_to r (-1) 5 = Panic.
Proof. repeat split; reflexivity. Qed.
