(** Properties C12-C21: aggregate functions. *)
From Coq Require Import Floats.SpecFloat.
From Verif Require Import GoBase ModelResultSet ModelAggr SpecAggr FactsBase ProofAggr ProofAggr2 ProofAggr3 ProofFloat.

(** Values for the examples: integers and texts; texts are not numbers. *)
Inductive ex_val := XN (z : Z) | XS (s : string).
Definition ex_float (v : ex_val) : option float :=
  match v with XN z => Some (float_of_int z) | XS _ => None end.
Definition ex_str (v : option ex_val) : option string :=
  match v with
  | Some (XS s) => Some s
  | Some (XN z) => Some (if Z.eqb z 0 then "0" else if Z.eqb z 1 then "1" else if Z.eqb z 2 then "2" else "n")
  | None => Some "nil"
  end.
Definition ex_rank (v : option ex_val) : Z :=
  match v with Some (XN z) => z | Some (XS "x") => 100 | Some (XS "y") => 101 | Some (XS _) => 102 | None => -100 end.
Definition ex_cmp (a b : option ex_val) : option comparison := Some (Z.compare (ex_rank a) (ex_rank b)).
Definition ex_sort := insertion_sort.
Definition ex_row (b : nat) (l : list (option ex_val)) : frow ex_val := mkFrow b l.
Definition ex_mem (rows : list (frow ex_val)) (b : nat) : list (option ex_val) :=
  match find (fun r => fr_buf r =? b) rows with Some r => fr_cells r | None => [] end.
Definition ex_new (k : kind) (args groups : list string) : aggr :=
  match new_aggr k [OptArgs args; OptGroups groups] with Ok a => a | _ => blank_aggr k end.
Definition ex_run := aggregate_rows ex_float ex_str.
Definition ex_finalize (rows : list (frow ex_val)) (ob : orderby) (iter : list string) (st : aggr) :=
  finalize ex_cmp (ex_mem rows) ob ex_sort iter st.
Definition num (z : Z) : cell ex_val := CNum (float_of_int z).

(** C12: an ungrouped COUNT yields the number of rows, exactly (up to 2^53, where float64 ends). *)
Theorem C12_count_rows :
  forall (V : Type) (to_float : V -> option float) (to_str : option V -> option string)
    (compare : option V -> option V -> option comparison) st opts st0 arg rows mem ob sort iter,
    reset st opts = (st0, Ok tt) -> a_kind st0 = COUNT -> a_groups st0 = [] -> a_args st0 = [arg] ->
    accepted (snd (aggregate_rows to_float to_str st0 rows)) ->
    (Z.of_nat (length rows) < 2 ^ 53)%Z ->
    exists f, is_integer f (Z.of_nat (length rows)) /\
      finalize compare mem ob sort iter (fst (aggregate_rows to_float to_str st0 rows)) =
      Ok (new_fn_rset [aggregate_name COUNT arg] [[CNum f]]).
Proof.
  intros V to_float to_str compare st opts st0 arg rows mem ob sort iter R K G A Acc L.
  exists (float_of_int (Z.of_nat (length rows))). split; [apply float_of_int_exact; lia|].
  rewrite (plain_finalize to_float to_str compare st opts) by auto. apply reset_ok in R. destruct R as (C & _).
  rewrite C. unfold columns_of, is_grouping. rewrite G, A, K. cbn. unfold column. rewrite !map_length. reflexivity.
Qed.
Print Assumptions C12_count_rows.

Definition ex_rows1 := [ex_row 0 [Some (XN 3)]; ex_row 1 [None]; ex_row 2 [Some (XN (-5))]].
Example C12_example :
  accepted (snd (ex_run (ex_new COUNT ["a"] []) ex_rows1)) /\
  ex_finalize ex_rows1 OrderNone [] (fst (ex_run (ex_new COUNT ["a"] []) ex_rows1)) =
  Ok (new_fn_rset ["COUNT(a)"] [[num 3]]).
Proof. split; [repeat constructor|vm_compute; reflexivity]. Qed.

(** C13: ungrouped SUM and AVG, one value per argument. *)
Theorem C13_sum_avg :
  forall (V : Type) (to_float : V -> option float) (to_str : option V -> option string)
    (compare : option V -> option V -> option comparison) st opts st0 rows mem ob sort iter,
    reset st opts = (st0, Ok tt) -> a_groups st0 = [] ->
    accepted (snd (aggregate_rows to_float to_str st0 rows)) ->
    let nums i := map (fun r => number to_float (nth i (fr_cells r) None)) rows in
    let result := finalize compare mem ob sort iter (fst (aggregate_rows to_float to_str st0 rows)) in
    (a_kind st0 = SUM ->
       result = Ok (new_fn_rset (map (aggregate_name SUM) (a_args st0))
         [map (fun i => CNum (fold_left fadd (nums i) fzero)) (seq 0 (length (a_args st0)))])) /\
    (a_kind st0 = AVG -> rows <> [] ->
       result = Ok (new_fn_rset (map (aggregate_name AVG) (a_args st0))
         [map (fun i => CNum (fdiv (fold_left fadd (nums i) fzero) (float_of_int (Z.of_nat (length rows)))))
              (seq 0 (length (a_args st0)))])) /\
    (a_kind st0 = AVG -> rows = [] ->
       result = Ok (new_fn_rset (map (aggregate_name AVG) (a_args st0))
         [map (fun _ => CNil) (a_args st0)])).
Proof.
  intros V to_float to_str compare st opts st0 rows mem ob sort iter R G Acc nums result.
  unfold result. rewrite (plain_finalize to_float to_str compare st opts) by auto.
  apply reset_ok in R. destruct R as (C & _).
  rewrite C. unfold columns_of, is_grouping. rewrite G. cbn [length Nat.eqb negb app].
  assert (CO : forall i, column to_float (map fr_cells rows) i = nums i).
  { intros i. unfold column, nums. now rewrite map_map. }
  assert (CL : forall i, length (nums i) = length rows) by (intros; apply map_length).
  split; [|split].
  - intros ->. do 3 f_equal. unfold aggregates. apply map_ext. intros i. cbn. now rewrite CO.
  - intros -> NE. do 3 f_equal. unfold aggregates. apply map_ext. intros i. unfold aggregate_of. rewrite CO.
    specialize (CL i). destruct (nums i) eqn:E.
    + destruct rows; [congruence|discriminate].
    + rewrite <- CL. reflexivity.
  - intros -> ->. do 3 f_equal. unfold aggregates. cbn. generalize 0 at 1.
    induction (a_args st0); intros n; cbn; auto. now rewrite IHl.
Qed.
Print Assumptions C13_sum_avg.

Example C13_example :
  ex_finalize ex_rows1 OrderNone [] (fst (ex_run (ex_new SUM ["a"] []) ex_rows1)) = Ok (new_fn_rset ["SUM(a)"] [[num (-2)]]) /\
  ex_finalize [] OrderNone [] (ex_new AVG ["a"] []) = Ok (new_fn_rset ["AVG(a)"] [[CNil]]).
Proof. split; vm_compute; reflexivity. Qed.

(** C14: ungrouped MIN and MAX over one argument. *)
Theorem C14_max_extreme :
  forall (V : Type) (to_float : V -> option float) (to_str : option V -> option string)
    (compare : option V -> option V -> option comparison) st opts st0 arg rows mem ob sort iter,
    reset st opts = (st0, Ok tt) -> a_kind st0 = MAX -> a_groups st0 = [] -> a_args st0 = [arg] ->
    accepted (snd (aggregate_rows to_float to_str st0 rows)) ->
    let nums := map (fun r => number to_float (hd None (fr_cells r))) rows in
    Forall (fun x => x <> S754_nan) nums ->
    let result := finalize compare mem ob sort iter (fst (aggregate_rows to_float to_str st0 rows)) in
    (rows = [] -> result = Ok (new_fn_rset [aggregate_name MAX arg] [[CNil]])) /\
    (rows <> [] -> exists m, result = Ok (new_fn_rset [aggregate_name MAX arg] [[CNum m]]) /\
       In m nums /\ forall x, In x nums -> fltb m x = false).
Proof.
  intros V to_float to_str compare st opts st0 arg rows mem ob sort iter R K G A Acc nums F result.
  unfold result. rewrite (plain_finalize to_float to_str compare st opts) by auto.
  apply reset_ok in R. destruct R as (C & _).
  rewrite C. unfold columns_of, is_grouping. rewrite G, A, K. cbn [length Nat.eqb negb app map kind_name].
  assert (CO : column to_float (map fr_cells rows) 0 = nums).
  { unfold column, nums. rewrite map_map. apply map_ext. intros r. destruct (fr_cells r); auto. }
  unfold aggregates. cbn [seq map]. rewrite CO. split.
  - intros ->. reflexivity.
  - intros NE. destruct (max_extreme nums) as (m & -> & I & X).
    + unfold nums. destruct rows; [congruence|discriminate].
    + eapply Forall_impl; [|exact F]. intros x. destruct x; cbn; congruence.
    + exists m. auto.
Qed.
Print Assumptions C14_max_extreme.

(** For MIN one of the values must be other than +Inf (see below); [valid_binary] says that the
    floats are float64 values, which every Go value is. *)
Theorem C14_min_extreme :
  forall (V : Type) (to_float : V -> option float) (to_str : option V -> option string)
    (compare : option V -> option V -> option comparison) st opts st0 arg rows mem ob sort iter,
    reset st opts = (st0, Ok tt) -> a_kind st0 = MIN -> a_groups st0 = [] -> a_args st0 = [arg] ->
    accepted (snd (aggregate_rows to_float to_str st0 rows)) ->
    let nums := map (fun r => number to_float (hd None (fr_cells r))) rows in
    Forall (fun x => x <> S754_nan /\ valid_binary 53 1024 x = true) nums ->
    let result := finalize compare mem ob sort iter (fst (aggregate_rows to_float to_str st0 rows)) in
    (rows = [] -> result = Ok (new_fn_rset [aggregate_name MIN arg] [[CNil]])) /\
    ((exists x, In x nums /\ x <> S754_infinity false) ->
       exists m, result = Ok (new_fn_rset [aggregate_name MIN arg] [[CNum m]]) /\
       In m nums /\ forall x, In x nums -> fltb x m = false).
Proof.
  intros V to_float to_str compare st opts st0 arg rows mem ob sort iter R K G A Acc nums F result.
  unfold result. rewrite (plain_finalize to_float to_str compare st opts) by auto.
  apply reset_ok in R. destruct R as (C & _).
  rewrite C. unfold columns_of, is_grouping. rewrite G, A, K. cbn [length Nat.eqb negb app map kind_name].
  assert (CO : column to_float (map fr_cells rows) 0 = nums).
  { unfold column, nums. rewrite map_map. apply map_ext. intros r. destruct (fr_cells r); auto. }
  unfold aggregates. cbn [seq map]. rewrite CO. split.
  - intros ->. reflexivity.
  - intros IX. destruct (min_extreme nums) as (m & -> & I & X); auto.
    + destruct IX as (x & I & _). destruct nums; [destruct I|discriminate].
    + eapply Forall_impl; [|exact F]. intros x (N & W). split; auto. destruct x; cbn; congruence.
    + exists m. auto.
Qed.
Print Assumptions C14_min_extreme.

Example C14_example :
  ex_finalize ex_rows1 OrderNone [] (fst (ex_run (ex_new MIN ["a"] []) ex_rows1)) = Ok (new_fn_rset ["MIN(a)"] [[num (-5)]]) /\
  ex_finalize ex_rows1 OrderNone [] (fst (ex_run (ex_new MAX ["a"] []) ex_rows1)) = Ok (new_fn_rset ["MAX(a)"] [[num 3]]) /\
  valid_binary 53 1024 (float_of_int (-5)) = true.
Proof. repeat split; vm_compute; reflexivity. Qed.

(** MIN of values that are all +Inf is MaxFloat64, which is not one of them. *)
Theorem C14_min_of_infinities_refuted :
  exists rows : list (frow float),
    let st := ex_new MIN ["a"] [] in
    let run := aggregate_rows (@Some float) (fun _ => None) st rows in
    accepted (snd run) /\ Forall (fun r => fr_cells r = [Some (S754_infinity false)]) rows /\ rows <> [] /\
    finalize (V := float) (fun _ _ => None) (fun _ => []) OrderNone (fun _ l => l) [] (fst run) =
      Ok (new_fn_rset ["MIN(a)"] [[CNum max_float]]).
Proof.
  exists [mkFrow 0 [Some (S754_infinity false)]]. cbv zeta. split; [|split; [|split]].
  - repeat constructor.
  - repeat constructor.
  - discriminate.
  - vm_compute. reflexivity.
Qed.
Print Assumptions C14_min_of_infinities_refuted.

(** A NULL counts as 0 for MAX: the maximum of -5 and NULL is 0. *)
Theorem C14_null_is_zero :
  exists rows, map (@fr_cells _) rows = [[Some (XN (-5))]; [None]] /\
    accepted (snd (ex_run (ex_new MAX ["a"] []) rows)) /\
    ex_finalize rows OrderNone [] (fst (ex_run (ex_new MAX ["a"] []) rows)) = Ok (new_fn_rset ["MAX(a)"] [[num 0]]).
Proof.
  exists [ex_row 0 [Some (XN (-5))]; ex_row 1 [None]]. split; [reflexivity|split; [repeat constructor|vm_compute; reflexivity]].
Qed.
Print Assumptions C14_null_is_zero.

(** C15: permuting the rows of an ungrouped COUNT, MIN or MAX changes nothing. *)
Theorem C15_row_order :
  forall (V : Type) (to_float : V -> option float) (to_str : option V -> option string)
    (compare : option V -> option V -> option comparison) st opts st0 rows rows' mem ob sort iter,
    reset st opts = (st0, Ok tt) -> a_groups st0 = [] ->
    a_kind st0 = COUNT \/ a_kind st0 = MIN \/ a_kind st0 = MAX ->
    accepted (snd (aggregate_rows to_float to_str st0 rows)) -> Permutation rows rows' ->
    (forall r c, In r rows -> In c (fr_cells r) -> number to_float c <> S754_nan) ->
    accepted (snd (aggregate_rows to_float to_str st0 rows')) /\
    exists out out',
      finalize compare mem ob sort iter (fst (aggregate_rows to_float to_str st0 rows)) = Ok (new_fn_rset (a_columns st0) [out]) /\
      finalize compare mem ob sort iter (fst (aggregate_rows to_float to_str st0 rows')) = Ok (new_fn_rset (a_columns st0) [out']) /\
      (a_kind st0 = COUNT -> out = out') /\ (a_kind st0 <> COUNT -> Forall2 same_cell out out').
Proof. exact @row_order. Qed.
Print Assumptions C15_row_order.

Example C15_example :
  Permutation ex_rows1 (rev ex_rows1) /\
  ex_finalize ex_rows1 OrderNone [] (fst (ex_run (ex_new MIN ["a"] []) (rev ex_rows1))) = Ok (new_fn_rset ["MIN(a)"] [[num (-5)]]).
Proof. split; [apply Permutation_rev|vm_compute; reflexivity]. Qed.

(** SUM depends on the order of the rows: 10^16 + 1 - 10^16 against 1 + 10^16 - 10^16 ... *)
Theorem C15_sum_order_refuted :
  exists rows rows' : list (frow ex_val), Permutation rows rows' /\
    accepted (snd (ex_run (ex_new SUM ["a"] []) rows)) /\ accepted (snd (ex_run (ex_new SUM ["a"] []) rows')) /\
    ex_finalize rows OrderNone [] (fst (ex_run (ex_new SUM ["a"] []) rows)) = Ok (new_fn_rset ["SUM(a)"] [[num 0]]) /\
    ex_finalize rows OrderNone [] (fst (ex_run (ex_new SUM ["a"] []) rows')) = Ok (new_fn_rset ["SUM(a)"] [[num 1]]).
Proof.
  set (a := ex_row 0 [Some (XN (2 ^ 53))]). set (b := ex_row 1 [Some (XN 1)]). set (c := ex_row 2 [Some (XN (- 2 ^ 53))]).
  exists [a; b; c], [a; c; b]. split; [|split; [|split; [|split]]].
  - constructor. constructor.
  - repeat constructor.
  - repeat constructor.
  - vm_compute. reflexivity.
  - vm_compute. reflexivity.
Qed.
Print Assumptions C15_sum_order_refuted.

(** C16: one row per distinct group, holding the group's values and its aggregates.  The group of a
    row is the tuple of texts of its group values.  [keys_distinguishable]: one group column, or no
    commas in the texts.  [unwritten]: the caller has not overwritten the rows it passed. *)
Theorem C16_group_by :
  forall (V : Type) (to_float : V -> option float) (to_str : option V -> option string)
    (compare : option V -> option V -> option comparison) st opts st0 rows mem ob sort iter,
    reset st opts = (st0, Ok tt) -> a_groups st0 <> [] ->
    accepted (snd (aggregate_rows to_float to_str st0 rows)) ->
    unwritten mem (length (a_groups st0)) rows ->
    keys_distinguishable to_str (length (a_groups st0)) (map fr_cells rows) ->
    (forall lt l, Permutation (sort lt l) l) ->
    Permutation iter (map fst (a_gaggrs (fst (aggregate_rows to_float to_str st0 rows)))) ->
    exists out,
      finalize compare mem ob sort iter (fst (aggregate_rows to_float to_str st0 rows)) = Ok (new_fn_rset (a_columns st0) out) /\
      Permutation out (grouped to_float to_str (a_kind st0) (length (a_groups st0)) (length (a_args st0)) (map fr_cells rows)).
Proof. exact @finalize_grouped. Qed.
Print Assumptions C16_group_by.

Definition ex_rows2 := [ex_row 0 [Some (XS "y"); Some (XN 3)]; ex_row 1 [Some (XS "x"); Some (XN 4)];
                        ex_row 2 [Some (XS "y"); Some (XN (-5))]].
Example C16_example :
  let st := fst (ex_run (ex_new SUM ["a"] ["g"]) ex_rows2) in
  accepted (snd (ex_run (ex_new SUM ["a"] ["g"]) ex_rows2)) /\ unwritten (ex_mem ex_rows2) 1 ex_rows2 /\
  Permutation ["x"; "y"] (map fst (a_gaggrs st)) /\
  ex_finalize ex_rows2 OrderNone ["x"; "y"] st =
    Ok (new_fn_rset ["g"; "SUM(a)"] [[CVal (XS "x"); num 4]; [CVal (XS "y"); num (-2)]]).
Proof.
  cbv zeta. split; [repeat constructor|split; [|split]].
  - intros r [<-|[<-|[<-|[]]]]; reflexivity.
  - apply perm_swap.
  - vm_compute. reflexivity.
Qed.

(** Without the guard on commas two different groups are merged. *)
Theorem C16_comma_collision_refuted :
  exists rows, map (@fr_cells _) rows = [[Some (XS "a,b"); Some (XS "c"); Some (XN 1)]; [Some (XS "a"); Some (XS "b,c"); Some (XN 2)]] /\
    accepted (snd (ex_run (ex_new SUM ["v"] ["g"; "h"]) rows)) /\
    ex_finalize rows OrderNone (map fst (a_gaggrs (fst (ex_run (ex_new SUM ["v"] ["g"; "h"]) rows))))
      (fst (ex_run (ex_new SUM ["v"] ["g"; "h"]) rows)) =
    Ok (new_fn_rset ["g"; "h"; "SUM(v)"] [[CVal (XS "a,b"); CVal (XS "c"); num 3]]).
Proof.
  exists [ex_row 0 [Some (XS "a,b"); Some (XS "c"); Some (XN 1)]; ex_row 1 [Some (XS "a"); Some (XS "b,c"); Some (XN 2)]].
  split; [reflexivity|split; [repeat constructor|vm_compute; reflexivity]].
Qed.
Print Assumptions C16_comma_collision_refuted.

(** Without the guard on the caller's buffer: when the caller reuses one slice for all rows, the
    groups are reported with the values last written into it. *)
Theorem C16_reused_buffer_refuted :
  let rows := [ex_row 0 [Some (XS "x"); Some (XN 1)]; ex_row 0 [Some (XS "y"); Some (XN 2)]] in
  let st := fst (ex_run (ex_new SUM ["v"] ["g"]) rows) in
  accepted (snd (ex_run (ex_new SUM ["v"] ["g"]) rows)) /\
  finalize ex_cmp (fun _ => [Some (XS "y"); Some (XN 2)]) OrderNone ex_sort ["x"; "y"] st =
    Ok (new_fn_rset ["g"; "SUM(v)"] [[CVal (XS "y"); num 1]; [CVal (XS "y"); num 2]]).
Proof. cbv zeta. split; [repeat constructor|vm_compute; reflexivity]. Qed.
Print Assumptions C16_reused_buffer_refuted.

(** C17: after a successful Reset() an aggregator in any reachable state answers every later row and
    Finalize like a new one with its configuration. *)
Theorem C17_reset_forgets :
  forall (V : Type) (to_float : V -> option float) (to_str : option V -> option string)
    (compare : option V -> option V -> option comparison) st s rows,
    reachable to_float to_str st -> reset st [] = (s, Ok tt) ->
    exists fresh, new_aggr (a_kind st) [OptArgs (a_args st); OptGroups (a_groups st)] = Ok fresh /\
      snd (aggregate_rows to_float to_str s rows) = snd (aggregate_rows to_float to_str fresh rows) /\
      forall mem ob sort iter, sort_contract sort ->
        Permutation iter (map fst (a_gaggrs (fst (aggregate_rows to_float to_str s rows)))) ->
        finalize compare mem ob sort iter (fst (aggregate_rows to_float to_str s rows)) =
        finalize compare mem ob sort iter (fst (aggregate_rows to_float to_str fresh rows)).
Proof. exact @reset_forgets. Qed.
Print Assumptions C17_reset_forgets.

Example C17_example :
  let st := fst (ex_run (ex_new SUM ["a"] ["g"]) ex_rows2) in
  reachable ex_float ex_str st /\ snd (reset st []) = Ok tt /\ a_keys (fst (reset st [])) <> [].
Proof.
  cbv zeta. split; [|split; vm_compute; [reflexivity|discriminate]].
  apply reachable_rows. apply (reach_new ex_float ex_str SUM [OptArgs ["a"]; OptGroups ["g"]]). reflexivity.
Qed.

(** C18: a rejected row is not observable later, for one argument and, when grouping, a group that
    already exists (or group values without text).  Missing: several arguments, and new groups;
    both refuted below. *)
Theorem C18_rejected_row_partial :
  forall (V : Type) (to_float : V -> option float) (to_str : option V -> option string)
    (compare : option V -> option V -> option comparison) st r later,
    length (a_columns st) <= length (a_groups st) + 1 ->
    snd (aggregate_row to_float to_str st r) <> Ok tt ->
    (is_grouping st = true -> forall key,
       group_set_key to_str (a_groups st) (firstn (length (a_groups st)) (fr_cells r)) = Ok key ->
       In key (map fst (a_gaggrs st))) ->
    let a := aggregate_rows to_float to_str (fst (aggregate_row to_float to_str st r)) later in
    let b := aggregate_rows to_float to_str st later in
    snd a = snd b /\
    forall mem ob sort iter, sort_contract sort -> Permutation iter (map fst (a_gaggrs (fst a))) ->
      finalize compare mem ob sort iter (fst a) = finalize compare mem ob sort iter (fst b).
Proof. exact @rejected_unobservable. Qed.
Print Assumptions C18_rejected_row_partial.

Example C18_example :
  let st := fst (ex_run (ex_new SUM ["a"] ["g"]) ex_rows2) in
  let bad := ex_row 7 [Some (XS "x"); Some (XS "not a number")] in
  snd (aggregate_row ex_float ex_str st bad) = Err ErrInvalid /\ In "x" (map fst (a_gaggrs st)).
Proof. split; vm_compute; auto. Qed.

Theorem C18_partly_added_row_refuted :
  let st := ex_new SUM ["a"; "b"] [] in
  let bad := ex_row 0 [Some (XN 1); Some (XS "not a number")] in
  snd (aggregate_row ex_float ex_str st bad) = Err ErrInvalid /\
  ex_finalize [] OrderNone [] st = Ok (new_fn_rset ["SUM(a)"; "SUM(b)"] [[num 0; num 0]]) /\
  ex_finalize [] OrderNone [] (fst (aggregate_row ex_float ex_str st bad)) =
    Ok (new_fn_rset ["SUM(a)"; "SUM(b)"] [[num 1; num 0]]).
Proof. repeat split; vm_compute; reflexivity. Qed.
Print Assumptions C18_partly_added_row_refuted.

Theorem C18_phantom_group_refuted :
  let st := ex_new SUM ["a"] ["g"] in
  let bad := ex_row 0 [Some (XS "x"); Some (XS "not a number")] in
  let st' := fst (aggregate_row ex_float ex_str st bad) in
  snd (aggregate_row ex_float ex_str st bad) = Err ErrInvalid /\
  ex_finalize [bad] OrderNone (map fst (a_gaggrs st)) st = Ok (new_fn_rset ["g"; "SUM(a)"] []) /\
  ex_finalize [bad] OrderNone (map fst (a_gaggrs st')) st' =
    Ok (new_fn_rset ["g"; "SUM(a)"] [[CVal (XS "x"); num 0]]).
Proof. repeat split; vm_compute; reflexivity. Qed.
Print Assumptions C18_phantom_group_refuted.

(** C19: ascending order, for any sort meeting the contract of sort.Slice and any comparison that is
    a total preorder on the group values. *)
Theorem C19_ascending :
  forall (V : Type) (to_float : V -> option float) (to_str : option V -> option string)
    (compare : option V -> option V -> option comparison) st opts st0 rows mem sort iter rank,
    reset st opts = (st0, Ok tt) -> a_groups st0 <> [] ->
    accepted (snd (aggregate_rows to_float to_str st0 rows)) ->
    let g := length (a_groups st0) in
    unwritten mem g rows -> sort_contract sort ->
    Permutation iter (map fst (a_gaggrs (fst (aggregate_rows to_float to_str st0 rows)))) ->
    orders compare rank (flat_map (fun r => firstn g (fr_cells r)) rows) ->
    exists out ks,
      finalize compare mem OrderAsc sort iter (fst (aggregate_rows to_float to_str st0 rows)) =
        Ok (new_fn_rset (a_columns st0) out) /\
      map (firstn g) out = map (map key_cell) ks /\ in_order (tuple_less compare) ks.
Proof. exact @finalize_asc. Qed.
Print Assumptions C19_ascending.

(** Descending order, when different groups compare as different and the sort never compares an
    element with itself.  Without the second guard the code relies on more than sort.Slice
    promises: see C19_descending_comparison_refuted. *)
Theorem C19_descending_partial :
  forall (V : Type) (to_float : V -> option float) (to_str : option V -> option string)
    (compare : option V -> option V -> option comparison) st opts st0 rows mem sort iter rank,
    reset st opts = (st0, Ok tt) -> a_groups st0 <> [] ->
    accepted (snd (aggregate_rows to_float to_str st0 rows)) ->
    let g := length (a_groups st0) in
    unwritten mem g rows -> sort_contract sort ->
    Permutation iter (map fst (a_gaggrs (fst (aggregate_rows to_float to_str st0 rows)))) ->
    orders compare rank (flat_map (fun r => firstn g (fr_cells r)) rows) ->
    sorts_distinct sort ->
    (forall r1 r2, In r1 rows -> In r2 rows ->
       map rank (firstn g (fr_cells r1)) = map rank (firstn g (fr_cells r2)) ->
       group_of to_str g (fr_cells r1) = group_of to_str g (fr_cells r2)) ->
    exists out ks,
      finalize compare mem OrderDesc sort iter (fst (aggregate_rows to_float to_str st0 rows)) =
        Ok (new_fn_rset (a_columns st0) out) /\
      map (firstn g) out = map (map key_cell) ks /\ in_order (fun a b => tuple_less compare b a) ks.
Proof. exact @finalize_desc. Qed.
Print Assumptions C19_descending_partial.

(** The rows are the same whatever order is requested. *)
Theorem C19_same_rows :
  forall (V : Type) (to_float : V -> option float) (to_str : option V -> option string)
    (compare : option V -> option V -> option comparison) st opts st0 rows mem ob ob' sort sort' iter iter',
    reset st opts = (st0, Ok tt) -> accepted (snd (aggregate_rows to_float to_str st0 rows)) ->
    unwritten mem (length (a_groups st0)) rows ->
    (forall lt l, Permutation (sort lt l) l) -> (forall lt l, Permutation (sort' lt l) l) ->
    Permutation iter (map fst (a_gaggrs (fst (aggregate_rows to_float to_str st0 rows)))) ->
    Permutation iter' (map fst (a_gaggrs (fst (aggregate_rows to_float to_str st0 rows)))) ->
    exists out out',
      finalize compare mem ob sort iter (fst (aggregate_rows to_float to_str st0 rows)) = Ok (new_fn_rset (a_columns st0) out) /\
      finalize compare mem ob' sort' iter' (fst (aggregate_rows to_float to_str st0 rows)) = Ok (new_fn_rset (a_columns st0) out') /\
      Permutation out out'.
Proof. exact @finalize_any_order. Qed.
Print Assumptions C19_same_rows.

(** The contracts are met by a real sort, and the guards by a real run. *)
Lemma C19_sort_exists : sort_contract ex_sort /\ sorts_distinct ex_sort.
Proof. exact (conj (insertion_contract) (insertion_distinct)). Qed.
Example C19_example :
  let st := fst (ex_run (ex_new SUM ["a"] ["g"]) ex_rows2) in
  orders ex_cmp ex_rank (flat_map (fun r => firstn 1 (fr_cells r)) ex_rows2) /\
  ex_finalize ex_rows2 OrderAsc ["y"; "x"] st =
    Ok (new_fn_rset ["g"; "SUM(a)"] [[CVal (XS "x"); num 4]; [CVal (XS "y"); num (-2)]]) /\
  ex_finalize ex_rows2 OrderDesc ["x"; "y"] st =
    Ok (new_fn_rset ["g"; "SUM(a)"] [[CVal (XS "y"); num (-2)]; [CVal (XS "x"); num 4]]).
Proof.
  cbv zeta. split; [|split; vm_compute; reflexivity]. intros x y _ _. reflexivity.
Qed.

(** For descending order the comparison handed to sort.Slice says that a key is less than itself, so
    it is not an ordering and sort.Slice promises nothing. *)
Theorem C19_descending_comparison_refuted :
  exists rows, accepted (snd (ex_run (ex_new SUM ["a"] ["g"]) rows)) /\
    let st := fst (ex_run (ex_new SUM ["a"] ["g"]) rows) in
    let used := fun sort => order_groups ex_cmp (ex_mem rows) OrderDesc sort st (map fst (a_gaggrs st)) in
    exists lt, (forall sort, used sort = sort lt (map fst (a_gaggrs st))) /\
      map fst (a_gaggrs st) <> [] /\ forall k, In k (map fst (a_gaggrs st)) -> lt k k = true.
Proof.
  exists ex_rows2. split; [repeat constructor|]. cbv zeta.
  set (st := fst (ex_run (ex_new SUM ["a"] ["g"]) ex_rows2)).
  exists (fun a b => negb (key_less ex_cmp (read_slice (ex_mem ex_rows2) (getd (0, 0) a (a_keys st)))
                                           (read_slice (ex_mem ex_rows2) (getd (0, 0) b (a_keys st))))).
  split; [intros; reflexivity|].
  assert (E : map fst (a_gaggrs st) = ["y"; "x"]) by (vm_compute; reflexivity). rewrite E.
  split; [discriminate|]. intros k I. destruct I as [<-|[<-|[]]]; vm_compute; reflexivity.
Qed.
Print Assumptions C19_descending_comparison_refuted.

(** C20: an ungrouped aggregator treats a map as the row of its arguments' values, an asterisk
    standing for NULL; a map without some argument is rejected and changes nothing.
    Missing: grouping aggregators, which reject every map (below). *)
Theorem C20_map_is_row_partial :
  forall (V : Type) (to_float : V -> option float) (to_str : option V -> option string) st buf m,
    ((forall a, In a (a_args st) -> a <> "*" -> mget String.eqb a m <> None) ->
     aggregate_map to_float to_str st buf m =
     aggregate_row to_float to_str st (mkFrow buf (map (fun a =>
       if String.eqb a "*" then None else match mget String.eqb a m with Some v => v | None => None end) (a_args st)))) /\
    (forall a, In a (a_args st) -> a <> "*" -> mget String.eqb a m = None ->
     aggregate_map to_float to_str st buf m = (st, Err ErrNotFound)).
Proof.
  intros. split.
  - intros H. unfold aggregate_map. now rewrite (map_cells_ok _ m H).
  - intros a I N E. unfold aggregate_map. now rewrite (map_cells_missing _ m a I N E).
Qed.
Print Assumptions C20_map_is_row_partial.

Example C20_example :
  ex_finalize [] OrderNone [] (fst (aggregate_map ex_float ex_str (ex_new SUM ["a"] []) 0 [("b", Some (XN 1)); ("a", Some (XN 2))])) =
    Ok (new_fn_rset ["SUM(a)"] [[num 2]]).
Proof. vm_compute. reflexivity. Qed.

(** Grouping aggregators reject every map, whatever it holds. *)
Theorem C20_grouped_map_refuted :
  forall (V : Type) (to_float : V -> option float) (to_str : option V -> option string) st opts st0 rows buf (m : list (string * option V)),
    reset st opts = (st0, Ok tt) -> a_groups st0 <> [] ->
    let st1 := fst (aggregate_rows to_float to_str st0 rows) in
    fst (aggregate_map to_float to_str st1 buf m) = st1 /\
    exists e, snd (aggregate_map to_float to_str st1 buf m) = Err e.
Proof. exact @grouped_map_rejected. Qed.
Print Assumptions C20_grouped_map_refuted.

(** C21: a set of aggregators with one common group column and at least one argument each, when Go
    iterates the members' maps in the same order.  Missing: other iteration orders, several group
    columns, ungrouped sets (refuted below). *)
Theorem C21_set_partial :
  forall (V : Type) (to_float : V -> option float) (to_str : option V -> option string)
    (compare : option V -> option V -> option comparison) ms c rows mem sort iter,
    ms <> [] ->
    Forall (fun m => (exists st opts, reset st opts = (m, Ok tt)) /\ a_groups m = [c] /\ a_args m <> []) ms ->
    accepted (snd (set_aggregate_rows to_float to_str ms rows)) ->
    unwritten mem 1 rows ->
    Forall (fun m => Permutation iter (map fst (a_gaggrs m))) (fst (set_aggregate_rows to_float to_str ms rows)) ->
    exists ts,
      Permutation ts (nodup (list_eq_dec string_dec) (map (group_of to_str 1) (map fr_cells rows))) /\
      aggr_set_finalize compare mem sort
        (map (fun m => (m, iter)) (fst (set_aggregate_rows to_float to_str ms rows))) =
      Ok (new_fn_rset (c :: flat_map (fun m => map (aggregate_name (a_kind m)) (a_args m)) ms)
            (map (set_row to_float to_str (map (fun m => (a_kind m, length (a_args m))) ms) (map fr_cells rows)) ts)).
Proof. exact @set_results. Qed.
Print Assumptions C21_set_partial.

Definition ex_set := [ex_new SUM ["a"] ["g"]; ex_new COUNT ["a"] ["g"]].
Definition ex_set_run := set_aggregate_rows ex_float ex_str ex_set ex_rows2.
Example C21_example :
  accepted (snd ex_set_run) /\
  aggr_set_finalize ex_cmp (ex_mem ex_rows2) ex_sort (map (fun m => (m, ["x"; "y"])) (fst ex_set_run)) =
    Ok (new_fn_rset ["g"; "SUM(a)"; "COUNT(a)"] [[CVal (XS "x"); num 4; num 1]; [CVal (XS "y"); num (-2); num 2]]).
Proof. split; [repeat constructor|vm_compute; reflexivity]. Qed.

(** When Go iterates the two maps in different orders, a group gets the other group's count. *)
Theorem C21_iteration_order_refuted :
  accepted (snd ex_set_run) /\
  Forall (fun m => Permutation ["x"; "y"] (map fst (a_gaggrs m)) /\ Permutation ["y"; "x"] (map fst (a_gaggrs m))) (fst ex_set_run) /\
  aggr_set_finalize ex_cmp (ex_mem ex_rows2) ex_sort (combine (fst ex_set_run) [["x"; "y"]; ["y"; "x"]]) =
    Ok (new_fn_rset ["g"; "SUM(a)"; "COUNT(a)"] [[CVal (XS "x"); num 4; num 2]; [CVal (XS "y"); num (-2); num 1]]).
Proof.
  split; [repeat constructor|split; [|vm_compute; reflexivity]].
  assert (P : Permutation ["x"; "y"] ["y"; "x"]) by apply perm_swap.
  assert (E : map (fun m => map fst (a_gaggrs m)) (fst ex_set_run) = [["y"; "x"]; ["y"; "x"]]) by (vm_compute; reflexivity).
  apply Forall_forall. intros m I.
  assert (J : In (map fst (a_gaggrs m)) [["y"; "x"]; ["y"; "x"]]) by (rewrite <- E; exact (in_map (fun m => map fst (a_gaggrs m)) _ _ I)).
  destruct J as [J|[J|[]]]; rewrite <- J; (split; [exact P|apply Permutation_refl]).
Qed.
Print Assumptions C21_iteration_order_refuted.

(** Without grouping the second member's column name is dropped but its value is not. *)
Theorem C21_ungrouped_set_refuted :
  let run := set_aggregate_rows ex_float ex_str [ex_new SUM ["a"] []; ex_new COUNT ["a"] []] ex_rows1 in
  accepted (snd run) /\
  aggr_set_finalize ex_cmp (ex_mem ex_rows1) ex_sort (map (fun m => (m, [])) (fst run)) =
    Ok (new_fn_rset ["SUM(a)"] [[num (-2); num 3]]).
Proof. cbv zeta. split; [repeat constructor|vm_compute; reflexivity]. Qed.
Print Assumptions C21_ungrouped_set_refuted.

(** With two group columns the second group value is repeated. *)
Theorem C21_two_group_columns_refuted :
  let rows := [ex_row 0 [Some (XS "x"); Some (XS "y"); Some (XN 3)]] in
  let run := set_aggregate_rows ex_float ex_str [ex_new SUM ["a"] ["g"; "h"]; ex_new COUNT ["a"] ["g"; "h"]] rows in
  accepted (snd run) /\
  aggr_set_finalize ex_cmp (ex_mem rows) ex_sort (map (fun m => (m, ["x,y"])) (fst run)) =
    Ok (new_fn_rset ["g"; "h"; "SUM(a)"; "h"; "COUNT(a)"]
          [[CVal (XS "x"); CVal (XS "y"); num 3; CVal (XS "y"); num 1]]).
Proof. cbv zeta. split; [repeat constructor|vm_compute; reflexivity]. Qed.
Print Assumptions C21_two_group_columns_refuted.
