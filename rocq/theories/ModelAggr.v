(** Model of the aggregators of sql/fn: aggr_impl.go, sum.go, avg.go, min.go, max.go, count.go,
    groupby.go, aggr_set.go. *)
From Coq Require Import Floats.SpecFloat.
From Verif Require Import GoBase ModelResultSet.

(** ** float64: IEEE binary64 from the standard library's executable specification *)
Definition float := spec_float.
Definition fzero : float := S754_zero false.
Definition fadd : float -> float -> float := SFadd 53 1024.
Definition fdiv : float -> float -> float := SFdiv 53 1024.
Definition fltb : float -> float -> bool := SFltb.
(** the Go conversion float64(n) of an int *)
Definition float_of_int (n : Z) : float := binary_normalize 53 1024 n 0 false.
(** math.MaxFloat64 and math.Inf(-1) *)
Definition max_float : float := S754_finite false 9007199254740991 971.
Definition neg_inf : float := S754_infinity true.

(** ** The five aggregate functions *)
Inductive kind := SUM | AVG | MIN | MAX | COUNT.

(** sum.go:40, avg.go:42, min.go:44, max.go:44, count.go:42 *)
Definition kind_name (k : kind) : string :=
  match k with SUM => "SUM" | AVG => "AVG" | MIN => "MIN" | MAX => "MAX" | COUNT => "COUNT" end.

(** the reset functions: sum.go:41-45, avg.go:43-47, min.go:45-49, max.go:45-49, count.go:43-47 *)
Definition reset_value (k : kind) : float :=
  match k with SUM | AVG | COUNT => fzero | MIN => max_float | MAX => neg_inf end.

(** the aggregate functions: sum.go:46-50, avg.go:48-52, min.go:50-57, max.go:50-57, count.go:48-52 *)
Definition agg_value (k : kind) (acc x : float) : float :=
  match k with
  | SUM | AVG => fadd acc x
  | MIN => if fltb x acc then x else acc
  | MAX => if fltb acc x then x else acc
  | COUNT => fzero
  end.

(** the finalize functions: sum.go:51-55, avg.go:53-60, min.go:58-65, max.go:58-65, count.go:53-57.
    [None] is nil. *)
Definition final_value (k : kind) (acc : float) (count : nat) : option float :=
  match k with
  | SUM => Some acc
  | AVG => if count =? 0 then None else Some (fdiv acc (float_of_int (Z.of_nat count)))
  | MIN | MAX => if count =? 0 then None else Some acc
  | COUNT => Some (float_of_int (Z.of_nat count))
  end.

(** ** aggr_impl.go *)
Section Aggr.
  (** [V] is the type of non-nil Go values.  [to_float] is safecast.ToFloat64, [to_str] is
      safecast.ToString, [compare] is safecast.Compare; [None] is an error. *)
  Context {V : Type} (to_float : V -> option float) (to_str : option V -> option string)
          (compare : option V -> option V -> option comparison).

  (** A row as the caller passes it: a slice, that is a backing array and its contents at the time
      of the call.  The aggregator keeps a slice of the caller's array (aggr_impl.go:237,243). *)
  Record frow := mkFrow { fr_buf : nat; fr_cells : list (option V) }.

  (** A kept slice: backing array and length. *)
  Local Notation slice := (nat * nat)%type.

  (** aggr_impl.go:33-47.  The groupBySet field is never read. *)
  Record aggr := mkAggr {
    a_kind : kind; a_args : list string; a_columns : list string;
    a_aggrs : list float; a_counts : nat; a_groups : list string;
    a_keys : list (string * slice);
    a_gaggrs : list (string * list float);
    a_gcounts : list (string * nat) }.

  (** aggr_impl.go:53-71 together with the kind chosen by NewSum, NewAvg, ... *)
  Definition blank_aggr (k : kind) : aggr := mkAggr k [] [] [] 0 [] [] [] [].

  (** aggr_impl.go:138-147: empty names are dropped *)
  Definition set_groups (st : aggr) (groups : list string) : aggr :=
    mkAggr (a_kind st) (a_args st) (a_columns st) (a_aggrs st) (a_counts st)
           (filter (fun g => negb (String.eqb g "")) groups)
           (a_keys st) (a_gaggrs st) (a_gcounts st).

  (** The options a caller can pass to Reset or to a constructor. *)
  Inductive aopt := OptArgs (l : list string) | OptGroups (l : list string) | OptInvalid.

  (** aggr_impl.go:81-89 (the test is on the arguments already set), 118-123, 160-173 *)
  Definition apply_opt (st : aggr) (o : aopt) : aggr * result unit :=
    match o with
    | OptArgs l =>
        if 1 <? length (a_args st) then (st, Err ErrNotSupported)
        else (mkAggr (a_kind st) l (a_columns st) (a_aggrs st) (a_counts st) (a_groups st)
                     (a_keys st) (a_gaggrs st) (a_gcounts st), Ok tt)
    | OptGroups l => (set_groups st l, Ok tt)
    | OptInvalid => (st, Err ErrInvalid)
    end.
  Fixpoint apply_opts (st : aggr) (opts : list aopt) : aggr * result unit :=
    match opts with
    | [] => (st, Ok tt)
    | o :: opts' =>
        match apply_opt st o with
        | (st', Ok _) => apply_opts st' opts'
        | (st', r) => (st', r)
        end
    end.

  (** aggr_impl.go:150-155 *)
  Definition is_grouping (st : aggr) : bool := negb (length (a_groups st) =? 0).

  (** aggr_impl.go:175-186: the column names *)
  Definition columns_of (st : aggr) : list string :=
    (if is_grouping st then a_groups st else []) ++
    map (fun arg => (kind_name (a_kind st) ++ "(" ++ arg ++ ")")%string) (a_args st).

  (** aggr_impl.go:158-210: groupKeys is not cleared *)
  Definition reset (st : aggr) (opts : list aopt) : aggr * result unit :=
    match apply_opts st opts with
    | (st1, Ok _) =>
        let cols := columns_of st1 in
        if length cols =? 0
        then (mkAggr (a_kind st1) (a_args st1) cols (a_aggrs st1) (a_counts st1) (a_groups st1)
                     (a_keys st1) (a_gaggrs st1) (a_gcounts st1), Err ErrNotSupported)
        else (mkAggr (a_kind st1) (a_args st1) cols
                     (repeat (reset_value (a_kind st1)) (length cols)) 0 (a_groups st1)
                     (a_keys st1) [] [], Ok tt)
    | (st1, r) => (st1, r)
    end.

  (** sum.go:35-71 and its siblings: options, then Reset() *)
  Definition new_aggr (k : kind) (opts : list aopt) : result aggr :=
    match apply_opts (blank_aggr k) opts with
    | (st, Ok _) => match reset st [] with (st', Ok _) => Ok st' | (_, Err e) => Err e | (_, Panic) => Panic end
    | (_, Err e) => Err e
    | (_, Panic) => Panic
    end.

  (** aggr_impl.go:219-231 *)
  Definition cell_float (v : option V) : option float :=
    match v with None => Some fzero | Some x => to_float x end.

  (** aggr_impl.go:253-265 and 267-277: cells are added one by one; an error stops the loop and
      keeps what was added before *)
  Fixpoint agg_cells (k : kind) (accs : list float) (cells : list (option V))
    {struct cells} : list float * result unit :=
    match cells with
    | [] => (accs, Ok tt)
    | c :: cs =>
        match cell_float c with
        | None => (accs, Err ErrInvalid)
        | Some x =>
            match accs with
            | [] => (accs, Panic)
            | a :: accs' => let (r, e) := agg_cells k accs' cs in (agg_value k a x :: r, e)
            end
        end
    end.

  (** groupby.go:40-45, 48-62 *)
  Fixpoint all_some {A B} (f : A -> option B) (l : list A) : option (list B) :=
    match l with
    | [] => Some []
    | x :: l' => match f x, all_some f l' with Some y, Some ys => Some (y :: ys) | _, _ => None end
    end.
  Definition group_set_key (groups : list string) (keys : list (option V)) : result string :=
    if length groups =? length keys then
      match all_some to_str keys with Some texts => Ok (join "," texts) | None => Err ErrCast end
    else Err ErrOther.

  Definition getd {A} (d : A) (k : string) (m : list (string * A)) : A :=
    match mget String.eqb k m with Some x => x | None => d end.

  (** aggr_impl.go:214-280 *)
  Definition aggregate_row (st : aggr) (r : frow) : aggr * result unit :=
    if negb (length (a_columns st) =? length (fr_cells r)) then (st, Err ErrInvalid)
    else if is_grouping st then
      let k := length (a_groups st) in
      match group_set_key (a_groups st) (firstn k (fr_cells r)) with
      | Ok key =>
          let st1 :=
            match mget String.eqb key (a_gaggrs st) with
            | Some _ => st
            | None =>
                mkAggr (a_kind st) (a_args st) (a_columns st) (a_aggrs st) (a_counts st) (a_groups st)
                  (mset String.eqb key (fr_buf r, k) (a_keys st))
                  (mset String.eqb key (repeat (reset_value (a_kind st)) (length (a_columns st) - k)) (a_gaggrs st))
                  (mset String.eqb key 0 (a_gcounts st))
            end in
          let (accs, e) := agg_cells (a_kind st) (getd [] key (a_gaggrs st1)) (skipn k (fr_cells r)) in
          (mkAggr (a_kind st1) (a_args st1) (a_columns st1) (a_aggrs st1) (a_counts st1) (a_groups st1)
             (a_keys st1) (mset String.eqb key accs (a_gaggrs st1))
             (if is_ok e then mset String.eqb key (S (getd 0 key (a_gcounts st1))) (a_gcounts st1)
              else a_gcounts st1), e)
      | Err e => (st, Err e)
      | Panic => (st, Panic)
      end
    else
      let (accs, e) := agg_cells (a_kind st) (a_aggrs st) (fr_cells r) in
      (mkAggr (a_kind st) (a_args st) (a_columns st) accs
         (if is_ok e then S (a_counts st) else a_counts st) (a_groups st)
         (a_keys st) (a_gaggrs st) (a_gcounts st), e).

  (** aggr_impl.go:283-301.  The row it builds is its own array [buf]. *)
  Fixpoint map_cells (args : list string) (m : list (string * option V)) : result (list (option V)) :=
    match args with
    | [] => Ok []
    | a :: args' =>
        if String.eqb a "*" then rbind (map_cells args' m) (fun cs => Ok (None :: cs))
        else match mget String.eqb a m with
             | Some v => rbind (map_cells args' m) (fun cs => Ok (v :: cs))
             | None => Err ErrNotFound
             end
    end.
  Definition aggregate_map (st : aggr) (buf : nat) (m : list (string * option V)) : aggr * result unit :=
    match map_cells (a_args st) m with
    | Ok cells => aggregate_row st (mkFrow buf cells)
    | Err e => (st, Err e)
    | Panic => (st, Panic)
    end.

  (** A value of a result row: one of the caller's group values, a number, or nil. *)
  Inductive cell := CVal (v : V) | CNum (f : float) | CNil.
  Definition key_cell (v : option V) : cell := match v with Some x => CVal x | None => CNil end.
  Definition num_cell (v : option float) : cell := match v with Some f => CNum f | None => CNil end.

  (** orderby.go:17-21 *)
  Inductive orderby := OrderNone | OrderAsc | OrderDesc.

  (** aggr_impl.go:345-359: element-wise; a comparison error means not less *)
  Fixpoint keys_less (a b : list (option V)) : bool :=
    match a, b with
    | x :: a', y :: b' =>
        match compare x y with
        | None => false
        | Some Lt => true
        | Some Gt => false
        | Some Eq => keys_less a' b'
        end
    | _, _ => false
    end.
  (** aggr_impl.go:338-361 *)
  Definition key_less (a b : list (option V)) : bool :=
    if length b <? length a then true else if length a <? length b then false else keys_less a b.

  (** The contents of a kept slice, given the memory at the time of the call. *)
  Definition read_slice (mem : nat -> list (option V)) (s : slice) : list (option V) :=
    firstn (snd s) (mem (fst s)).

  (** aggr_impl.go:363-376: [iter] is the order in which Go iterates the map, [sort] is sort.Slice *)
  Definition order_groups (mem : nat -> list (option V)) (ob : orderby)
    (sort : (string -> string -> bool) -> list string -> list string) (st : aggr) (iter : list string)
    : list string :=
    let slot k := read_slice mem (getd (0, 0) k (a_keys st)) in
    let asc a b := key_less (slot a) (slot b) in
    match ob with
    | OrderNone => iter
    | OrderAsc => sort asc iter
    | OrderDesc => sort (fun a b => negb (asc a b)) iter
    end.

  (** aggr_impl.go:378-398 *)
  Fixpoint group_rows (mem : nat -> list (option V)) (st : aggr) (keys : list string)
    : result (list (list cell)) :=
    match keys with
    | [] => Ok []
    | g :: gs =>
        match mget String.eqb g (a_keys st), mget String.eqb g (a_gaggrs st), mget String.eqb g (a_gcounts st) with
        | Some s, Some accs, Some n =>
            let row := map key_cell (read_slice mem s) ++
                       map (fun a => num_cell (final_value (a_kind st) a n)) accs in
            rbind (group_rows mem st gs) (fun rows => Ok (row :: rows))
        | _, _, _ => Err ErrNotFound
        end
    end.

  (** aggr_impl.go:321-413 *)
  Definition finalize (mem : nat -> list (option V)) (ob : orderby)
    (sort : (string -> string -> bool) -> list string -> list string)
    (iter : list string) (st : aggr) : result (fn_rset (list cell)) :=
    if is_grouping st then
      rbind (group_rows mem st (order_groups mem ob sort st iter))
            (fun rows => Ok (new_fn_rset (a_columns st) rows))
    else
      Ok (new_fn_rset (a_columns st)
            [map (fun a => num_cell (final_value (a_kind st) a (a_counts st))) (a_aggrs st)]).

  (** A sequence of AggregateRow calls with their outcomes. *)
  Fixpoint aggregate_rows (st : aggr) (rows : list frow) : aggr * list (result unit) :=
    match rows with
    | [] => (st, [])
    | r :: rows' =>
        let (st', e) := aggregate_row st r in
        let (st'', es) := aggregate_rows st' rows' in (st'', e :: es)
    end.

  (** ** aggr_set.go *)

  (** aggr_set.go:46-53 *)
  Fixpoint set_reset (l : list aggr) (opts : list aopt) : list aggr * result unit :=
    match l with
    | [] => ([], Ok tt)
    | a :: l' =>
        match reset a opts with
        | (a', Ok _) => let (r, e) := set_reset l' opts in (a' :: r, e)
        | (a', e) => (a' :: l', e)
        end
    end.

  (** aggr_set.go:56-63, for a row; a member's error stops the loop *)
  Fixpoint set_aggregate (l : list aggr) (r : frow) : list aggr * result unit :=
    match l with
    | [] => ([], Ok tt)
    | a :: l' =>
        match aggregate_row a r with
        | (a', Ok _) => let (rest, e) := set_aggregate l' r in (a' :: rest, e)
        | (a', e) => (a' :: l', e)
        end
    end.
  Fixpoint set_aggregate_rows (l : list aggr) (rows : list frow) : list aggr * list (result unit) :=
    match rows with
    | [] => (l, [])
    | r :: rows' =>
        let (l', e) := set_aggregate l r in
        let (l'', es) := set_aggregate_rows l' rows' in (l'', e :: es)
    end.

  (** aggr_set.go:100-111: the part of a later member's row that is appended *)
  Definition set_tail {A} (row : list A) : result (list A) :=
    match row with [] => Err ErrOther | [x] => Ok [x] | _ :: t => Ok t end.
  (** aggr_set.go:87-113 for one later member: its n-th row is appended to the n-th row so far *)
  Fixpoint append_rows {A} (rows : list (list A)) (more : list (list A)) : result (list (list A)) :=
    match more, rows with
    | [], _ => Ok rows
    | _ :: _, [] => Err ErrOther
    | m :: more', r :: rows' =>
        rbind (set_tail m) (fun t => rbind (append_rows rows' more') (fun rest => Ok ((r ++ t) :: rest)))
    end.
  Fixpoint merge_rows {A} (rows : list (list A)) (sets : list (list (list A))) : result (list (list A)) :=
    match sets with
    | [] => Ok rows
    | s :: sets' => rbind (append_rows rows s) (fun rows' => merge_rows rows' sets')
    end.
  (** aggr_set.go:76-84: Columns()[1:] panics on an empty list *)
  Fixpoint merge_columns (cols : list string) (sets : list (list string)) : result (list string) :=
    match sets with
    | [] => Ok cols
    | [] :: _ => Panic
    | (_ :: c) :: sets' => merge_columns (cols ++ c) sets'
    end.
  (** aggr_set.go:66-120, on the members' result sets *)
  Definition set_finalize {A} (results : list (fn_rset (list A))) : result (fn_rset (list A)) :=
    match results with
    | [] => Ok (new_fn_rset [] [])
    | r0 :: rs =>
        rbind (merge_columns (fr_columns r0) (map fr_columns rs)) (fun cols =>
        rbind (merge_rows (fr_rows r0) (map fr_rows rs)) (fun rows => Ok (new_fn_rset cols rows)))
    end.
  (** aggr_set.go:67-74: every member with the order in which Go iterates its map *)
  Fixpoint finalize_all (mem : nat -> list (option V))
    (sort : (string -> string -> bool) -> list string -> list string) (l : list (aggr * list string))
    : result (list (fn_rset (list cell))) :=
    match l with
    | [] => Ok []
    | (a, iter) :: l' =>
        rbind (finalize mem OrderNone sort iter a) (fun r =>
        rbind (finalize_all mem sort l') (fun rs => Ok (r :: rs)))
    end.
  (** aggr_set.go:66-120 *)
  Definition aggr_set_finalize (mem : nat -> list (option V))
    (sort : (string -> string -> bool) -> list string -> list string) (l : list (aggr * list string))
    : result (fn_rset (list cell)) :=
    rbind (finalize_all mem sort l) set_finalize.
End Aggr.
Arguments mkFrow {V}. Arguments fr_buf {V}. Arguments fr_cells {V}.
Arguments CVal {V}. Arguments CNum {V}. Arguments CNil {V}.
Arguments cell : clear implicits. Arguments frow : clear implicits.
