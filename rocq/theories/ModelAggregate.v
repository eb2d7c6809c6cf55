(** Model of sql/query/response/resultset: schema_impl.go, schema_helper.go, resultset_aggr.go, and of sql/query/select_helper.go and selectors_helper.go:154-169. *)
From Verif Require Import GoBase ModelResultSet ModelAggr ModelFn ModelQuery.

(** ** schema_impl.go, schema_helper.go: result schemas *)

(** A result column: name, type, constraint and function.
    column_impl.go:27-32; a column of the table schema is used as it is (schema_helper.go:52). *)
Record scol := mkScol {
  sc_name : string; sc_type : dtype; sc_const : constraint; sc_fn : option func }.

(** schema_impl.go:23-29 *)
Record rschema := mkRschema {
  rss_database : string; rss_table : string; rss_columns : list scol; rss_base : option schema }.
(** schema_impl.go:76-83 *)
Definition blank_rschema : rschema := mkRschema "" "" [] None.

(** What a result column answers when a column of the table schema is used for it: the type and the
    constraint come from its definition (column.go:86-165).  Simplified: asking a column without a
    definition for its type panics in Go; here it answers the unknown type. *)
Definition scol_of_column (c : column) : scol :=
  let d := match c_def c with Some d => d | None => unknown_data_def end in
  mkScol (c_name c) (d_type d) (d_consts d) (c_fn c).

(** column_from.go:22-28: NewColumnFrom keeps no function *)
Definition scol_from (c : column) : scol :=
  let s := scol_of_column c in mkScol (sc_name s) (sc_type s) (sc_const s) None.

(** selector.String(): column.go:248-250, fn/func_impl.go:171-173 *)
Definition sel_string (s : selector) : string :=
  match s with SelCol c => column_string c | SelFn f => func_string f end.

(** schema_helper.go:42-63, for one selector *)
Definition selector_column (base : schema) (s : selector) : result scol :=
  match sel_function s with
  | None => rbind (lookup_column (s_columns base) (sel_name s)) (fun c => Ok (scol_of_column c))
  | Some f => rbind (data_type_for_function (Some f)) (fun t => Ok (mkScol (sel_string s) t 0%N (Some f)))
  end.
Fixpoint selector_columns (base : schema) (l : list selector) : result (list scol) :=
  match l with
  | [] => Ok []
  | s :: l' => rbind (selector_column base s) (fun c => rbind (selector_columns base l') (fun cs => Ok (c :: cs)))
  end.

Section Options.
  (** [V] is the type of non-nil Go values, [value_type] is query.NewDataTypeForValue
      (data_type.go:166-194), which fails on nil. *)
  Context {V : Type} (value_type : V -> result dtype).

  (** schema_helper.go:73-85: the entries in the order in which Go iterates the map *)
  Fixpoint object_columns (entries : list (string * option V)) : result (list scol) :=
    match entries with
    | [] => Ok []
    | (k, None) :: _ => Err ErrInvalid
    | (k, Some v) :: rest =>
        rbind (value_type v) (fun t => rbind (object_columns rest) (fun cs => Ok (mkScol k t 0%N None :: cs)))
    end.

  (** The options of NewSchema: schema_impl.go:35-56, schema_helper.go:24-89.  [SoObject] holds the
      entries in the order of Go's iteration. *)
  Inductive sopt :=
  | SoDatabase (name : string) | SoTable (name : string) | SoColumns (cs : list scol)
  | SoBase (s : schema) | SoSelectors (l : list selector) | SoObject (entries : list (string * option V)).

  (** schema_helper.go:26 takes the table name from TableName() *)
  Definition apply_sopt (s : rschema) (o : sopt) : rschema * result unit :=
    match o with
    | SoDatabase n => (mkRschema n (rss_table s) (rss_columns s) (rss_base s), Ok tt)
    | SoTable n => (mkRschema (rss_database s) n (rss_columns s) (rss_base s), Ok tt)
    | SoColumns cs => (mkRschema (rss_database s) (rss_table s) cs (rss_base s), Ok tt)
    | SoBase b => (mkRschema (rss_database s) (t_name (s_table b)) (rss_columns s) (Some b), Ok tt)
    | SoSelectors l =>
        match rss_base s with
        | None => (s, Err ErrOther)
        | Some b =>
            match selector_columns b l with
            | Ok cs => (mkRschema (rss_database s) (rss_table s) cs (rss_base s), Ok tt)
            | Err e => (s, Err e)
            | Panic => (s, Panic)
            end
        end
    | SoObject entries =>
        match object_columns entries with
        | Ok cs => (mkRschema (rss_database s) (rss_table s) cs (rss_base s), Ok tt)
        | Err e => (s, Err e)
        | Panic => (s, Panic)
        end
    end.

  (** schema_impl.go:58-64: errors are dropped *)
  Definition new_rschema (opts : list sopt) : rschema :=
    fold_left (fun s o => fst (apply_sopt s o)) opts blank_rschema.
  (** schema_impl.go:67-74 *)
  Fixpoint rschema_from_opts (s : rschema) (opts : list sopt) : result rschema :=
    match opts with
    | [] => Ok s
    | o :: opts' => let (s', e) := apply_sopt s o in rbind e (fun _ => rschema_from_opts s' opts')
    end.
  Definition new_rschema_from (opts : list sopt) : result rschema := rschema_from_opts blank_rschema opts.
End Options.
Arguments sopt : clear implicits.
Arguments SoDatabase {V}. Arguments SoTable {V}. Arguments SoColumns {V}. Arguments SoBase {V}.
Arguments SoSelectors {V}. Arguments SoObject {V}.

(** schema_impl.go:105-112 *)
Definition rs_lookup_column (s : rschema) (name : string) : result scol :=
  match find (fun c => String.eqb (sc_name c) name) (rss_columns s) with
  | Some c => Ok c
  | None => Err ErrNotFound
  end.

(** ** selectors_helper.go:154-169: the aggregators of a selector list *)

(** A selector with the aggregator its function has cached (func_impl.go:26, 156-168).  Here the
    aggregator is kept with its state; the field [f_aggr] of the function is not used.  Selectors that
    share one function object are not modelled. *)
Record rsel := mkRsel { rl_sel : selector; rl_aggr : option aggr }.
Definition fresh (s : selector) : rsel := mkRsel s None.

Definition with_type (f : func) (t : ftype) : func := mkFunc t (f_name f) (f_exec f) (f_aggr f) (f_args f).
Definition sel_with_type (s : selector) (t : ftype) : selector :=
  match s with
  | SelFn f => SelFn (with_type f t)
  | SelCol c => SelCol (mkCol (c_name c) (c_def c) (c_lit c)
                         (match c_fn c with Some f => Some (with_type f t) | None => None end) (c_args c))
  end.

(** selectors_helper.go:157-167 for one selector; func_impl.go:156-168 *)
Definition sel_aggregator (s : rsel) : rsel * result unit :=
  match sel_function (rl_sel s) with
  | None => (s, Ok tt)
  | Some f =>
      match rl_aggr s with
      | Some _ => (s, Ok tt)
      | None =>
          match rbind (new_aggregator_kind (f_name f)) (fun k => new_aggr k [OptArgs (f_args f)]) with
          | Ok a => (mkRsel (sel_with_type (rl_sel s) AggregateFunction) (Some a), Ok tt)
          | Err e => (s, Err e)
          | Panic => (s, Panic)
          end
      end
  end.
(** selectors_helper.go:155-169: the first error stops *)
Fixpoint sel_aggregators (l : list rsel) : list rsel * result unit :=
  match l with
  | [] => ([], Ok tt)
  | s :: l' =>
      match sel_aggregator s with
      | (s', Ok _) => let (r, e) := sel_aggregators l' in (s' :: r, e)
      | (s', e) => (s' :: l', e)
      end
  end.
(** The members of the set: the aggregators of the functions, in order (they are shared, not copied). *)
Fixpoint members_of (l : list rsel) : list aggr :=
  match l with
  | [] => []
  | s :: l' =>
      match sel_function (rl_sel s), rl_aggr s with
      | Some _, Some a => a :: members_of l'
      | _, _ => members_of l'
      end
  end.
Fixpoint put_members (l : list rsel) (ms : list aggr) : list rsel :=
  match l with
  | [] => []
  | s :: l' =>
      match sel_function (rl_sel s), rl_aggr s, ms with
      | Some _, Some _, a :: ms' => mkRsel (rl_sel s) (Some a) :: put_members l' ms'
      | _, _, _ => s :: put_members l' ms
      end
  end.

(** resultset_aggr.go:125-128, select_helper.go:45-49: the group option, when there is a GROUP BY
    object; a statement without GROUP BY has one with an empty name (select.go:61) *)
Definition group_opts (group : option string) : list aopt :=
  match group with None => [] | Some g => [OptGroups [g]] end.

(** select_helper.go:40-51 *)
Definition select_aggregators (l : list rsel) (group : string) : list rsel * result (list aggr) :=
  match sel_aggregators l with
  | (l1, Ok _) =>
      let (ms, e) := set_reset (members_of l1) (group_opts (Some group)) in
      (put_members l1 ms, rbind e (fun _ => Ok ms))
  | (l1, Err e) => (l1, Err e)
  | (l1, Panic) => (l1, Panic)
  end.

(** ** resultset_aggr.go *)
Section Aggregated.
  Context {V : Type} (to_float : V -> option float) (to_str : option V -> option string)
          (compare : option V -> option V -> option comparison)
          (** a float64 as a Go value *)
          (num : float -> V)
          (** the order in which Go iterates a member's group map *)
          (iter : list (string * list float) -> list string)
          (** the caller's memory at the end, and sort.Slice: see ModelAggr.v *)
          (mem : nat -> list (option V))
          (sort : (string -> string -> bool) -> list string -> list string)
          (** the executors of the scalar functions: ModelFn.v *)
          (execute : exe -> list string -> object V -> result (option V)).

  (** aggr_set.go:56-63 for a map; an error stops the loop.  The row that AggregateMap builds is a new
      array, which only a grouping aggregator would keep, and those reject every map: its number is 0. *)
  Fixpoint set_aggregate_map (l : list aggr) (m : object V) : list aggr * result unit :=
    match l with
    | [] => ([], Ok tt)
    | a :: l' =>
        match aggregate_map to_float to_str a 0 m with
        | (a', Ok _) => let (rest, e) := set_aggregate_map l' m in (a' :: rest, e)
        | (a', e) => (a' :: l', e)
        end
    end.

  (** resultset_aggr.go:135-144.  [row] is the source's Row().Object(). *)
  Fixpoint aggregate_source {R} (row : R -> result (object V)) (fuel : nat) (src : rset R) (ms : list aggr)
    : option (list aggr * result unit) :=
    match fuel with
    | O => None
    | S fuel' =>
        let (src', more) := rs_next src in
        if more then
          match rs_row row src' with
          | Ok m =>
              match set_aggregate_map ms m with
              | (ms', Ok _) => aggregate_source row fuel' src' ms'
              | (ms', e) => Some (ms', e)
              end
          | Err e => Some (ms, Err e)
          | Panic => Some (ms, Panic)
          end
        else Some (ms, Ok tt)
    end.

  Definition cell_value (c : cell V) : option V :=
    match c with CVal v => Some v | CNum f => Some (num f) | CNil => None end.

  (** resultset_aggr.go:151-161: Next and Map until the end *)
  Fixpoint result_objects (fuel : nat) (rs : fn_rset (list (option V))) : result (list (object V)) :=
    match fuel with
    | O => Ok []
    | S fuel' =>
        let (rs', more) := fr_next rs in
        if more then rbind (fr_map rs') (fun m => rbind (result_objects fuel' rs') (fun ms => Ok (m :: ms)))
        else Ok []
    end.

  (** What NewAggregatedResultSetFrom returns: the source itself, or a new result set of the given
      schema whose rows hold the given objects. *)
  Inductive aggregated := SameSource | NewSet (s : rschema) (rows : list (object V)).

  (** resultset_aggr.go:70-171 with all the required options given.  [database] is the name in the
      source's schema, None when the source has no schema: the call on it panics.  The result is None
      when the fuel for reading the source runs out.  Also returned: the selectors, whose functions
      keep their aggregators. *)
  Definition aggregated_result_set {R} (base : schema) (l : list rsel) (group : option string)
    (database : option string) (row : R -> result (object V)) (fuel : nat) (src : rset R)
    : list rsel * option (result aggregated) :=
    if negb (has_aggregator (map rl_sel l)) then (l, Some (Ok SameSource))
    else
      match database with
      | None => (l, Some Panic)
      | Some db =>
          let sch := @new_rschema V (fun _ => Panic) [SoDatabase db; SoBase base; SoSelectors (map rl_sel l)] in
          match sel_aggregators l with
          | (l1, Ok _) =>
              match set_reset (members_of l1) (group_opts group) with
              | (ms, Ok _) =>
                  match aggregate_source row fuel src ms with
                  | None => (put_members l1 ms, None)
                  | Some (ms', Ok _) =>
                      (put_members l1 ms',
                       Some (rbind (aggr_set_finalize compare mem sort (map (fun m => (m, iter (a_gaggrs m))) ms')) (fun rs =>
                             rbind (result_objects (S (length (fr_rows rs)))
                                      (new_fn_rset (fr_columns rs) (map (map cell_value) (fr_rows rs)))) (fun objs =>
                             Ok (NewSet sch objs)))))
                  | Some (ms', Err e) => (put_members l1 ms', Some (Err e))
                  | Some (ms', Panic) => (put_members l1 ms', Some Panic)
                  end
              | (ms, Err e) => (put_members l1 ms, Some (Err e))
              | (ms, Panic) => (put_members l1 ms, Some Panic)
              end
          | (l1, Err e) => (l1, Some (Err e))
          | (l1, Panic) => (l1, Some Panic)
          end
      end.

  (** row_helper.go:24-33: the executor of a result column's function, if there is one *)
  Definition rcolumn_of (c : scol) : rcolumn V :=
    mkRcolumn (sc_name c)
      (match sc_fn c with
       | None => None
       | Some f =>
           match snd (func_executor f) with
           | Ok (e, names) => Some (execute e names)
           | _ => None
           end
       end).
  (** resultset_impl.go:134-140: Row() of a result set with schema [s] whose current row holds [o] *)
  Definition schema_row (s : rschema) (o : object V) : result (row V) :=
    new_row_from_object (map rcolumn_of (rss_columns s)) o.
End Aggregated.
Arguments aggregated : clear implicits.
Arguments SameSource {V}. Arguments NewSet {V}.
