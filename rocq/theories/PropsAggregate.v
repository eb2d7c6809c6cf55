(** Properties C64-C66: aggregated result sets, result schemas, and the aggregators of a SELECT. *)
From Coq Require Import Floats.SpecFloat.
From Verif Require Import GoBase ModelNum ModelResultSet ModelAggr ModelFn ModelQuery ModelEbnf ModelGrammar ModelLex ModelVisitor
  ModelAggregate SpecResultSet SpecAggr SpecAggregate ProofAggregate ProofAggregate2.

(** Values for the examples: integers, texts and floats; texts are not numbers. *)
Inductive ag_val := AN (z : Z) | AS (s : string) | AF (f : float).
Definition ag_float (v : ag_val) : option float :=
  match v with AN z => Some (float_of_int z) | AS _ => None | AF f => Some f end.
Definition ag_str (v : option ag_val) : option string :=
  match v with Some (AS s) => Some s | Some _ => Some "n" | None => Some "nil" end.
Definition ag_cmp (a b : option ag_val) : option comparison := None.
Definition ag_run {R} := @aggregated_result_set ag_val ag_float ag_str ag_cmp AF (map fst) (fun _ => []) (fun _ l => l) R.
Definition ag_table : schema :=
  new_schema "t" [new_def_column "g" (new_data_def TextType 0); new_def_column "a" (new_data_def IntType 0);
                  new_def_column "b" (new_data_def IntType 0)] [].
Definition ag_rows : list (object ag_val) :=
  [[("g", Some (AS "x")); ("a", Some (AN 1)); ("b", Some (AN 5))];
   [("g", Some (AS "y")); ("a", Some (AN 2)); ("b", None)];
   [("g", Some (AS "x")); ("a", Some (AN 4)); ("b", Some (AN 7))]].
Definition ag_src := new_rset ag_rows 0 0.
Definition ag_exec (_ : exe) (_ : list string) (_ : object ag_val) : result (option ag_val) := Panic.

(** C64: a SELECT list with one aggregate and any number of plain columns of the table, without GROUP
    BY: the aggregated result set has the headings of the list and one row, with the aggregate of the
    source's rows (those in its LIMIT/OFFSET window); plain columns are NULL.  If a source row cannot be
    read, lacks the argument, or holds no number there, the first such failure is reported.  This
    holds whatever an earlier use left in the function's aggregator.
    Missing: GROUP BY, several aggregates, and the cases refuted below. *)
Theorem C64_one_aggregate_partial :
  forall (V R : Type) (to_float : V -> option float) (to_str : option V -> option string)
    (compare : option V -> option V -> option comparison) (num : float -> V) iter mem sort execute
    base items headings_ l group db (row : R -> result (object V)) fuel src k arg,
    let run := snd (aggregated_result_set to_float to_str compare num iter mem sort base l group (Some db) row fuel src) in
    written group items l -> aggs items = [(k, arg)] -> ungrouped group ->
    unread src -> length (rows_in src) < fuel ->
    Forall2 (heading_of base) items headings_ -> NoDup headings_ ->
    match all_ok (map (fun r => number_in to_float arg (row r)) (rows_in src)) with
    | Ok xs => exists s rows,
        run = Some (Ok (NewSet s rows)) /\
        rss_database s = db /\ rss_table s = t_name (s_table base) /\ headings s = headings_ /\
        seen execute s rows =
          Some [Ok (map (fun i => match i with Plain _ => None | Agg _ _ => option_map num (aggregate_of k xs) end) items)]
    | Err e => run = Some (Err e)
    | Panic => run = Some Panic
    end.
Proof. exact @one_aggregate. Qed.
Print Assumptions C64_one_aggregate_partial.

Definition ag_items := [Plain "G"; Agg SUM "b"; Plain "a"].
Example C64_example :
  (written None ag_items (map (fun i => fresh (item_selector i)) ag_items) /\
   Forall2 (heading_of ag_table) ag_items ["g"; "SUM(b)"; "a"] /\ unread ag_src) /\
  match snd (ag_run ag_table (map (fun i => fresh (item_selector i)) ag_items) None (Some "db") Ok 9 ag_src) with
  | Some (Ok (NewSet s rows)) => seen ag_exec s rows = Some [Ok [None; Some (AF (float_of_int 12)); None]]
  | _ => False
  end.
Proof.
  split; [|vm_compute; reflexivity]. split; [repeat constructor|]. split; [|repeat split].
  constructor; [exists (new_def_column "g" (new_data_def TextType 0)); repeat split|].
  constructor; [reflexivity|]. constructor; [|constructor].
  exists (new_def_column "a" (new_data_def IntType 0)). repeat split.
Qed.

(** Without an aggregate the source itself is returned and nothing is changed. *)
Theorem C64_no_aggregate :
  forall (V R : Type) to_float to_str compare (num : float -> V) iter mem sort
    base items l group db (row : R -> result (object V)) fuel src,
    written group items l -> aggs items = [] ->
    aggregated_result_set to_float to_str compare num iter mem sort base l group db row fuel src = (l, Some (Ok SameSource)).
Proof. exact @no_aggregate. Qed.
Print Assumptions C64_no_aggregate.

(** With GROUP BY, any source that has a row is refused, whatever the SELECT list: the aggregators
    are given maps, which grouping aggregators reject. *)
Theorem C64_group_by_refuted :
  forall (V R : Type) (to_float : V -> option float) (to_str : option V -> option string)
    (compare : option V -> option V -> option comparison) (num : float -> V) iter mem sort
    base l g db (row : R -> result (object V)) fuel src r0 rest m,
    has_aggregator (map rl_sel l) = true -> g <> "" -> unread src -> length (rows_in src) < fuel ->
    rows_in src = r0 :: rest -> row r0 = Ok m ->
    exists e, snd (aggregated_result_set to_float to_str compare num iter mem sort base l (Some g) (Some db) row fuel src) = Some (Err e).
Proof. intros V R tf ts c n i m s. exact (@grouped_source_fails V tf ts c n i m s R). Qed.
Print Assumptions C64_group_by_refuted.

Example C64_group_by_example :
  snd (ag_run ag_table (map (fun i => fresh (item_selector i)) [Plain "g"; Agg SUM "b"]) (Some "g") (Some "db") Ok 9 ag_src) =
    Some (Err ErrInvalid).
Proof. vm_compute. reflexivity. Qed.

(** Of several aggregates all but the first are NULL. *)
Theorem C64_second_aggregate_refuted :
  forall (V R : Type) (to_float : V -> option float) (to_str : option V -> option string)
    (compare : option V -> option V -> option comparison) (num : float -> V) iter mem sort execute
    base k1 a1 others headings_ l group db (row : R -> result (object V)) fuel src yss,
    let items := Agg k1 a1 :: map (fun q => Agg (fst q) (snd q)) others in
    written group items l -> ungrouped group -> unread src -> length (rows_in src) < fuel ->
    Forall2 (heading_of base) items headings_ -> NoDup headings_ ->
    all_ok (map (fun r => all_ok (map (fun q => number_in to_float (snd q) (row r)) ((k1, a1) :: others))) (rows_in src)) = Ok yss ->
    exists s rows,
      snd (aggregated_result_set to_float to_str compare num iter mem sort base l group (Some db) row fuel src) =
        Some (Ok (NewSet s rows)) /\
      headings s = headings_ /\
      seen execute s rows =
        Some [Ok (option_map num (aggregate_of k1 (map (fun ys => hd fzero ys) yss)) :: map (fun _ => None) others)].
Proof. exact @second_aggregate. Qed.
Print Assumptions C64_second_aggregate_refuted.

Example C64_second_example :
  match snd (ag_run ag_table (map (fun i => fresh (item_selector i)) [Agg SUM "a"; Agg COUNT "b"]) None (Some "db") Ok 9 ag_src) with
  | Some (Ok (NewSet s rows)) => headings s = ["SUM(a)"; "COUNT(b)"] /\ seen ag_exec s rows = Some [Ok [Some (AF (float_of_int 7)); None]]
  | _ => False
  end.
Proof. vm_compute. split; reflexivity. Qed.

(** An aggregate whose name is not written in capitals is not taken for one: the source comes back. *)
Theorem C64_lower_case_refuted :
  (forall (V R : Type) to_float to_str compare (num : float -> V) iter mem sort
     base k name arg group db (row : R -> result (object V)) fuel src,
     to_upper name = kind_name k -> name <> kind_name k ->
     snd (aggregated_result_set to_float to_str compare num iter mem sort base [fresh (SelFn (new_func name [arg]))] group db row fuel src) =
       Some (Ok SameSource)) /\
  parse data_type_strings "SELECT sum(a) FROM t" =
    Ok [SSelect (new_select [SelFn (new_func "sum" ["a"])] [new_table "t"] None)].
Proof. split; [exact @lower_case|vm_compute; reflexivity]. Qed.
Print Assumptions C64_lower_case_refuted.

(** A column that the table does not have is not reported: the result has no columns at all. *)
Theorem C64_unknown_column_refuted :
  forall (V R : Type) (to_float : V -> option float) (to_str : option V -> option string)
    (compare : option V -> option V -> option comparison) (num : float -> V) iter mem sort execute
    base items l group db (row : R -> result (object V)) fuel src yss n,
    written group items l -> aggs items <> [] -> ungrouped group -> unread src -> length (rows_in src) < fuel ->
    In (Plain n) items -> (forall c, lookup_column (s_columns base) n <> Ok c) ->
    all_ok (map (fun r => all_ok (map (fun q => number_in to_float (snd q) (row r)) (aggs items))) (rows_in src)) = Ok yss ->
    exists s rows,
      snd (aggregated_result_set to_float to_str compare num iter mem sort base l group (Some db) row fuel src) =
        Some (Ok (NewSet s rows)) /\ headings s = [] /\ seen execute s rows = Some [Ok []].
Proof. exact @unknown_column. Qed.
Print Assumptions C64_unknown_column_refuted.

Example C64_unknown_example :
  match snd (ag_run ag_table (map (fun i => fresh (item_selector i)) [Plain "z"; Agg SUM "a"]) None (Some "db") Ok 9 ag_src) with
  | Some (Ok (NewSet s rows)) => headings s = [] /\ seen ag_exec s rows = Some [Ok []]
  | _ => False
  end.
Proof. vm_compute. split; reflexivity. Qed.

(** A scalar function beside an aggregate is refused. *)
Theorem C64_scalar_refuted :
  forall (V R : Type) to_float to_str compare (num : float -> V) iter mem sort
    base k arg f group db (row : R -> result (object V)) fuel src,
    (forall k', has_prefix (kind_name k') (to_upper (f_name f)) = false) ->
    snd (aggregated_result_set to_float to_str compare num iter mem sort base
           [fresh (call k arg); fresh (SelFn f)] group (Some db) row fuel src) = Some (Err ErrNotSupported).
Proof. exact @scalar_beside. Qed.
Print Assumptions C64_scalar_refuted.

Example C64_scalar_example : forall k', has_prefix (kind_name k') (to_upper (f_name (new_func "ABS" ["a"]))) = false.
Proof. intros []; reflexivity. Qed.

(** The function remembers the GROUP BY of an earlier call: SELECT SUM(b) without GROUP BY is refused
    after the same selectors were used with GROUP BY (here on an empty source). *)
Theorem C64_stale_group_refuted :
  let l := [fresh (call SUM "b")] in
  let first := ag_run ag_table l (Some "g") (Some "db") Ok 9 (new_rset [] 0 0) in
  (exists s, snd first = Some (Ok (NewSet s []))) /\
  snd (ag_run ag_table (fst first) None (Some "db") Ok 9 ag_src) = Some (Err ErrInvalid) /\
  (exists s o, snd (ag_run ag_table l None (Some "db") Ok 9 ag_src) = Some (Ok (NewSet s [o]))).
Proof.
  cbv zeta. split; [|split].
  - refine (ex_intro _ _ _). vm_compute. reflexivity.
  - vm_compute. reflexivity.
  - refine (ex_intro _ _ (ex_intro _ _ _)). vm_compute. reflexivity.
Qed.
Print Assumptions C64_stale_group_refuted.

(** C65: the columns of a schema made from a SELECT list are those of the list, in order: for a plain
    column the table's column of that name (case is ignored; the table's spelling, type and
    constraints are kept), for a numeric or aggregate function a FLOAT column named like the
    function's text.  A column the table lacks, or a function of another type, is reported. *)
Theorem C65_schema_of_selectors_partial :
  forall (V : Type) (value_type : V -> result dtype) db base (l : list selector),
    match new_rschema_from value_type [SoDatabase db; SoBase base; SoSelectors l] with
    | Ok s => rss_database s = db /\ rss_table s = t_name (s_table base) /\
        Forall2 (fun sel c =>
          match sel_function sel with
          | None => exists tc, In tc (s_columns base) /\ equal_fold (c_name tc) (sel_name sel) = true /\
              sc_name c = c_name tc /\ sc_fn c = c_fn tc /\
              (forall d, c_def tc = Some d -> sc_type c = d_type d /\ sc_const c = d_consts d)
          | Some f => sc_name c = sel_string sel /\ sc_type c = FloatType /\ sc_fn c = Some f
          end) l (rss_columns s)
    | Err e => exists sel, In sel l /\
        match sel_function sel with
        | None => e = ErrNotFound /\ forall tc, In tc (s_columns base) -> equal_fold (c_name tc) (sel_name sel) = false
        | Some f => e = ErrInvalid /\ ~ In (f_type f) [MathFunction; AggregateFunction; CastFunction; ArithOperator]
        end
    | Panic => False
    end.
Proof. exact @schema_of_selectors. Qed.
Print Assumptions C65_schema_of_selectors_partial.

Example C65_example :
  match new_rschema_from (fun v : unit => Err ErrInvalid)
          [SoDatabase "db"; SoBase ag_table; SoSelectors [plain "A"; SelFn (new_func "SUM" ["b"]); SelFn (new_func "ABS" ["a"])]] with
  | Ok s => map sc_name (rss_columns s) = ["a"; "SUM(b)"; "ABS(a)"] /\ map sc_type (rss_columns s) = [IntType; FloatType; FloatType]
  | _ => False
  end.
Proof. vm_compute. split; reflexivity. Qed.

(** String and time functions, and functions whose name is not in capitals, have no schema ... *)
Theorem C65_string_function_refuted :
  forall (V : Type) (value_type : V -> result dtype) base name arg,
    In name ["UPPER"; "LOWER"; "TRIM"; "NOW"; "CURRENT_TIMESTAMP"; "sum"; "abs"] ->
    new_rschema_from value_type [SoBase base; SoSelectors [SelFn (new_func name [arg])]] = Err ErrInvalid.
Proof. intros V vt base name arg H. repeat (destruct H as [<-|H]; [reflexivity|]). destruct H. Qed.
Print Assumptions C65_string_function_refuted.

(** ... and NewSchema hides every such error: the schema has no columns, even for good selectors when
    the options come in the other order. *)
Theorem C65_hidden_error_refuted :
  forall (V : Type) (value_type : V -> result dtype) base (l : list selector),
    rss_columns (new_rschema value_type [SoSelectors l; SoBase base]) = [] /\
    new_rschema_from value_type [SoSelectors l; SoBase base] = Err ErrOther /\
    (forall e, new_rschema_from value_type [SoBase base; SoSelectors l] = Err e ->
       rss_columns (new_rschema value_type [SoBase base; SoSelectors l]) = []).
Proof. exact @hidden_error. Qed.
Print Assumptions C65_hidden_error_refuted.

(** The schema of an object has one column per entry, in whatever order Go iterates the map; an entry
    that is nil or of an unknown Go type is reported. *)
Theorem C65_schema_of_object :
  forall (V : Type) (value_type : V -> result dtype) (obj entries : object V),
    Permutation entries obj -> (forall v, value_type v <> Panic) ->
    match new_rschema_from value_type [SoObject entries] with
    | Ok s => exists cols, Permutation cols (rss_columns s) /\
        Forall2 (fun kv c => sc_name c = fst kv /\ exists v, snd kv = Some v /\ value_type v = Ok (sc_type c)) obj cols
    | Err _ => exists k v, In (k, v) obj /\ (v = None \/ exists x e, v = Some x /\ value_type x = Err e)
    | Panic => False
    end.
Proof. exact @schema_of_object. Qed.
Print Assumptions C65_schema_of_object.

(** C66: the aggregators of a SELECT are one per function, in order, of the function's kind and
    arguments, empty, and grouping by exactly the statement's GROUP BY column. *)
Theorem C66_select_aggregators :
  forall items l group, written (Some group) items l ->
    exists l' ms, select_aggregators l group = (l', Ok ms) /\ members_of l' = ms /\
      Forall2 (fun q a =>
        a_kind a = fst q /\ a_args a = [snd q] /\ a_groups a = (if String.eqb group "" then [] else [group]) /\
        a_counts a = 0 /\ a_gaggrs a = [] /\ a_gcounts a = [] /\
        Forall (fun x => x = reset_value (fst q)) (a_aggrs a)) (aggs items) ms.
Proof. exact @statement_aggregators. Qed.
Print Assumptions C66_select_aggregators.

Example C66_example :
  match select_aggregators (map (fun i => fresh (item_selector i)) [Agg SUM "a"; Plain "g"; Agg MAX "b"]) "g" with
  | (_, Ok ms) => map a_columns ms = [["g"; "SUM(a)"]; ["g"; "MAX(b)"]]
  | _ => False
  end.
Proof. vm_compute. reflexivity. Qed.
