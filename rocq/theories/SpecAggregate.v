(** Specification of aggregated result sets and of result schemas. *)
From Verif Require Import GoBase ModelResultSet ModelAggr ModelFn ModelQuery ModelAggregate SpecResultSet SpecAggr.

(** A selector list as it is written: plain columns and aggregate functions of one argument. *)
Definition plain (name : string) : selector := SelCol (new_column name).
Definition call (k : kind) (arg : string) : selector := SelFn (new_func (kind_name k) [arg]).

(** The number that the argument of an aggregate has in one source row: "*" and NULL count as 0; the
    row must have the column and the value must be a number. *)
Definition number_in {V} (to_float : V -> option float) (arg : string) (row : result (object V)) : result float :=
  rbind row (fun o =>
    if String.eqb arg "*" then Ok fzero
    else match mget String.eqb arg o with
         | None => Err ErrNotFound
         | Some None => Ok fzero
         | Some (Some v) => match to_float v with Some x => Ok x | None => Err ErrInvalid end
         end).

(** What the caller of a result set with schema [s] and the given rows sees: the values of every row,
    in a loop of Next and Row. *)
Definition seen {V} (execute : exe -> list string -> object V -> result (option V)) (s : rschema)
  (rows : list (object V)) : option (list (result (list (option V)))) :=
  option_map (map (fun r => rbind (rbind r (schema_row execute s)) (fun r => Ok (snd (row_get_values r)))))
    (rs_loop (S (length rows)) (new_rset rows 0 0)).
Definition headings (s : rschema) : list string := map sc_name (rss_columns s).

(** The aggregator that the function of a selector may have kept from an earlier use: one of the same
    kind and argument; it must not be grouping when the call says nothing about groups. *)
Definition usable (k : kind) (arg : string) (group : option string) (cached : option aggr) : Prop :=
  match cached with
  | None => True
  | Some a => a_kind a = k /\ a_args a = [arg] /\ (group <> None \/ a_groups a = [])
  end.

(** No GROUP BY: no group object, or one with an empty name. *)
Definition ungrouped (group : option string) : Prop := group = None \/ group = Some "".

(** The window of the source, and that its bounds fit in a uint (as for property C08). *)
Definition rows_in {R} (src : rset R) : list R := window (rs_rows src) (rs_offset src) (rs_limit src).
Definition unread {R} (src : rset R) : Prop :=
  rs_cursor src = 0%N /\ (rs_offset src + rs_limit src < 2 ^ 64)%N /\
  (rs_offset src + N.of_nat (length (rows_in src)) + 1 < 2 ^ 64)%N.

(** The table columns that plain selectors name, whatever their case. *)
Definition found (base : schema) (names : list string) (cols : list ModelQuery.column) : Prop :=
  Forall2 (fun n c => lookup_column (s_columns base) n = Ok c /\ c_fn c = None) names cols.

(** A SELECT list of plain columns and aggregates, with what the functions' objects have kept. *)
Inductive item := Plain (name : string) | Agg (k : kind) (arg : string).
Definition item_selector (i : item) : selector :=
  match i with Plain n => plain n | Agg k a => call k a end.
Definition written (group : option string) (items : list item) (l : list rsel) : Prop :=
  Forall2 (fun i s => rl_sel s = item_selector i /\
                      match i with Plain _ => True | Agg k a => usable k a group (rl_aggr s) end) items l.
(** The aggregates of the list, in order. *)
Fixpoint aggs (items : list item) : list (kind * string) :=
  match items with
  | [] => []
  | Plain _ :: r => aggs r
  | Agg k a :: r => (k, a) :: aggs r
  end.
(** The heading of every item: the table's spelling of a column, or the function as it is printed. *)
Definition heading_of (base : schema) (i : item) (h : string) : Prop :=
  match i with
  | Plain n => exists c, lookup_column (s_columns base) n = Ok c /\ c_fn c = None /\ h = c_name c
  | Agg k a => h = aggregate_name k a
  end.
