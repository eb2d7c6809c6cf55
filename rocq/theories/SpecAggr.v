(** Specification of the aggregators: results as functions of the list of rows. *)
From Coq Require Import Floats.SpecFloat.
From Verif Require Import GoBase ModelResultSet ModelAggr.

(** The column heading of an aggregate, as in SUM(price). *)
Definition aggregate_name (k : kind) (arg : string) : string :=
  (match k with SUM => "SUM(" | AVG => "AVG(" | MIN => "MIN(" | MAX => "MAX(" | COUNT => "COUNT(" end ++ arg ++ ")")%string.

(** The float is exactly the non-negative integer n: mantissa * 2^exponent = n. *)
Definition is_integer (f : float) (n : Z) : Prop :=
  match f with
  | S754_zero _ => n = 0%Z
  | S754_finite false m e => (Z.pos m * 2 ^ (Z.max e 0) = n * 2 ^ (Z.max (- e) 0))%Z
  | _ => False
  end.

(** The aggregate of a column of numbers; None is NULL. *)
Definition aggregate_of (k : kind) (xs : list float) : option float :=
  match k with
  | SUM => Some (fold_left fadd xs fzero)
  | AVG => match xs with
           | [] => None
           | _ => Some (fdiv (fold_left fadd xs fzero) (float_of_int (Z.of_nat (length xs))))
           end
  | MIN => match xs with
           | [] => None
           | _ => Some (fold_left (fun a x => if fltb x a then x else a) xs max_float)
           end
  | MAX => match xs with
           | [] => None
           | _ => Some (fold_left (fun a x => if fltb a x then x else a) xs neg_inf)
           end
  | COUNT => Some (float_of_int (Z.of_nat (length xs)))
  end.

Section Spec.
  Context {V : Type} (to_float : V -> option float) (to_str : option V -> option string).

  (** A cell as a number, nil being 0. *)
  Definition number (v : option V) : float :=
    match v with None => fzero | Some x => match to_float x with Some f => f | None => fzero end end.
  (** Column [i] of the rows, as numbers. *)
  Definition column (rows : list (list (option V))) (i : nat) : list float :=
    map (fun r => number (nth i r None)) rows.
  (** The aggregates of columns [from], ..., [from+n-1]. *)
  Definition aggregates (k : kind) (from n : nat) (rows : list (list (option V))) : list (cell V) :=
    map (fun i => num_cell (aggregate_of k (column rows i))) (seq from n).

  (** A cell as text (group values). *)
  Definition text (v : option V) : string := match to_str v with Some s => s | None => "" end.
  (** The group of a row: the texts of its first [g] cells. *)
  Definition group_of (g : nat) (row : list (option V)) : list string := map text (firstn g row).
  Definition same_group (g : nat) (t : list string) (row : list (option V)) : bool :=
    if list_eq_dec string_dec (group_of g row) t then true else false.
  (** The result row of group [t]: the group values of its first row, then its aggregates. *)
  Definition group_row (k : kind) (g n : nat) (rows : list (list (option V))) (t : list string)
    : list (cell V) :=
    let members := filter (same_group g t) rows in
    map key_cell (firstn g (hd [] members)) ++ aggregates k g n members.
  (** One row per distinct group. *)
  Definition grouped (k : kind) (g n : nat) (rows : list (list (option V))) : list (list (cell V)) :=
    map (group_row k g n rows) (nodup (list_eq_dec string_dec) (map (group_of g) rows)).

  (** The result row of group [t] in a set of aggregators (kind and number of arguments of each) with
      one group column: the group value, then every member's aggregates of that group. *)
  Definition set_row (ms : list (kind * nat)) (rows : list (list (option V))) (t : list string) : list (cell V) :=
    let members := filter (same_group 1 t) rows in
    map key_cell (firstn 1 (hd [] members)) ++
    flat_map (fun m => aggregates (fst m) 1 (snd m) members) ms.

  (** Group texts that the comma-joined map key tells apart: one column, or no commas. *)
  Definition keys_distinguishable (g : nat) (rows : list (list (option V))) : Prop :=
    g = 1 \/
    forall r v, In r rows -> In v (firstn g r) -> ~ In ","%char (list_ascii_of_string (text v)).
End Spec.

(** Lexicographic order of group tuples under a comparison of values. *)
Fixpoint tuple_less {V} (cmp : option V -> option V -> option comparison) (a b : list (option V)) : bool :=
  match a, b with
  | x :: a', y :: b' =>
      match cmp x y with
      | Some Lt => true
      | Some Eq => tuple_less cmp a' b'
      | _ => false
      end
  | _, _ => false
  end.

(** The comparison orders the given values: it never fails on them and is a total preorder.
    (Any total preorder of finitely many values is given by such a rank.) *)
Definition orders {V} (cmp : option V -> option V -> option comparison) (rank : option V -> Z)
  (vs : list (option V)) : Prop :=
  forall x y, In x vs -> In y vs -> cmp x y = Some (Z.compare (rank x) (rank y)).

(** No element is less than an earlier one. *)
Fixpoint in_order {A} (lt : A -> A -> bool) (l : list A) : Prop :=
  match l with [] => True | x :: l' => (forall y, In y l' -> lt y x = false) /\ in_order lt l' end.

(** The documented contract of sort.Slice: it permutes, it looks at the comparison only on the
    elements, and it sorts when the comparison is a strict weak order on them. *)
Definition strict_weak {A} (lt : A -> A -> bool) (l : list A) : Prop :=
  (forall a, In a l -> lt a a = false) /\
  (forall a b c, In a l -> In b l -> In c l -> lt a b = true -> lt b c = true -> lt a c = true) /\
  (forall a b c, In a l -> In b l -> In c l -> lt a b = false -> lt b a = false ->
     lt b c = false -> lt c b = false -> lt a c = false /\ lt c a = false).
Definition sorter := (string -> string -> bool) -> list string -> list string.
Definition sort_contract (sort : sorter) : Prop :=
  (forall lt l, Permutation (sort lt l) l) /\
  (forall lt lt' l, (forall a b, In a l -> In b l -> lt a b = lt' a b) -> sort lt l = sort lt' l) /\
  (forall lt l, strict_weak lt l -> in_order lt (sort lt l)).
(** A stronger contract, met by Go's implementation: an element is never compared with itself, so
    that distinct elements are sorted even if the comparison is reflexive. *)
Definition sorts_distinct (sort : sorter) : Prop :=
  forall lt l, NoDup l ->
    (forall a b, In a l -> In b l -> a <> b -> lt a b = negb (lt b a)) ->
    (forall a b c, In a l -> In b l -> In c l -> a <> b -> b <> c -> a <> c ->
       lt a b = true -> lt b c = true -> lt a c = true) ->
    in_order lt (sort lt l).

(** Two states that hold the same data (Go maps are equal when all lookups are). *)
Definition same_state (a b : aggr) : Prop :=
  a_kind a = a_kind b /\ a_args a = a_args b /\ a_columns a = a_columns b /\
  a_aggrs a = a_aggrs b /\ a_counts a = a_counts b /\ a_groups a = a_groups b /\
  (forall k, mget String.eqb k (a_keys a) = mget String.eqb k (a_keys b)) /\
  (forall k, mget String.eqb k (a_gaggrs a) = mget String.eqb k (a_gaggrs b)) /\
  (forall k, mget String.eqb k (a_gcounts a) = mget String.eqb k (a_gcounts b)).

(** The states an aggregator can be in. *)
Inductive reachable {V} (to_float : V -> option float) (to_str : option V -> option string) : aggr -> Prop :=
| reach_new k opts st : new_aggr k opts = Ok st -> reachable to_float to_str st
| reach_reset st opts : reachable to_float to_str st -> reachable to_float to_str (fst (reset st opts))
| reach_row st r : reachable to_float to_str st -> reachable to_float to_str (fst (aggregate_row to_float to_str st r))
| reach_map st b m : reachable to_float to_str st -> reachable to_float to_str (fst (aggregate_map to_float to_str st b m)).

(** Two result cells hold the same number (positive and negative zero being equal), or are both NULL. *)
Definition same_cell {V} (a b : cell V) : Prop :=
  match a, b with CNum x, CNum y => SFeqb x y = true | CNil, CNil => True | _, _ => False end.

(** Every call was accepted. *)
Definition accepted (es : list (result unit)) : Prop := Forall (fun e => e = Ok tt) es.

(** The caller has not written into the rows it passed (their group part) since. *)
Definition unwritten {V} (mem : nat -> list (option V)) (g : nat) (rows : list (frow V)) : Prop :=
  forall r, In r rows -> firstn g (mem (fr_buf r)) = firstn g (fr_cells r).
