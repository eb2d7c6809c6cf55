(** C83: the values of INSERT and UPDATE are read as they are written. *)
From Coq Require Import Lia.
From Verif Require Import GoBase ModelFn ModelQuery ModelVisitor SpecRound SpecSelect SpecValue ProofRound3 ProofWhere ProofValue ProofValue2.

(** What comes out of an INSERT, whatever its values are: the columns with the literals among the values, in order. *)
Theorem C83_insert_is_read : forall entries t cols rows, bare_name t -> Forall any_name cols -> some (some given_ok) rows ->
  parse entries (insert_text t cols rows)
  = Ok [SInsert (new_table t) (map (fun r => map (fun p => new_value_column (fst p) (snd p)) (combine cols (literals_of r))) rows)].
Proof. exact insert_reads. Qed.
Print Assumptions C83_insert_is_read.

(** When they are literals, one for each column, each column holds its value.  Missing for the full property: the other
    values, and statements that name no columns, for which the theorems below show what is lost. *)
Theorem C83_insert_partial : forall entries t cols rows, bare_name t -> some any_name cols -> some (some given_ok) rows ->
  Forall (fun r => Forall is_literal r /\ length r = length cols) rows ->
  exists read, parse entries (insert_text t cols rows) = Ok [SInsert (new_table t) read]
    /\ Forall2 (fun r row => Forall2 holds (combine cols r) row) rows read.
Proof.
  intros entries t cols rows T [_ C] R L. eexists. split; [apply insert_reads; assumption|].
  induction L as [|r rows [V E] _ IH]; [constructor|]. cbn [map]. constructor.
  - clear - V E. revert cols E. induction V as [|v r (l & ->) _ IH]; intros [|c cols] E; try discriminate E; [constructor|].
    cbn [literals_of flat_map app combine map fst snd]. constructor; [constructor|]. apply IH. injection E as E. exact E.
  - destruct R as [_ F]. inversion F as [|? ? _ Fs]; subst. destruct rows as [|r' rows]; [constructor|]. apply IH. split; [discriminate|exact Fs].
Qed.
Print Assumptions C83_insert_partial.

(** A value that is not a literal is skipped without an error, and the values after it move to the columns before theirs:
    the statement is the one without these values. *)
Theorem C83_insert_refuted : forall entries t cols rows, bare_name t -> some any_name cols -> some (some given_ok) rows ->
  Forall (fun r => exists v, In v r /\ is_literal v) rows ->
  parse entries (insert_text t cols rows) = parse entries (insert_text t cols (map only_literals rows)).
Proof.
  intros entries t cols rows T [_ C] [N R] L. rewrite !insert_reads; try assumption; [|split; [destruct rows; [destruct (N eq_refl)|discriminate]|]|split; assumption].
  - rewrite map_map. do 3 f_equal. apply map_ext. intro r. do 2 f_equal. unfold only_literals, literals_of.
    induction r as [|[] r IH]; [reflexivity|..]; cbn [flat_map app map]; [f_equal|..]; exact IH.
  - apply Forall_map. rewrite Forall_forall in *. intros r I. destruct (R r I) as [_ F]. destruct (L r I) as (v & V & l & ->). split.
    + assert (In l (literals_of r)) as H by (apply in_flat_map; exists (Literal l); split; [exact V|left; reflexivity]).
      unfold only_literals. destruct (literals_of r); [destruct H|discriminate].
    + unfold only_literals. apply Forall_map. rewrite Forall_forall. intros x X. apply in_flat_map in X. destruct X as ([] & U & X); try contradiction.
      destruct X as [->|[]]. exact (proj1 (Forall_forall _ _) F _ U).
Qed.
Print Assumptions C83_insert_refuted.
(** Without names of columns every value is lost, literal or not: the rows are empty. *)
Theorem C83_insert_no_columns_refuted : forall entries t rows, bare_name t -> some (some given_ok) rows ->
  parse entries (insert_text t [] rows) = Ok [SInsert (new_table t) (map (fun _ => []) rows)].
Proof. intros entries t rows T R. rewrite insert_reads by (assumption || constructor). reflexivity. Qed.
Print Assumptions C83_insert_no_columns_refuted.

(** UPDATE keeps the table, the names of the assigned columns in order, and the condition. *)
Theorem C83_update_is_read : forall entries t sets w, any_name t -> some assignment_ok sets -> condition_ok w ->
  exists cols, parse entries (update_text t sets w) = Ok [SUpdate (new_table t) cols w] /\ map c_name cols = map fst sets.
Proof.
  intros entries t sets w T S W. eexists. split; [apply update_reads; assumption|]. rewrite map_map. apply map_ext. intros [n []]; reflexivity.
Qed.
Print Assumptions C83_update_is_read.
(** Each holds what it is assigned when that is a literal or arithmetic.  Missing for the full property: the rest. *)
Theorem C83_update_partial : forall entries t sets w, any_name t -> some assignment_ok sets -> condition_ok w ->
  Forall (fun a => is_literal (snd a) \/ is_arithmetic (snd a)) sets ->
  exists cols, parse entries (update_text t sets w) = Ok [SUpdate (new_table t) cols w] /\ Forall2 holds sets cols.
Proof.
  intros entries t sets w T S W L. eexists. split; [apply update_reads; assumption|]. clear S.
  induction L as [|[n v] sets [(l & E)|(c & o & a & E)] _ IH]; [constructor|..]; cbn [snd] in E; subst v; cbn [map]; (constructor; [|exact IH]).
  - constructor.
  - unfold assigned, vset_of, vset_column. cbn [fst snd vexp_of]. rewrite farg_of_text. constructor.
Qed.
Print Assumptions C83_update_partial.
(** A column that is assigned another column, a function or a number in parentheses has no value at all, without an error. *)
Theorem C83_update_refuted : forall entries t sets w i n v, any_name t -> some assignment_ok sets -> condition_ok w ->
  nth_error sets i = Some (n, v) -> ~ is_literal v -> ~ is_arithmetic v ->
  exists cols, parse entries (update_text t sets w) = Ok [SUpdate (new_table t) cols w] /\ nth_error cols i = Some (new_column n).
Proof.
  intros entries t sets w i n v T S W E L A. eexists. split; [apply update_reads; assumption|]. rewrite nth_error_map, E. cbn [option_map]. f_equal.
  destruct v as [l|c|c o a|f args|m]; try reflexivity; [destruct L; exists l; reflexivity|destruct A; exists c, o, a; reflexivity].
Qed.
Print Assumptions C83_update_refuted.
(** so any two assignments like that are the same *)
Theorem C83_update_same_refuted : forall entries t n v v' w, any_name t -> assignment_ok (n, v) -> assignment_ok (n, v') -> condition_ok w ->
  ~ is_literal v -> ~ is_arithmetic v -> ~ is_literal v' -> ~ is_arithmetic v' ->
  parse entries (update_text t [(n, v)] w) = parse entries (update_text t [(n, v')] w).
Proof.
  intros entries t n v v' w T O O' W L A L' A'.
  assert (G : forall v, assignment_ok (n, v) -> ~ is_literal v -> ~ is_arithmetic v -> parse entries (update_text t [(n, v)] w) = Ok [SUpdate (new_table t) [new_column n] w]).
  { clear - T W. intros v O L A. rewrite update_reads; [|exact T|split; [discriminate|constructor; [exact O|constructor]]|exact W]. cbn [map]. do 4 f_equal.
    destruct v as [l|c|c o a|f args|m]; try reflexivity; [destruct L; exists l; reflexivity|destruct A; exists c, o, a; reflexivity]. }
  rewrite (G v), (G v'); auto.
Qed.
Print Assumptions C83_update_same_refuted.

Definition example_values : list given := [OfColumn "b"; Literal (mkLit (VStr "1") UnknownLiteral); Call "UPPER" [Column "c"; Number "2"]; Literal (mkLit (VStr "x") StringLiteral)]%string.
Lemma example_any x : In x ["a"; "b"; "c"; "t"; "UPPER"]%string -> any_name x.
Proof. intro H. apply any_checked. cbn [In] in H. repeat (destruct H as [<-|H]; [vm_compute; reflexivity|]). contradiction. Qed.
Lemma example_number n : In n ["1"; "2"]%string -> number n.
Proof. cbn [In]. intros [<-|[<-|[]]]; left; (split; [discriminate|]); intros x [<-|[]]; unfold digit; cbn; lia. Qed.
Example C83_example_text : insert_text "t" ["a"; "b"; "c"] [example_values] = "INSERT INTO t (a, b, c) VALUES (b, 1, UPPER(c, 2), 'x')"%string
  /\ update_text "t" [("a", OfColumn "b"); ("b", Arithmetic "b" Plus (Number "1")); ("c", InParentheses "2")] None = "UPDATE t SET a = b, b = b + 1, c = (2)"%string
  /\ combine ["a"; "b"; "c"]%string (literals_of example_values) = [("a", mkLit (VStr "1") UnknownLiteral); ("b", mkLit (VStr "x") StringLiteral)]%string.
Proof. repeat split; vm_compute; reflexivity. Qed.
Example C83_example_ok : bare_name "t" /\ some any_name ["a"; "b"; "c"]%string /\ some (some given_ok) [example_values]
  /\ Forall (fun r => exists v, In v r /\ is_literal v) [example_values]
  /\ some assignment_ok [("a", OfColumn "b"); ("b", Arithmetic "b" Plus (Number "1")); ("c", InParentheses "2")]%string.
Proof.
  assert (X : plain_text "x") by (apply quoteless_plain; intros c [<-|[]]; split; discriminate).
  split; [apply bare_checked; vm_compute; reflexivity|]. split; [|split; [|split]].
  - split; [discriminate|]. repeat (apply Forall_cons; [apply example_any; cbn; tauto|]). constructor.
  - split; [discriminate|]. apply Forall_cons; [|constructor]. split; [discriminate|]. unfold example_values.
    apply Forall_cons; [apply example_any; cbn; tauto|]. apply Forall_cons; [apply lo_number, example_number; cbn; tauto|].
    apply Forall_cons; [|apply Forall_cons; [apply lo_text; exact X|constructor]]. split; [apply example_any; cbn; tauto|].
    apply Forall_cons; [apply example_any; cbn; tauto|]. apply Forall_cons; [apply example_number; cbn; tauto|constructor].
  - apply Forall_cons; [|constructor]. eexists. split; [right; left; reflexivity|]. eexists. reflexivity.
  - split; [discriminate|]. apply Forall_cons; [|apply Forall_cons; [|apply Forall_cons; [|constructor]]]; (split; [apply example_any; cbn; tauto|]); cbn [snd given_ok].
    + apply example_any; cbn; tauto.
    + split; [apply example_any; cbn; tauto|apply example_number; cbn; tauto].
    + apply example_number; cbn; tauto.
Qed.
