(** Property C32, continued: the executors of a list of selectors. *)
From Verif Require Import GoBase ModelUtil ModelAggr ModelFn ModelQuery SpecQuery ProofQuery.
Local Open Scope string_scope.
Local Open Scope list_scope.

(** what Executor() of the function returns is the executor *)
Definition runs_as (f : func) (x : exe * list string) : Prop := snd (func_executor f) = Ok x.
(** the functions of the list that are not aggregates *)
Definition computed (l : list selector) : list func := filter (fun f => negb (ftype_eqb (f_type f) AggregateFunction)) (functions l).

Lemma bind_cons {A} (x : A) r ys : rbind r (fun xs => Ok (x :: xs)) = Ok ys <-> exists xs, r = Ok xs /\ ys = x :: xs.
Proof.
  destruct r as [xs|e|]; cbn [rbind]; split; try discriminate; try (intros (z & E & _); discriminate E).
  - intro H. injection H as <-. exists xs. split; reflexivity.
  - intros (z & E & ->). injection E as <-. reflexivity.
Qed.
Lemma executors_are l : forall xs, executors l = Ok xs <-> Forall2 runs_as (computed l) xs.
Proof.
  unfold computed. induction l as [|s l IH]; intro xs.
  - cbn. split; intro H; [injection H as <-; constructor|inversion H; reflexivity].
  - cbn [executors functions]. destruct (sel_function s) as [f|]; [|exact (IH xs)]. cbn [filter]. unfold func_is_aggregator.
    destruct (ftype_eqb (f_type f) AggregateFunction); cbn [negb]; [exact (IH xs)|].
    destruct (snd (func_executor f)) as [x|e|] eqn:E.
    + rewrite bind_cons. split.
      * intros (ys & H & ->). constructor; [exact E|apply IH, H].
      * intro H. inversion H as [|? y ? ys A B]; subst. unfold runs_as in A. rewrite E in A. injection A as <-. exists ys. split; [apply IH, B|reflexivity].
    + split; [discriminate|]. intro H. inversion H as [|? y ? ys A B]; subst. unfold runs_as in A. rewrite E in A. discriminate A.
    + split; [discriminate|]. intro H. inversion H as [|? y ? ys A B]; subst. unfold runs_as in A. rewrite E in A. discriminate A.
Qed.
Lemma all_run fs : (forall f, In f fs -> exists x, runs_as f x) -> exists xs, Forall2 runs_as fs xs.
Proof.
  induction fs as [|f fs IH]; intro H; [exists []; constructor|]. destruct (H f (or_introl eq_refl)) as (x & X). destruct (IH (fun g G => H g (or_intror G))) as (xs & Xs).
  exists (x :: xs). constructor; assumption.
Qed.
Lemma run_all fs xs : Forall2 runs_as fs xs -> forall f, In f fs -> exists x, runs_as f x.
Proof. intro F. induction F as [|f x fs xs A F IH]; intros g G; [contradiction G|]. destruct G as [<-|G]; [exists x; exact A|exact (IH g G)]. Qed.

(** Executors() returns the executors of the functions that are not aggregates, in their order, if each of
    them has one; else it fails with the error of the first that has none. *)
Theorem C32_executors_partial : forall l,
  (forall xs, executors l = Ok xs <-> Forall2 runs_as (computed l) xs) /\
  (forall e, executors l = Err e -> exists n f, first_match (fun g => forall x, ~ runs_as g x) (computed l) n f /\ snd (func_executor f) = Err e).
Proof.
  intro l. split; [apply executors_are|]. intros e. unfold computed. induction l as [|s l IH]; [discriminate|]. cbn [executors functions].
  destruct (sel_function s) as [f|]; [|exact IH]. cbn [filter]. unfold func_is_aggregator. destruct (ftype_eqb (f_type f) AggregateFunction); cbn [negb]; [exact IH|].
  destruct (snd (func_executor f)) as [x|e'|] eqn:E; [|intro H; injection H as ->|discriminate].
  - intro H. destruct (executors l) as [ys|e'|]; try discriminate H. cbn [rbind] in H. injection H as ->. destruct (IH eq_refl) as (n & g & M & G). exists (S n), g. split; [|exact G].
    destruct M as (A & B & C). split; [exact A|]. split; [exact B|]. intros [|m] g' L Q; [|exact (C m g' (proj2 (Nat.succ_lt_mono _ _) L) Q)].
    cbn in Q. injection Q as <-. intro N. exact (N x E).
  - exists 0, f. split; [|exact E]. split; [reflexivity|]. split; [intros x R; unfold runs_as in R; rewrite E in R; discriminate R|]. intros m g' L. inversion L.
Qed.
Print Assumptions C32_executors_partial.

(** The full statement says that HasExecutor() is true iff some selector is a function with an executor.
    It is true iff there is a function that is not an aggregate and all of these have an executor: one
    function without an executor hides those of the others. *)
Theorem C32_has_executor_refuted : forall l, has_executor l = true <-> computed l <> [] /\ forall f, In f (computed l) -> exists x, runs_as f x.
Proof.
  intro l. unfold has_executor. pose proof (executors_are l) as E. destruct (executors l) as [[|x xs]|e|] eqn:Q.
  - pose proof (proj1 (E []) eq_refl) as F. inversion F as [G|]. split; [discriminate|]. intros [N _]. contradiction N. reflexivity.
  - pose proof (proj1 (E _) eq_refl) as F. split; [|reflexivity]. intros _. split; [intro Z; rewrite Z in F; inversion F|exact (run_all _ _ F)].
  - split; [discriminate|]. intros [_ A]. destruct (all_run _ A) as (xs & X). apply E in X. discriminate X.
  - split; [discriminate|]. intros [_ A]. destruct (all_run _ A) as (xs & X). apply E in X. discriminate X.
Qed.
Print Assumptions C32_has_executor_refuted.
Theorem C32_hidden_executor_refuted : forall args args' l l',
  has_executor (l ++ SelFn (new_func "NOPE" args) :: l' ++ [SelFn (new_func "ABS" args')]) = false /\
  runs_as (new_func "ABS" args') (ABS, args').
Proof.
  intros args args' l l'. split; [|reflexivity]. destruct (has_executor _) eqn:E; [|reflexivity]. apply C32_has_executor_refuted in E. destruct E as [_ E]. exfalso.
  destruct (E (new_func "NOPE" args)) as (x & X); [|discriminate X]. unfold computed. apply filter_In. split; [|reflexivity]. clear.
  induction l as [|s l IH]; [left; reflexivity|]. cbn [app functions]. destruct (sel_function s); [right|]; exact IH.
Qed.
Print Assumptions C32_hidden_executor_refuted.

(** ExecutorsForType(t) returns the executors of type t, in order, if every function has an executor; so
    not if one is an aggregate. *)
Theorem C32_executors_for_type_partial : forall t l xs,
  executors_for_type t l = Ok xs <-> exists ys, Forall2 runs_as (functions l) ys /\ xs = filter (fun y => ftype_eqb (exe_type (fst y)) t) ys.
Proof.
  intros t l. induction l as [|s l IH]; intro xs.
  - cbn. split; [intro H; injection H as <-; exists []; split; [constructor|reflexivity]|]. intros (ys & F & ->). inversion F. reflexivity.
  - cbn [executors_for_type functions]. destruct (sel_function s) as [f|]; [|exact (IH xs)]. destruct (snd (func_executor f)) as [x|e|] eqn:E.
    + assert (P : forall ys, Forall2 runs_as (f :: functions l) ys <-> exists zs, ys = x :: zs /\ Forall2 runs_as (functions l) zs).
      { intro ys. split; [|intros (zs & -> & F); constructor; [exact E|exact F]]. intro F. inversion F as [|? y ? zs A B]; subst. unfold runs_as in A. rewrite E in A. injection A as <-. exists zs. split; [reflexivity|exact B]. }
      destruct (ftype_eqb (exe_type (fst x)) t) eqn:T.
      * rewrite bind_cons. split.
        -- intros (zs & H & ->). apply IH in H. destruct H as (ys & F & ->). exists (x :: ys). split; [apply P; exists ys; split; [reflexivity|exact F]|]. cbn [filter]. rewrite T. reflexivity.
        -- intros (ys & F & ->). apply P in F. destruct F as (zs & -> & F). cbn [filter]. rewrite T. eexists. split; [apply IH; exists zs; split; [exact F|reflexivity]|reflexivity].
      * split.
        -- intro H. apply IH in H. destruct H as (ys & F & ->). exists (x :: ys). split; [apply P; exists ys; split; [reflexivity|exact F]|]. cbn [filter]. rewrite T. reflexivity.
        -- intros (ys & F & ->). apply P in F. destruct F as (zs & -> & F). cbn [filter]. rewrite T. apply IH. exists zs. split; [exact F|reflexivity].
    + split; [discriminate|]. intros (ys & F & _). inversion F as [|? y ? zs A B]; subst. unfold runs_as in A. rewrite E in A. discriminate A.
    + split; [discriminate|]. intros (ys & F & _). inversion F as [|? y ? zs A B]; subst. unfold runs_as in A. rewrite E in A. discriminate A.
Qed.
Print Assumptions C32_executors_for_type_partial.
(** so a query with an aggregate has no executors of any type *)
Theorem C32_aggregate_hides_refuted : forall t k args l l',
  match executors_for_type t (l ++ SelFn (new_func (kind_name k) args) :: l') with Ok _ => False | _ => True end.
Proof.
  intros t k args l l'. destruct (executors_for_type _ _) as [xs|e|] eqn:E; [|exact I|exact I]. apply C32_executors_for_type_partial in E. destruct E as (ys & F & _).
  destruct (run_all _ _ F (new_func (kind_name k) args)) as (x & X); [|destruct k; discriminate X]. clear.
  induction l as [|s l IH]; [left; reflexivity|]. cbn [app functions]. destruct (sel_function s); [right|]; exact IH.
Qed.
Print Assumptions C32_aggregate_hides_refuted.
(** LookupExecutor(name): the executor of the first function of that name. *)
Theorem C32_lookup_executor_partial : forall l name x,
  lookup_executor l name = Ok x <-> exists n f, first_match (fun g => f_name g = name) (functions l) n f /\ runs_as f x.
Proof.
  intros l name x. unfold lookup_executor. destruct (lookup_function_spec l name) as (A & _ & _). destruct (lookup_function l name) as [f|e|] eqn:E; cbn [rbind].
  - destruct (proj1 (A f) eq_refl) as (n & M). split; [intro H; exists n, f; split; assumption|]. intros (n' & f' & M' & R). pose proof (proj2 (A f') (ex_intro _ n' M')) as Q. injection Q as <-. exact R.
  - split; [discriminate|]. intros (n & f & M & _). pose proof (proj2 (A f) (ex_intro _ n M)) as Q. discriminate Q.
  - split; [discriminate|]. intros (n & f & M & _). pose proof (proj2 (A f) (ex_intro _ n M)) as Q. discriminate Q.
Qed.
Print Assumptions C32_lookup_executor_partial.
Example C32_executors_example :
  let l := [SelFn (new_func "ABS" ["a"]); SelCol (new_column "b"); SelFn (new_func "SUM" ["b"]); SelFn (new_func "FLOOR" ["c"])] in
  executors l = Ok [(ABS, ["a"]); (FLOOR, ["c"])] /\ has_executor l = true /\ lookup_executor l "FLOOR" = Ok (FLOOR, ["c"])
  /\ executors_for_type MathFunction [SelFn (new_func "ABS" ["a"])] = Ok [(ABS, ["a"])] /\ has_executor [SelFn (new_func "NOPE" []); SelFn (new_func "ABS" ["a"])] = false.
Proof. vm_compute. repeat split. Qed.
