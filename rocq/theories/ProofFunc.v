(** Proofs for property C76. *)
From Verif Require Import GoBase FactsBase ModelAggr ModelFn ModelFunc SpecFunc.

Lemma is_last_fold {O X T} (step : T -> O -> T) (get : T -> X) (pick : O -> option X) :
  (forall c o, get (step c o) = match pick o with Some x => x | None => get c end) ->
  forall opts c, is_last pick opts (get c) (get (fold_left step opts c)).
Proof.
  intros H opts. induction opts as [|o opts IH]; intro c; [right; split; [constructor|reflexivity]|].
  cbn [fold_left]. destruct (IH (step c o)) as [(b & p & a & E & P & F)|[F E]].
  - left. exists (o :: b), p, a. rewrite E at 1. split; [reflexivity|]. split; assumption.
  - rewrite E, H. destruct (pick o) as [x|] eqn:P.
    + left. exists [], o, opts. split; [reflexivity|]. split; [exact P|exact F].
    + right. split; [constructor; [exact P|exact F]|reflexivity].
Qed.

Lemma is_last_fun {O X} (pick : O -> option X) opts d x y : is_last pick opts d x -> is_last pick opts d y -> x = y.
Proof.
  assert (U : forall b o a b' o' a' (x y : X), b ++ o :: a = b' ++ o' :: a' -> pick o = Some x -> pick o' = Some y ->
    Forall (fun p => pick p = None) a -> Forall (fun p => pick p = None) a' -> x = y).
  { induction b as [|c b IH]; intros o a [|c' b'] o' a' u v E P P' F F'; cbn in E; injection E as E1 E2.
    - congruence.
    - subst. rewrite Forall_forall in F. specialize (F o' (in_elt _ _ _)). congruence.
    - subst. rewrite Forall_forall in F'. specialize (F' o (in_elt _ _ _)). congruence.
    - eauto. }
  assert (N : forall b o a (x : X), Forall (fun p => pick p = None) (b ++ o :: a) -> pick o = Some x -> False).
  { intros b o a u F P. rewrite Forall_forall in F. specialize (F o (in_elt _ _ _)). congruence. }
  intros [(b & o & a & E & P & F)|[F E]] [(b' & o' & a' & E' & P' & F')|[F' E']].
  - exact (U _ _ _ _ _ _ _ _ (eq_trans (eq_sym E) E') P P' F F').
  - subst opts. destruct (N _ _ _ _ F' P).
  - subst opts. destruct (N _ _ _ _ F P').
  - congruence.
Qed.

Section Proofs.
  Context {V R A : Type} (builtin : exe -> list (option V) -> result R) (of_text : string -> option V).
  Notation x_execute := (x_execute of_text).
  Notation called_with := (called_with of_text).
  Notation function_executor := (function_executor builtin).
  Notation fcalls := (fcalls builtin).

  Lemma executor_last opts (x : executor V R) : let y := fold_left apply_xopt opts x in
    is_last gives_name opts (x_name x) (x_name y) /\ is_last gives_args opts (x_args x) (x_args y)
    /\ is_last gives_type opts (x_type x) (x_type y) /\ is_last gives_code opts (x_fn x) (x_fn y).
  Proof.
    cbv zeta. split; [|split; [|split]].
    - apply (is_last_fold apply_xopt x_name gives_name). intros c []; reflexivity.
    - apply (is_last_fold apply_xopt x_args gives_args). intros c []; reflexivity.
    - apply (is_last_fold apply_xopt x_type gives_type). intros c []; reflexivity.
    - apply (is_last_fold apply_xopt x_fn gives_code). intros c []; reflexivity.
  Qed.

  Lemma looked_up_get m n v : NoDup (map fst m) -> looked_up of_text m n v ->
    v = match mget String.eqb n m with Some v => v | None => of_text n end.
  Proof.
    intros N [w I|I].
    - induction m as [|[k u] m IH]; [destruct I|]. cbn [map fst] in N. inversion N as [|? ? N1 N2]; subst. cbn [mget].
      destruct I as [I|I].
      + injection I as -> ->. rewrite String.eqb_refl. reflexivity.
      + destruct (String.eqb_spec n k) as [->|D]; [|exact (IH N2 I)]. destruct N1. exact (in_map fst _ _ I).
    - clear N. induction m as [|[k u] m IH]; [reflexivity|]. cbn [mget]. cbn [map fst In] in I.
      destruct (String.eqb_spec n k) as [->|D]; [tauto|]. apply IH. tauto.
  Qed.
  Lemma execute_called (x : executor V R) a l : called_with (x_args x) a l -> x_execute x a = x_fn x l.
  Proof.
    intros C. inversion C as [|v| |m l' N F]; subst; try reflexivity. cbn [ModelFunc.x_execute]. f_equal. clear C.
    induction F as [|n v ns vs L F IH]; [reflexivity|]. cbn [map]. rewrite IH, (looked_up_get m n v N L). reflexivity.
  Qed.
  Lemma called_total names a : match a with XMap m => NoDup (map fst m) | _ => True end -> exists l, called_with names a l.
  Proof.
    destruct a as [l|m| |v]; intro N; try (eexists; constructor; fail).
    assert (T : exists l, Forall2 (looked_up of_text m) names l).
    { induction names as [|n ns (l & IH)]; [eexists; constructor|].
      destruct (in_dec string_dec n (map fst m)) as [I|I].
      - apply in_map_iff in I. destruct I as ([k v] & <- & I). exists (v :: l). constructor; [exact (lu_entry _ m k v I)|exact IH].
      - exists (of_text n :: l). constructor; [exact (lu_none _ m n I)|exact IH]. }
    destruct T as (l & T). exists l. constructor; assumption.
  Qed.

  Lemma fcalls_exec (f : function V R A) l x : fu_exec f = Some x -> fu_exec (fcalls f l) = Some x.
  Proof.
    unfold ModelFunc.fcalls. revert f. induction l as [|c l IH]; intros f E; [exact E|]. cbn [fold_left]. apply IH. destruct c; cbn [fstep].
    - unfold ModelFunc.function_executor. rewrite E. exact E.
    - unfold function_aggregator. destruct (fu_aggr f); [exact E|]. destruct (new_aggregator_kind _) as [k| |]; try exact E.
      destruct (new_aggr _ _); exact E.
  Qed.
  Lemma fcalls_aggr (f : function V R A) l g : fu_aggr f = Some g -> fu_aggr (fcalls f l) = Some g.
  Proof.
    unfold ModelFunc.fcalls. revert f. induction l as [|c l IH]; intros f E; [exact E|]. cbn [fold_left]. apply IH. destruct c; cbn [fstep].
    - unfold ModelFunc.function_executor. destruct (fu_exec f); [exact E|]. destruct (executor_for_name _ _ _); exact E.
    - unfold function_aggregator. rewrite E. exact E.
  Qed.
  Lemma executor_kept (f : function V R A) o x : snd (function_executor f o) = Ok x -> fu_exec (fst (function_executor f o)) = Some x.
  Proof.
    unfold ModelFunc.function_executor. destruct (fu_exec f) eqn:E; cbn [fst snd].
    - intros [= ->]. exact E.
    - destruct (executor_for_name _ _ _) as [y| |]; cbn [fst snd fu_exec]; congruence.
  Qed.
  Lemma aggregator_kept (f : function V R A) g a : snd (function_aggregator f g) = Ok a -> fu_aggr (fst (function_aggregator f g)) = Some a.
  Proof.
    unfold function_aggregator. destruct (fu_aggr f) eqn:E; cbn [fst snd].
    - intros [= ->]. exact E.
    - destruct (new_aggregator_kind _) as [k| |]; [|discriminate|discriminate]. destruct (new_aggr _ _); cbn [fst snd fu_aggr]; congruence.
  Qed.

  Lemma after_exec (after : list (fopt V R A)) f : Forall (fun o => gives_executor o = None) after ->
    fu_exec (fold_left apply_fopt after f) = fu_exec f.
  Proof.
    intro F. revert f. induction F as [|o after E F IH]; intro f; [reflexivity|]. cbn [fold_left]. rewrite IH. destruct o; try reflexivity. discriminate E.
  Qed.
  Lemma after_name (after : list (fopt V R A)) f : Forall (fun o => renames o = false) after -> fu_name (fold_left apply_fopt after f) = fu_name f.
  Proof.
    intro F. revert f. induction F as [|o after E F IH]; intro f; [reflexivity|]. cbn [fold_left]. rewrite IH. destruct o; try reflexivity; discriminate E.
  Qed.
  Lemma after_type (after : list (fopt V R A)) f : Forall (fun o => retypes o = false) after -> fu_type (fold_left apply_fopt after f) = fu_type f.
  Proof.
    intro F. revert f. induction F as [|o after E F IH]; intro f; [reflexivity|]. cbn [fold_left]. rewrite IH. destruct o; try reflexivity; discriminate E.
  Qed.

  Lemma no_given_opts (opts : list (fopt V R A)) f : fu_aggr f = None -> fu_aggr (fold_left apply_fopt opts f) = None.
  Proof. revert f. induction opts as [|o opts IH]; intros f E; [exact E|]. cbn [fold_left]. apply IH. destruct o; exact E. Qed.
  Lemma no_given (f : function V R A) calls : (forall n a, fu_aggr f <> Some (GivenAggr n a)) ->
    forall n a, fu_aggr (fcalls f calls) <> Some (GivenAggr n a).
  Proof.
    unfold ModelFunc.fcalls. revert f. induction calls as [|c l IH]; intros f E; [exact E|]. cbn [fold_left]. apply IH. destruct c; cbn [fstep].
    - unfold ModelFunc.function_executor. destruct (fu_exec f); [exact E|]. destruct (executor_for_name _ _ _); exact E.
    - unfold function_aggregator. destruct (fu_aggr f) as [x|] eqn:X; cbn [fst]; [rewrite X; exact E|].
      destruct (new_aggregator_kind _) as [k| |]; cbn [fst]; try (rewrite X; discriminate).
      destruct (new_aggr _ _); cbn [fst fu_aggr]; try (rewrite X; discriminate). discriminate.
  Qed.
  Lemma never_given (f : function V R A) g : (forall n a, fu_aggr f <> Some (GivenAggr n a)) ->
    forall n a, snd (function_aggregator f g) <> Ok (GivenAggr n a).
  Proof.
    intros E n a. unfold function_aggregator. destruct (fu_aggr f) as [x|] eqn:X; cbn [snd].
    - intros [= ->]. exact (E _ _ eq_refl).
    - destruct (new_aggregator_kind _) as [k| |]; cbn [snd]; try discriminate. destruct (new_aggr _ _); cbn [snd]; discriminate.
  Qed.
End Proofs.
