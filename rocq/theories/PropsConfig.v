(** C17, continued: how an aggregator is configured, by a constructor or by Reset. *)
From Verif Require Import GoBase ModelAggr SpecAggr ModelFunc SpecFunc ProofFunc.

Definition sets_args (o : aopt) : option (list string) := match o with OptArgs l => Some l | _ => None end.
(** empty group names do not count *)
Definition sets_groups (o : aopt) : option (list string) :=
  match o with OptGroups l => Some (filter (fun g => negb (String.eqb g "")) l) | _ => None end.
(** the options are taken one after the other; a second list of arguments is refused once two or
    more arguments have been given *)
Inductive taken : list string -> list aopt -> Prop :=
| taken_nil args : taken args []
| taken_args args l opts : length args <= 1 -> taken l opts -> taken args (OptArgs l :: opts)
| taken_groups args l opts : taken args opts -> taken args (OptGroups l :: opts).

Lemma opts_taken opts : forall st, taken (a_args st) opts <-> snd (apply_opts st opts) = Ok tt.
Proof.
  induction opts as [|o opts IH]; intro st; [split; [reflexivity|constructor]|].
  destruct o as [l|l|]; cbn [apply_opts apply_opt].
  - destruct (1 <? length (a_args st)) eqn:E; [apply Nat.ltb_lt in E|apply Nat.ltb_ge in E].
    + split; [inversion 1; lia|discriminate].
    + rewrite <- IH. cbn [a_args]. split; [inversion 1; assumption|constructor; assumption].
  - rewrite <- IH. cbn [set_groups a_args]. split; [inversion 1; assumption|constructor; assumption].
  - split; [inversion 1|discriminate].
Qed.
Lemma opts_last opts : forall st, snd (apply_opts st opts) = Ok tt ->
  let s := fst (apply_opts st opts) in
  a_kind s = a_kind st /\ is_last sets_args opts (a_args st) (a_args s) /\ is_last sets_groups opts (a_groups st) (a_groups s).
Proof.
  intros st H s.
  assert (E : s = fold_left (fun a o => fst (apply_opt a o)) opts st /\
    forall X (get : aggr -> X) pick, (forall a o, snd (apply_opt a o) = Ok tt -> get (fst (apply_opt a o)) = match pick o with Some x => x | None => get a end) ->
      is_last pick opts (get st) (get s)).
  { subst s. revert st H. induction opts as [|o opts IH]; intros st H.
    - split; [reflexivity|]. intros X get pick _. right. split; [constructor|reflexivity].
    - cbn [apply_opts] in H |- *. destruct (apply_opt st o) as [st' [[]|e|]] eqn:A; try discriminate H.
      destruct (IH st' H) as (F & L). split; [cbn [fold_left]; rewrite A; exact F|].
      intros X get pick P. specialize (L X get pick P). specialize (P st o). rewrite A in P. specialize (P eq_refl). cbn [fst] in P.
      destruct L as [(b & p & a & -> & Q & N)|(N & ->)].
      + left. exists (o :: b), p, a. repeat split; assumption.
      + destruct (pick o) as [x|] eqn:K.
        * left. exists [], o, opts. rewrite P. repeat split; assumption.
        * right. split; [constructor; assumption|exact P]. }
  destruct E as (F & L). split; [|split].
  - rewrite F. clear. revert st. induction opts as [|o opts IH]; intro st; [reflexivity|]. cbn [fold_left]. rewrite IH.
    destruct o; cbn [apply_opt]; [destruct (1 <? _)| |]; reflexivity.
  - apply L. intros a [l|l|]; cbn [apply_opt sets_args]; [destruct (1 <? _); [discriminate|]| |discriminate]; reflexivity.
  - apply L. intros a [l|l|]; cbn [apply_opt sets_groups]; [destruct (1 <? _); [discriminate|]| |discriminate]; reflexivity.
Qed.

(** The configuration of a reset aggregator: the last arguments given, or those it had; the last
    groups given without the empty names, or those it had; the columns are the groups and then the
    function applied to each argument. *)
Definition configured (k : kind) (args groups : list string) (opts : list aopt) (s : aggr) : Prop :=
  a_kind s = k /\ is_last sets_args opts args (a_args s) /\ is_last sets_groups opts groups (a_groups s)
  /\ a_columns s = a_groups s ++ map (aggregate_name k) (a_args s).

Theorem C17_reset_configured : forall st opts,
  (forall s, reset st opts = (s, Ok tt) -> configured (a_kind st) (a_args st) (a_groups st) opts s)
  /\ (snd (reset st opts) = Ok tt <->
      taken (a_args st) opts /\ ~ (is_last sets_args opts (a_args st) [] /\ is_last sets_groups opts (a_groups st) [])).
Proof.
  intros st opts. pose proof (opts_taken opts st) as T. pose proof (opts_last opts st) as L. unfold reset.
  destruct (apply_opts st opts) as [s1 [[]|e|]] eqn:A; cbn [fst snd] in *.
  2,3: (split; [discriminate|]; split; [discriminate|]; intros (H & _); apply T in H; discriminate H).
  destruct (L eq_refl) as (K & La & Lg).
  assert (C : columns_of s1 = a_groups s1 ++ map (aggregate_name (a_kind st)) (a_args s1)).
  { unfold columns_of, is_grouping. rewrite K. destruct (a_groups s1); cbn [length Nat.eqb negb]; destruct (a_kind st); reflexivity. }
  destruct (length (columns_of s1) =? 0) eqn:N; cbn [fst snd].
  - apply Nat.eqb_eq, length_zero_iff_nil in N. rewrite C in N. apply app_eq_nil in N as (G & M). apply map_eq_nil in M.
    rewrite G in Lg. rewrite M in La. split; [discriminate|]. split; [discriminate|]. intros (_ & H). exfalso. apply H. split; assumption.
  - apply Nat.eqb_neq in N. split.
    + intros s [= <-]. repeat split; cbn; assumption.
    + split; [|reflexivity]. intros _. split; [apply T; reflexivity|]. intros (H1 & H2).
      apply N. rewrite C, <- (is_last_fun _ _ _ _ _ H1 La), <- (is_last_fun _ _ _ _ _ H2 Lg). reflexivity.
Qed.
Print Assumptions C17_reset_configured.

(** The same for the constructors, which start without arguments and groups. *)
Theorem C17_new_configured : forall k opts,
  (forall s, new_aggr k opts = Ok s -> configured k [] [] opts s)
  /\ ((exists s, new_aggr k opts = Ok s) <-> taken [] opts /\ ~ (is_last sets_args opts [] [] /\ is_last sets_groups opts [] [])).
Proof.
  intros k opts. pose proof (opts_taken opts (blank_aggr k)) as T. pose proof (opts_last opts (blank_aggr k)) as L. unfold new_aggr.
  destruct (apply_opts (blank_aggr k) opts) as [s1 [[]|e|]]; cbn [fst snd] in *.
  2,3: (split; [discriminate|]; split; [intros (s & H); discriminate H|]; intros (H & _); apply T in H; discriminate H).
  destruct (L eq_refl) as (K & La & Lg). cbn in K, La, Lg. destruct (C17_reset_configured s1 []) as (F & R).
  assert (Z : forall {X} (pick : aopt -> option X) d x, is_last pick [] d x <-> x = d).
  { intros X pick d x. split; [intros [(b & o & a & E & _)|(_ & E)]; [destruct b; discriminate E|exact E]|intros ->; right; split; [constructor|reflexivity]]. }
  destruct (reset s1 []) as [s [[]|e|]]; cbn [snd] in R.
  - destruct (F s eq_refl) as (K' & Ea & Eg & C). apply Z in Ea. apply Z in Eg. rewrite K in K', C.
    assert (La' : is_last sets_args opts [] (a_args s)) by (rewrite Ea; exact La).
    assert (Lg' : is_last sets_groups opts [] (a_groups s)) by (rewrite Eg; exact Lg).
    split; [intros s' E'; injection E' as <-; repeat split; assumption|].
    split; [|exists s; reflexivity]. intros _. split; [apply T; reflexivity|]. intros (H1 & H2).
    apply (proj2 (proj1 R eq_refl)). rewrite !Z. split; [exact (is_last_fun _ _ _ _ _ H1 La)|exact (is_last_fun _ _ _ _ _ H2 Lg)].
  - split; [discriminate|]. split; [intros (? & H); discriminate H|]. intros (_ & H). exfalso.
    assert (E : Err e = Ok tt); [|discriminate E]. apply R. split; [constructor|]. rewrite !Z. intros (Q1 & Q2). rewrite <- Q1 in La. rewrite <- Q2 in Lg. apply H. split; assumption.
  - split; [discriminate|]. split; [intros (? & H); discriminate H|]. intros (_ & H). exfalso.
    assert (E : @Panic unit = Ok tt); [|discriminate E]. apply R. split; [constructor|]. rewrite !Z. intros (Q1 & Q2). rewrite <- Q1 in La. rewrite <- Q2 in Lg. apply H. split; assumption.
Qed.
Print Assumptions C17_new_configured.

Example C17_configured_example :
  (exists s, new_aggr SUM [OptArgs ["a"]; OptGroups ["g"; ""]; OptArgs ["b"; "c"]] = Ok s
    /\ a_columns s = ["g"; "SUM(b)"; "SUM(c)"]%string)
  /\ new_aggr SUM [OptArgs ["b"; "c"]; OptArgs ["a"]] = Err ErrNotSupported.
Proof. split; [eexists; split|]; reflexivity. Qed.
