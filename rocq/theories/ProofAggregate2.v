(** Proofs about aggregated result sets and result schemas, continued. *)
From Verif Require Import GoBase ModelResultSet ModelAggr ModelFn ModelQuery ModelAggregate SpecResultSet SpecAggr SpecAggregate
  FactsBase ProofResultSet ProofAggr ProofAggr2 ProofAggregate.

Lemma all_ok_single {A B} (f : A -> result B) l :
  all_ok (map (fun x => all_ok [f x]) l) = rbind (all_ok (map f l)) (fun xs => Ok (map (fun x => [x]) xs)).
Proof.
  induction l as [|x l IH]; [reflexivity|].
  change (rbind (all_ok [f x]) (fun v => rbind (all_ok (map (fun x => all_ok [f x]) l)) (fun vs => Ok (v :: vs))) =
          rbind (rbind (f x) (fun v => rbind (all_ok (map f l)) (fun vs => Ok (v :: vs)))) (fun xs => Ok (map (fun x => [x]) xs))).
  rewrite IH. cbn [all_ok]. destruct (f x); cbn [rbind]; auto. destruct (all_ok (map f l)); reflexivity.
Qed.

Lemma first_only_one {V} (v : option V) items k arg : aggs items = [(k, arg)] ->
  first_only v items = map (fun i => match i with Plain _ => None | Agg _ _ => v end) items.
Proof.
  induction items as [|[n|k' a] items IH]; intros E; cbn in *; auto; [now rewrite IH|].
  injection E as _ _ E. f_equal. clear -E. induction items as [|[n|k a] items IH]; cbn in *; try discriminate; auto. now rewrite IH.
Qed.

Lemma no_kind name : (forall k, has_prefix (kind_name k) (to_upper name) = false) -> new_aggregator_kind name = Err ErrNotSupported.
Proof. intros N. unfold new_aggregator_kind. cbn [find]. now rewrite !N. Qed.

Section Agg.
  Context (V R : Type) (to_float : V -> option float) (to_str : option V -> option string)
          (compare : option V -> option V -> option comparison) (num : float -> V)
          (iter : list (string * list float) -> list string)
          (mem : nat -> list (option V))
          (sort : (string -> string -> bool) -> list string -> list string).
  Notation run := (aggregated_result_set to_float to_str compare num iter mem sort).

  Lemma one_aggregate execute base items headings_ l group db (row : R -> result (object V)) fuel src k arg :
    let run := snd (run base l group (Some db) row fuel src) in
    written group items l -> aggs items = [(k, arg)] -> ungrouped group ->
    unread src -> length (rows_in src) < fuel ->
    Forall2 (heading_of base) items headings_ -> NoDup headings_ ->
    match all_ok (map (fun r => number_in to_float arg (row r)) (rows_in src)) with
    | Ok xs => exists s rows,
        run = Some (Ok (NewSet s rows)) /\
        rss_database s = db /\ rss_table s = t_name (s_table base) /\ headings s = headings_ /\
        seen execute s rows =
          Some [Ok (map (fun i => match i with Plain _ => None | Agg _ _ => option_map num (aggregate_of k xs) end) items)]
    | Err e => run = Some (Err e)
    | Panic => run = Some Panic
    end.
  Proof.
    cbv zeta. intros W A U UR F H ND.
    assert (NE : aggs items <> []) by (rewrite A; discriminate).
    pose proof (aggregated_seen to_float to_str compare num iter mem sort execute base items headings_ l group db row fuel src W NE U UR F H ND) as S.
    rewrite A in S. cbn [map snd fst hd] in S. rewrite (all_ok_single (fun r => number_in to_float arg (row r))) in S.
    destruct (all_ok (map _ (rows_in src))) as [xs|e|]; cbn [rbind] in S; auto.
    destruct S as (s & rows & S1 & S2 & S3 & S4 & S5). exists s, rows. repeat split; auto.
    rewrite S5. rewrite (first_only_one _ _ _ _ A). rewrite map_map. cbn [hd]. rewrite map_id. reflexivity.
  Qed.

  Lemma no_aggregate base items l group db (row : R -> result (object V)) fuel src :
    written group items l -> aggs items = [] ->
    run base l group db row fuel src = (l, Some (Ok SameSource)).
  Proof.
    intros W A. unfold aggregated_result_set. rewrite (written_selectors _ _ _ W), has_agg, A. reflexivity.
  Qed.

  Lemma aggs_all others : aggs (map (fun q : kind * string => Agg (fst q) (snd q)) others) = others.
  Proof. induction others as [|[k a] others IH]; cbn; auto. now rewrite IH. Qed.

  Lemma second_aggregate execute base k1 a1 others headings_ l group db (row : R -> result (object V)) fuel src yss :
    let items := Agg k1 a1 :: map (fun q => Agg (fst q) (snd q)) others in
    written group items l -> ungrouped group -> unread src -> length (rows_in src) < fuel ->
    Forall2 (heading_of base) items headings_ -> NoDup headings_ ->
    all_ok (map (fun r => all_ok (map (fun q => number_in to_float (snd q) (row r)) ((k1, a1) :: others))) (rows_in src)) = Ok yss ->
    exists s rows,
      snd (run base l group (Some db) row fuel src) = Some (Ok (NewSet s rows)) /\
      headings s = headings_ /\
      seen execute s rows =
        Some [Ok (option_map num (aggregate_of k1 (map (fun ys => hd fzero ys) yss)) :: map (fun _ => None) others)].
  Proof.
    cbv zeta. intros W U UR F H ND A.
    pose proof (aggregated_seen to_float to_str compare num iter mem sort execute base _ headings_ l group db row fuel src W) as S.
    cbn [aggs] in S. rewrite aggs_all in S. specialize (S ltac:(discriminate) U UR F H ND). rewrite A in S.
    destruct S as (s & rows & S1 & S2 & S3 & S4 & S5). exists s, rows. repeat split; auto.
    rewrite S5. cbn [first_only hd fst]. rewrite map_map. reflexivity.
  Qed.

  Lemma lower_case base k name arg group db (row : R -> result (object V)) fuel src :
    to_upper name = kind_name k -> name <> kind_name k ->
    snd (run base [fresh (SelFn (new_func name [arg]))] group db row fuel src) = Some (Ok SameSource).
  Proof.
    intros E N. unfold aggregated_result_set. cbn [map rl_sel fresh]. unfold has_aggregator. cbn [has_function_with_type sel_function].
    replace (ftype_eqb (f_type (new_func name [arg])) AggregateFunction) with false; [reflexivity|].
    cbn [new_func f_type]. unfold type_for_name.
    destruct (smember name _); [reflexivity|].
    destruct (smember name ["SUM"; "AVG"; "COUNT"; "MAX"; "MIN"]) eqn:M.
    - exfalso. unfold smember in M. apply existsb_exists in M. destruct M as (x & I & X). apply String.eqb_eq in X. subst x.
      repeat (destruct I as [<-|I]; [destruct k; try discriminate E; now apply N|]). destruct I.
    - destruct (smember name (map exe_name [ADD; SUB; MUL; DIV; MODOP])); [reflexivity|].
      destruct (smember name (map exe_name [CURRENT_TIMESTAMP; NOW])); [reflexivity|].
      destruct (smember name (map exe_name [UPPER; LOWER; TRIM])); reflexivity.
  Qed.

  Lemma unknown_columns base items n : In (Plain n) items -> (forall c, lookup_column (s_columns base) n <> Ok c) ->
    exists e, selector_columns base (map item_selector items) = Err e.
  Proof.
    intros I N.
    assert (L : forall cs m, (exists c, lookup_column cs m = Ok c) \/ lookup_column cs m = Err ErrNotFound).
    { induction cs as [|c cs IH]; intros m; cbn; [now right|]. destruct (equal_fold (c_name c) m); eauto. }
    induction items as [|i items IH]; [destruct I|]. cbn [map selector_columns].
    destruct I as [->|I].
    - unfold selector_column. cbn [item_selector plain sel_function new_column c_fn sel_name c_name].
      destruct (L (s_columns base) n) as [(c & E)|E]; [now apply N in E|]. rewrite E. cbn. eauto.
    - destruct (IH I) as (e & E). rewrite E. destruct (selector_column base (item_selector i)) as [c|e'|] eqn:Ei; cbn; eauto.
      exfalso. unfold selector_column in Ei. destruct i as [m|k a]; cbn [item_selector] in Ei.
      + cbn [plain sel_function new_column c_fn sel_name c_name] in Ei.
        destruct (L (s_columns base) m) as [(c & Em)|Em]; rewrite Em in Ei; discriminate.
      + destruct (call_name k a) as (Ef & _ & _ & T). rewrite Ef in Ei. unfold data_type_for_function in Ei. rewrite T in Ei. discriminate.
  Qed.

  Lemma unknown_column execute base items l group db (row : R -> result (object V)) fuel src yss n :
    written group items l -> aggs items <> [] -> ungrouped group -> unread src -> length (rows_in src) < fuel ->
    In (Plain n) items -> (forall c, lookup_column (s_columns base) n <> Ok c) ->
    all_ok (map (fun r => all_ok (map (fun q => number_in to_float (snd q) (row r)) (aggs items))) (rows_in src)) = Ok yss ->
    exists s rows,
      snd (run base l group (Some db) row fuel src) = Some (Ok (NewSet s rows)) /\ headings s = [] /\ seen execute s rows = Some [Ok []].
  Proof.
    intros W NE U UR F I N A.
    pose proof (aggregated_objects to_float to_str compare num iter mem sort base items l group db row fuel src W NE U UR F) as O.
    rewrite A in O. cbv zeta in O. eexists. eexists. split; [exact O|]. clear O.
    destruct (unknown_columns base items n I N) as (e & E).
    unfold new_rschema. cbn [fold_left apply_sopt blank_rschema fst rss_database rss_table rss_columns rss_base].
    rewrite E. cbn [fst]. split; reflexivity.
  Qed.

  Lemma scalar_beside base k arg f group db (row : R -> result (object V)) fuel src :
    (forall k', has_prefix (kind_name k') (to_upper (f_name f)) = false) ->
    snd (run base [fresh (call k arg); fresh (SelFn f)] group (Some db) row fuel src) = Some (Err ErrNotSupported).
  Proof.
    intros NE. assert (E : new_aggregator_kind (f_name f) = Err ErrNotSupported) by now apply no_kind.
    unfold aggregated_result_set.
    replace (has_aggregator (map rl_sel [fresh (call k arg); fresh (SelFn f)])) with true by (destruct k; reflexivity).
    cbn [negb sel_aggregators]. unfold sel_aggregator at 1. cbn [fresh rl_sel rl_aggr].
    destruct (call_name k arg) as (Ef & Nm & Ar & _). rewrite Ef, Nm, kind_not_registered. cbn [rbind]. rewrite Ar, fresh_aggr.
    unfold sel_aggregator. cbn [fresh rl_sel rl_aggr sel_function]. rewrite E. reflexivity.
  Qed.
End Agg.

(** ** schemas *)
Lemma lookup_cases cs m :
  (exists c, In c cs /\ equal_fold (c_name c) m = true /\ lookup_column cs m = Ok c) \/
  (lookup_column cs m = Err ErrNotFound /\ forall c, In c cs -> equal_fold (c_name c) m = false).
Proof.
  induction cs as [|c cs IH]; cbn; [right; split; [reflexivity|now intros ? []]|].
  destruct (equal_fold (c_name c) m) eqn:E; [left; exists c; auto|].
  destruct IH as [(c' & I & F & L)|(L & N)]; [left; eauto|right]. split; auto. intros c' [<-|I]; auto.
Qed.

Lemma schema_of_selectors (V : Type) (value_type : V -> result dtype) db base (l : list selector) :
    match new_rschema_from value_type [SoDatabase db; SoBase base; SoSelectors l] with
    | Ok s => rss_database s = db /\ rss_table s = t_name (s_table base) /\
        Forall2 (fun sel c =>
          match sel_function sel with
          | None => exists tc, In tc (s_columns base) /\ equal_fold (c_name tc) (sel_name sel) = true /\
              sc_name c = c_name tc /\ sc_fn c = c_fn tc /\
              (forall d, c_def tc = Some d -> sc_type c = d_type d /\ sc_const c = d_consts d)
          | Some f => sc_name c = sel_string sel /\ sc_type c = FloatType /\ sc_fn c = Some f
          end) l (rss_columns s)
    | Err e => exists sel, In sel l /\
        match sel_function sel with
        | None => e = ErrNotFound /\ forall tc, In tc (s_columns base) -> equal_fold (c_name tc) (sel_name sel) = false
        | Some f => e = ErrInvalid /\ ~ In (f_type f) [MathFunction; AggregateFunction; CastFunction; ArithOperator]
        end
    | Panic => False
    end.
Proof.
  unfold new_rschema_from. cbn [rschema_from_opts apply_sopt rbind blank_rschema rss_base rss_database rss_table rss_columns].
  assert (G : match selector_columns base l with
    | Ok cs => Forall2 (fun sel c =>
          match sel_function sel with
          | None => exists tc, In tc (s_columns base) /\ equal_fold (c_name tc) (sel_name sel) = true /\
              sc_name c = c_name tc /\ sc_fn c = c_fn tc /\
              (forall d, c_def tc = Some d -> sc_type c = d_type d /\ sc_const c = d_consts d)
          | Some f => sc_name c = sel_string sel /\ sc_type c = FloatType /\ sc_fn c = Some f
          end) l cs
    | Err e => exists sel, In sel l /\
        match sel_function sel with
        | None => e = ErrNotFound /\ forall tc, In tc (s_columns base) -> equal_fold (c_name tc) (sel_name sel) = false
        | Some f => e = ErrInvalid /\ ~ In (f_type f) [MathFunction; AggregateFunction; CastFunction; ArithOperator]
        end
    | Panic => False
    end).
  { induction l as [|s l IH]; cbn [selector_columns]; [constructor|].
    unfold selector_column. destruct (sel_function s) as [f|] eqn:Ef.
    - unfold data_type_for_function. destruct (f_type f) eqn:T; cbn [rbind];
        try (exists s; rewrite Ef; split; [now left|]; split; [reflexivity|]; rewrite T; cbn; intuition discriminate);
        (destruct (selector_columns base l) as [cs|e|]; cbn [rbind]; [constructor; auto; rewrite Ef; auto|destruct IH as (x & I & X); exists x; split; [now right|exact X]|exact IH]).
    - destruct (lookup_cases (s_columns base) (sel_name s)) as [(c & I & F & L)|(L & N)]; rewrite L; cbn [rbind].
      + destruct (selector_columns base l) as [cs|e|]; cbn [rbind].
        * constructor; auto. rewrite Ef. exists c. repeat split; auto; unfold scol_of_column; cbn; now rewrite H.
        * destruct IH as (x & Ix & X). exists x. split; [now right|exact X].
        * exact IH.
      + exists s. rewrite Ef. split; [now left|]. auto. }
  destruct (selector_columns base l) as [cs|e|]; cbn [rbind]; auto.
Qed.

Lemma hidden_error (V : Type) (value_type : V -> result dtype) base (l : list selector) :
    rss_columns (new_rschema value_type [SoSelectors l; SoBase base]) = [] /\
    new_rschema_from value_type [SoSelectors l; SoBase base] = Err ErrOther /\
    (forall e, new_rschema_from value_type [SoBase base; SoSelectors l] = Err e ->
       rss_columns (new_rschema value_type [SoBase base; SoSelectors l]) = []).
Proof.
  split; [reflexivity|]. split; [reflexivity|]. intros e.
  unfold new_rschema_from, new_rschema. cbn [rschema_from_opts fold_left apply_sopt rbind blank_rschema fst rss_base rss_database rss_table rss_columns].
  destruct (selector_columns base l); cbn; auto; discriminate.
Qed.

Lemma schema_of_object (V : Type) (value_type : V -> result dtype) (obj entries : object V) :
    Permutation entries obj -> (forall v, value_type v <> Panic) ->
    match new_rschema_from value_type [SoObject entries] with
    | Ok s => exists cols, Permutation cols (rss_columns s) /\
        Forall2 (fun kv c => sc_name c = fst kv /\ exists v, snd kv = Some v /\ value_type v = Ok (sc_type c)) obj cols
    | Err _ => exists k v, In (k, v) obj /\ (v = None \/ exists x e, v = Some x /\ value_type x = Err e)
    | Panic => False
    end.
Proof.
  intros P NP. unfold new_rschema_from. cbn [rschema_from_opts apply_sopt].
  assert (G : match object_columns value_type entries with
    | Ok cs => Forall2 (fun kv c => sc_name c = fst kv /\ exists v, snd kv = Some v /\ value_type v = Ok (sc_type c)) entries cs
    | Err _ => exists k v, In (k, v) entries /\ (v = None \/ exists x e, v = Some x /\ value_type x = Err e)
    | Panic => False
    end).
  { clear P. induction entries as [|[k [v|]] es IH]; cbn [object_columns]; [constructor| |].
    - destruct (value_type v) as [t|e|] eqn:T; cbn [rbind].
      + destruct (object_columns value_type es) as [cs|e|]; cbn [rbind].
        * constructor; auto. cbn. eauto.
        * destruct IH as (k' & v' & I & X). exists k', v'. split; [now right|auto].
        * exact IH.
      + exists k, (Some v). split; [now left|]. right. eauto.
      + now apply NP in T.
    - exists k, None. split; [now left|]. now left. }
  destruct (object_columns value_type entries) as [cs|e|]; cbn [rbind rss_columns]; auto.
  - destruct (Permutation_Forall2 P G) as (cs' & P' & F). exists cs'. split; [now symmetry|exact F].
  - destruct G as (k & v & I & X). exists k, v. split; auto. eapply Permutation_in; eauto.
Qed.

Lemma Forall2_len {A B} {P : A -> B -> Prop} {l l'} : Forall2 P l l' -> length l = length l'.
Proof. induction 1; cbn; congruence. Qed.

Lemma put_members_back l ms : length ms = length (members_of l) -> members_of (put_members l ms) = ms.
Proof.
  revert ms. induction l as [|[s a] l IH]; intros ms L; cbn in *; [destruct ms; auto; discriminate|].
  destruct (sel_function s) as [f|] eqn:Ef; [destruct a as [a|]|]; cbn in *.
  - destruct ms as [|m ms]; [discriminate|]. cbn. rewrite Ef. f_equal. apply IH. cbn in L. lia.
  - rewrite Ef. apply IH. auto.
  - rewrite Ef. apply IH. auto.
Qed.

Lemma statement_aggregators items l group : written (Some group) items l ->
    exists l' ms, select_aggregators l group = (l', Ok ms) /\ members_of l' = ms /\
      Forall2 (fun q a =>
        a_kind a = fst q /\ a_args a = [snd q] /\ a_groups a = (if String.eqb group "" then [] else [group]) /\
        a_counts a = 0 /\ a_gaggrs a = [] /\ a_gcounts a = [] /\
        Forall (fun x => x = reset_value (fst q)) (a_aggrs a)) (aggs items) ms.
Proof.
  intros W. destruct (written_aggregators _ _ _ W) as (l1 & SA & _ & M). unfold select_aggregators. rewrite SA.
  assert (G : exists ms, set_reset (members_of l1) (group_opts (Some group)) = (ms, Ok tt) /\ Forall2 (fun q a =>
        a_kind a = fst q /\ a_args a = [snd q] /\ a_groups a = (if String.eqb group "" then [] else [group]) /\
        a_counts a = 0 /\ a_gaggrs a = [] /\ a_gcounts a = [] /\
        Forall (fun x => x = reset_value (fst q)) (a_aggrs a)) (aggs items) ms).
  { induction M as [|q a qs ms (K & A & _) _ IH]; [exists []; split; [reflexivity|constructor]|].
    destruct IH as (ms' & E & F). cbn [set_reset group_opts] in *.
    unfold reset at 1. cbn [apply_opts apply_opt]. unfold set_groups. unfold columns_of at 1.
    cbn [a_groups a_args a_kind]. rewrite A. cbn [map]. rewrite app_length. cbn [length]. rewrite Nat.add_1_r. cbn [Nat.eqb].
    rewrite E. eexists. split; [reflexivity|]. constructor; auto. cbn [a_kind a_args a_groups a_counts a_gaggrs a_gcounts a_aggrs].
    split; auto. split; auto. split; [cbn; destruct (String.eqb group ""); reflexivity|]. repeat split.
    rewrite <- K. apply Forall_forall. intros x I. now apply repeat_spec in I. }
  destruct G as (ms & E & F). rewrite E. cbn [rbind]. exists (put_members l1 ms), ms. split; auto. split; auto.
  apply put_members_back. pose proof (Forall2_len F) as X. pose proof (Forall2_len M) as Y. congruence.
Qed.
