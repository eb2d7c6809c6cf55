(** Proofs about building and scanning result sets. *)
From Verif Require Import GoBase ModelResultSet ModelFn ModelQuery ModelAggregate ModelOptions SpecResultSet SpecAggregate SpecOptions
  FactsBase ProofResultSet.

Section Build.
  Context {V : Type}.
  Implicit Types (opts : list (rsopt V)) (b : rbuilt V).

  Definition objects_of b := map (fun r => snd (row_get_object r)) (rb_rows b).

  Lemma apply_fields b o :
    let b' := fst (apply_rsopt b o) in
    rb_schema b' = match given_schema o with Some y => y | None => rb_schema b end /\
    rb_affected b' = match given_affected o with Some y => y | None => rb_affected b end /\
    rb_offset b' = match given_offset o with Some y => y | None => rb_offset b end /\
    rb_limit b' = match given_limit o with Some y => y | None => rb_limit b end /\
    rb_group b' = match given_group o with Some y => y | None => rb_group b end /\
    objects_of b' = match given_rows o with Some y => y | None => objects_of b end.
  Proof.
    destruct o as [n|s|l|n|n|g|[l|l|]]; cbn; repeat split.
    unfold objects_of, set_rows. cbn. rewrite map_map. cbn. now rewrite map_id.
  Qed.

  Lemma fold_fields opts : forall b,
    let b' := fold_left (fun b o => fst (apply_rsopt b o)) opts b in
    rb_schema b' = last_given given_schema opts (rb_schema b) /\
    rb_affected b' = last_given given_affected opts (rb_affected b) /\
    rb_offset b' = last_given given_offset opts (rb_offset b) /\
    rb_limit b' = last_given given_limit opts (rb_limit b) /\
    rb_group b' = last_given given_group opts (rb_group b) /\
    objects_of b' = last_given given_rows opts (objects_of b).
  Proof.
    induction opts as [|o opts IH]; intros b; [repeat split|].
    cbn [fold_left]. cbv zeta. destruct (IH (fst (apply_rsopt b o))) as (E1 & E2 & E3 & E4 & E5 & E6).
    destruct (apply_fields b o) as (F1 & F2 & F3 & F4 & F5 & F6).
    rewrite E1, E2, E3, E4, E5, E6, F1, F2, F3, F4, F5, F6. unfold last_given. cbn [fold_left]. repeat split.
  Qed.

  Lemma from_opts opts : forall b,
    (In (RsRowsOf RoOther) opts -> result_set_from_opts b opts = Err ErrOther) /\
    (~ In (RsRowsOf RoOther) opts -> result_set_from_opts b opts = Ok (fold_left (fun b o => fst (apply_rsopt b o)) opts b)).
  Proof.
    induction opts as [|o opts IH]; intros b; [split; [intros []|reflexivity]|].
    destruct (IH (fst (apply_rsopt b o))) as (I1 & I2). cbn [result_set_from_opts fold_left].
    assert (D : o = RsRowsOf RoOther \/ snd (apply_rsopt b o) = Ok tt) by (destruct o as [n|s|l|n|n|g|[l|l|]]; cbn; auto).
    destruct D as [->|D]; [split; [reflexivity|intros N; destruct N; now left]|].
    destruct (apply_rsopt b o) as [b' e] eqn:E. cbn [fst snd] in *. subst e. cbn [rbind]. split.
    - intros [->|I]; [discriminate E|auto].
    - intros N. apply I2. intros I. apply N. now right.
  Qed.

  Lemma built opts :
    match new_result_set_from opts with
    | Ok b =>
        ~ In (RsRowsOf RoOther) opts /\ new_result_set opts = b /\
        rb_schema b = last_given given_schema opts None /\
        rb_affected b = last_given given_affected opts 0%N /\
        rb_offset b = last_given given_offset opts 0%N /\
        rb_limit b = last_given given_limit opts 0%N /\
        rb_group b = last_given given_group opts "" /\
        map (fun r => snd (row_get_object r)) (rb_rows b) = last_given given_rows opts []
    | Err _ => In (RsRowsOf RoOther) opts
    | Panic => False
    end.
  Proof.
    unfold new_result_set_from. destruct (from_opts opts blank_rset) as (A & B).
    assert (D : In (RsRowsOf RoOther) opts \/ ~ In (RsRowsOf RoOther) opts).
    { clear. induction opts as [|o opts IH]; [now right|].
      destruct IH as [I|N]; [left; now right|].
      destruct o as [n|s|l|n|n|g|[l|l|]]; try (right; intros [E|I]; [discriminate|auto]). left. now left. }
    destruct D as [D|D]; [now rewrite (A D)|]. rewrite (B D). split; auto. split; [reflexivity|]. apply fold_fields.
  Qed.

  Context (execute : exe -> list string -> object V -> result (option V)).

  Lemma project_all (cols : list (rcolumn V)) o : NoDup (map rc_name cols) ->
    rbind (new_row_from_object cols o) (fun r => Ok (snd (row_get_values r))) =
    all_ok (map (fun c => column_value c o) cols).
  Proof.
    intros ND. pose proof (projection cols o ND) as P. destruct (all_ok _) as [vs|e|]; [|now rewrite P|now rewrite P].
    destruct P as (r & lk & E & _ & R). rewrite E. cbn [rbind]. specialize (R [RValues]). cbn [row_run map] in R.
    unfold row_step in R. destruct (row_get_values r) as [r' x]. cbn in R. cbn. congruence.
  Qed.

  Lemma map_window {A B} (f : A -> B) rows o l : map f (window rows o l) = window (map f rows) o l.
  Proof.
    unfold window. rewrite skipn_map. destruct (l =? 0)%N; auto. now rewrite firstn_map.
  Qed.

  Lemma loop_window {R} (rows : list R) off lim fuel :
    (off + lim < 2 ^ 64)%N -> (off + N.of_nat (length (window rows off lim)) + 1 < 2 ^ 64)%N ->
    length (window rows off lim) < fuel ->
    rs_loop fuel (new_rset rows off lim) = Some (map Ok (window rows off lim)).
  Proof. intros. apply (loop_spec rows off lim 0 fuel); auto; lia. Qed.

  Lemma read_back opts s fuel :
    let rows := window (last_given given_rows opts []) (last_given given_offset opts 0%N) (last_given given_limit opts 0%N) in
    ~ In (RsRowsOf RoOther) opts ->
    last_given given_schema opts None = Some s -> NoDup (headings s) ->
    (last_given given_offset opts 0 + last_given given_limit opts 0 < 2 ^ 64)%N ->
    (last_given given_offset opts 0 + N.of_nat (length rows) + 1 < 2 ^ 64)%N ->
    length rows < fuel ->
    exists b, new_result_set_from opts = Ok b /\
      read_rows execute b fuel =
        Some (map (fun o => all_ok (map (fun c => column_value (rcolumn_of execute c) o) (rss_columns s))) rows).
  Proof.
    cbv zeta. intros NO S ND B1 B2 F.
    pose proof (built opts) as B. destruct (new_result_set_from opts) as [b|e|]; [|now destruct (NO B)|destruct B].
    destruct B as (_ & _ & E1 & _ & E3 & E4 & _ & E6). exists b. split; auto.
    rewrite <- E3, <- E4, <- E6, <- map_window in *. rewrite map_length in *.
    unfold read_rows. rewrite loop_window; auto.
    cbn [option_map]. f_equal. rewrite !map_map.
    apply map_ext. intros x. cbn [rbind]. unfold built_row. rewrite E1, S. unfold schema_row.
    rewrite project_all; [now rewrite map_map|]. rewrite map_map. exact ND.
  Qed.

  Lemma unread_without_schema opts b r rest :
    new_result_set_from opts = Ok b -> last_given given_schema opts None = None ->
    (last_given given_offset opts 0 + last_given given_limit opts 0 < 2 ^ 64)%N ->
    window (last_given given_rows opts []) (last_given given_offset opts 0%N) (last_given given_limit opts 0%N) = r :: rest ->
    (last_given given_offset opts 0 + N.of_nat (length (r :: rest)) + 1 < 2 ^ 64)%N ->
    exists l, read_rows execute b (S (length (r :: rest))) = Some (Panic :: l).
  Proof.
    intros E S B1 W B2.
    pose proof (built opts) as B. rewrite E in B. destruct B as (_ & _ & E1 & _ & E3 & E4 & _ & E6).
    rewrite <- E3, <- E4, <- E6, <- map_window in *.
    assert (L : length (window (rb_rows b) (rb_offset b) (rb_limit b)) = length (r :: rest)) by (rewrite <- W, map_length; reflexivity).
    unfold read_rows. rewrite loop_window; try lia.
    cbn [option_map]. destruct (window (rb_rows b) (rb_offset b) (rb_limit b)) as [|x xs]; [discriminate W|].
    cbn [map rbind]. unfold built_row. rewrite E1, S. cbn. eauto.
  Qed.
End Build.

Lemma scan_prefix {A T} (to : option A -> T -> result T) (r : row A) (tos : list T) values :
  row_run r [RValues] = [ROValues values] ->
  exists n done_,
    fst (scan to r tos) = done_ ++ skipn n tos /\ n <= length tos /\ n <= length values /\
    Forall2 (fun vt t' => to (fst vt) (snd vt) = Ok t') (combine (firstn n values) (firstn n tos)) done_ /\
    match snd (scan to r tos) with
    | Ok _ => n = length tos
    | Err ErrNotExist =>
        nth_error tos n <> None /\ (n = length values \/
          exists v t, nth_error values n = Some v /\ nth_error tos n = Some t /\ to v t = Err ErrNotExist)
    | Err e => exists v t, nth_error values n = Some v /\ nth_error tos n = Some t /\ to v t = Err e
    | Panic => exists v t, nth_error values n = Some v /\ nth_error tos n = Some t /\ to v t = Panic
    end.
Proof.
  intros R. assert (E : snd (row_get_values r) = values).
  { cbn [row_run] in R. unfold row_step in R. destruct (row_get_values r). cbn in *. congruence. }
  unfold scan. rewrite E. clear R E r. revert tos. induction values as [|v vs IH]; intros [|t tos].
  - exists 0, []. cbn. repeat split; auto.
  - exists 0, []. cbn. repeat split; auto; try lia. discriminate.
  - exists 0, []. cbn. repeat split; auto; lia.
  - cbn [scan_values]. destruct (to v t) as [t'|e|] eqn:E.
    + destruct (IH tos) as (n & d & I1 & I2 & I3 & I4 & I5). exists (S n), (t' :: d).
      destruct (scan_values to vs tos) as [rs e]. cbn [fst snd] in *. cbn [skipn app length firstn combine nth_error].
      split; [now rewrite I1|]. split; [lia|]. split; [lia|]. split; [constructor; auto|].
      destruct e as [u|e|]; auto. destruct e; auto. destruct I5 as (X & [Y|Y]); split; auto; left; lia.
    + exists 0, []. cbn [fst snd]. cbn [skipn app length firstn combine nth_error]. repeat split; try lia; [constructor|].
      destruct e; try (exists v, t; auto). split; [discriminate|]. right. exists v, t. auto.
    + exists 0, []. cbn [fst snd]. cbn [skipn app length firstn combine nth_error]. repeat split; try lia; [constructor|].
      exists v, t. auto.
Qed.

Lemma scan_one {A T} (to : option A -> T -> result T) (r : row A) i name t :
  (forall x, row_run r [RValueAt i] = [RORes x] -> scan_at to r i t = rbind x (fun v => to v t)) /\
  (forall x, row_run r [RValueBy name] = [RORes x] -> scan_by to r name t = rbind x (fun v => to v t)).
Proof.
  split; intros x R; cbn [row_run] in R; unfold row_step in R.
  - unfold scan_at. destruct (row_value_at r i) as [r' y]. cbn in *. congruence.
  - unfold scan_by. destruct (row_value_by r name) as [r' y]. cbn in *. congruence.
Qed.
