(** The parser of ModelEbnf.v finds a derivation exactly when there is one, and its bound on the depth is
    enough for the grammar of the repository. *)
From Coq Require Import Lia.
From Verif Require Import GoBase ModelEbnf ModelGrammar SpecParse.

Section Correct.
  Context (rule : string -> nat -> gram).
  Notation run := (run rule).
  Notation derives := (derives rule).

  Lemma run_S n g ts k : run (S n) g ts k =
    match g with
    | Eps => k [] ts
    | Fail => NotFound
    | Tok kind => match ts with
                  | t :: r => if String.eqb (tk t) kind then k [(""%string, Leaf t)] r else NotFound
                  | [] => NotFound
                  end
    | Rule name p => run n (rule name p) ts (fun cs r => k [(""%string, Node name cs)] r)
    | Seq a b => run (S n) a ts (fun ca r => run (S n) b r (fun cb r' => k (ca ++ cb) r'))
    | Alt a b => match run (S n) a ts k with NotFound => run (S n) b ts k | o => o end
    | Star a => match run (S n) a ts (fun ca r => run n (Star a) r (fun cb r' => k (ca ++ cb) r')) with
                | NotFound => k [] ts | o => o end
    | StarNG a => match k [] ts with
                  | NotFound => run (S n) a ts (fun ca r => run n (StarNG a) r (fun cb r' => k (ca ++ cb) r'))
                  | o => o end
    | Lab l a => run (S n) a ts (fun cs r => k (set_label l cs) r)
    | LeftRec name a b =>
        run (S n) a ts (fun ca r => run n (Star (Wrap b)) r (fun rounds r' => k (nest name ca rounds) r'))
    | Wrap a => run (S n) a ts (fun cs r => k [(""%string, Node "" cs)] r)
    end.
  Proof. destruct g; reflexivity. Qed.

  (** What is found is a derivation of a prefix, followed by success of the continuation. *)
  Lemma run_sound : forall n g ts k r, run n g ts k = Found r ->
    exists w cs rest, ts = w ++ rest /\ derives g w cs /\ k cs rest = Found r.
  Proof.
    induction n as [|n IHn]; [discriminate|].
    induction g as [| |kind|name p|a IHa b IHb|a IHa b IHb|a IHa|a IHa|l a IHa|name a IHa b IHb|a IHa];
      intros ts k r H; rewrite run_S in H.
    - exists [], [], ts. split; [reflexivity|]. split; [constructor|exact H].
    - discriminate.
    - destruct ts as [|t ts]; [discriminate|]. destruct (String.eqb (tk t) kind) eqn:E; [|discriminate].
      apply String.eqb_eq in E. subst kind. exists [t], [(""%string, Leaf t)], ts.
      split; [reflexivity|]. split; [constructor|exact H].
    - apply IHn in H. destruct H as (w & cs & rest & -> & D & K).
      exists w, [(""%string, Node name cs)], rest. split; [reflexivity|]. split; [constructor; exact D|exact K].
    - apply IHa in H. destruct H as (u & ca & r1 & -> & Da & H).
      apply IHb in H. destruct H as (v & cb & r2 & -> & Db & K).
      exists (u ++ v), (ca ++ cb), r2. rewrite app_assoc. split; [reflexivity|]. split; [constructor; assumption|exact K].
    - destruct (run (S n) a ts k) eqn:E; try discriminate.
      + injection H as ->. apply IHa in E. destruct E as (w & cs & rest & -> & D & K).
        exists w, cs, rest. split; [reflexivity|]. split; [apply d_left; exact D|exact K].
      + apply IHb in H. destruct H as (w & cs & rest & -> & D & K).
        exists w, cs, rest. split; [reflexivity|]. split; [apply d_right; exact D|exact K].
    - destruct (run (S n) a ts _) eqn:E; try discriminate.
      + injection H as ->. apply IHa in E. destruct E as (u & ca & r1 & -> & Da & H).
        apply IHn in H. destruct H as (v & cb & r2 & -> & Db & K).
        exists (u ++ v), (ca ++ cb), r2. rewrite app_assoc. split; [reflexivity|]. split; [constructor; assumption|exact K].
      + exists [], [], ts. split; [reflexivity|]. split; [constructor|exact H].
    - destruct (k [] ts) eqn:E; try discriminate.
      + injection H as ->. exists [], [], ts. split; [reflexivity|]. split; [constructor|exact E].
      + apply IHa in H. destruct H as (u & ca & r1 & -> & Da & H).
        apply IHn in H. destruct H as (v & cb & r2 & -> & Db & K).
        exists (u ++ v), (ca ++ cb), r2. rewrite app_assoc. split; [reflexivity|]. split; [constructor; assumption|exact K].
    - apply IHa in H. destruct H as (w & cs & rest & -> & D & K).
      exists w, (set_label l cs), rest. split; [reflexivity|]. split; [constructor; exact D|exact K].
    - apply IHa in H. destruct H as (u & ca & r1 & -> & Da & H).
      apply IHn in H. destruct H as (v & rounds & r2 & -> & Db & K).
      exists (u ++ v), (nest name ca rounds), r2. rewrite app_assoc. split; [reflexivity|].
      split; [constructor; assumption|exact K].
    - apply IHa in H. destruct H as (w & cs & rest & -> & D & K).
      exists w, [(""%string, Node "" cs)], rest. split; [reflexivity|]. split; [constructor; exact D|exact K].
  Qed.

  (** When nothing is found, the continuation fails after every derivation. *)
  Lemma run_complete : forall n g ts k, run n g ts k = NotFound ->
    forall w cs rest, ts = w ++ rest -> derives g w cs -> k cs rest = NotFound.
  Proof.
    induction n as [|n IHn]; [discriminate|].
    induction g as [| |kind|name p|a IHa b IHb|a IHa b IHb|a IHa|a IHa|l a IHa|name a IHa b IHb|a IHa];
      intros ts k H w cs rest E D; rewrite run_S in H; inversion D; subst; clear D.
    - exact H.
    - cbn in H. rewrite String.eqb_refl in H. exact H.
    - eapply IHn in H; [|reflexivity|eassumption]. exact H.
    - rewrite <- app_assoc in H. eapply IHa in H; [|reflexivity|eassumption].
      eapply IHb in H; [|reflexivity|eassumption]. exact H.
    - destruct (run (S n) a (w ++ rest) k) eqn:E; try discriminate. eapply IHa in E; [|reflexivity|eassumption]. exact E.
    - destruct (run (S n) a (w ++ rest) k) eqn:E; try discriminate. eapply IHb in H; [|reflexivity|eassumption]. exact H.
    - destruct (run (S n) a ([] ++ rest) _) eqn:E; try discriminate. exact H.
    - destruct (run (S n) a ((u ++ v) ++ rest) _) eqn:E; try discriminate.
      rewrite <- app_assoc in E. eapply IHa in E; [|reflexivity|eassumption].
      eapply IHn in E; [|reflexivity|eassumption]. exact E.
    - destruct (k [] ([] ++ rest)) eqn:E; try discriminate. exact E.
    - destruct (k [] ((u ++ v) ++ rest)) eqn:E; try discriminate.
      rewrite <- app_assoc in H. eapply IHa in H; [|reflexivity|eassumption].
      eapply IHn in H; [|reflexivity|eassumption]. exact H.
    - eapply IHa in H; [|reflexivity|eassumption]. exact H.
    - rewrite <- app_assoc in H. eapply IHa in H; [|reflexivity|eassumption].
      eapply IHn in H; [|reflexivity|eassumption]. exact H.
    - eapply IHa in H; [|reflexivity|eassumption]. exact H.
  Qed.
End Correct.

(** ** The depth of the grammar *)

(** Can a part be read without a token?  No rule of the grammar can, which [grammar_ok] checks. *)
Fixpoint nullable (g : gram) : bool :=
  match g with
  | Eps | Star _ | StarNG _ => true
  | Fail | Tok _ | Rule _ _ => false
  | Seq a b => nullable a && nullable b
  | Alt a b => nullable a || nullable b
  | Lab _ a | Wrap a => nullable a
  | LeftRec _ a _ => nullable a
  end.

Section Depth.
  Context (rank : string -> nat).
  (** how many rules are entered before the first token is read *)
  Fixpoint depth (g : gram) : nat :=
    match g with
    | Eps | Fail | Tok _ => 0
    | Rule name _ => S (rank name)
    | Seq a b => if nullable a then Nat.max (depth a) (depth b) else depth a
    | Alt a b => Nat.max (depth a) (depth b)
    | Star a | StarNG a | Lab _ a | Wrap a => depth a
    | LeftRec _ a _ => depth a
    end.
  (** all parts are shallow, loops read something, references are to the given rules *)
  Fixpoint shallow (refs : list (string * nat)) (g : gram) : bool :=
    (depth g <? 63) &&
    match g with
    | Eps | Fail | Tok _ => true
    | Rule name p => existsb (fun r => String.eqb (fst r) name && (snd r =? p)) refs
    | Seq a b | Alt a b => shallow refs a && shallow refs b
    | Star a | StarNG a => negb (nullable a) && shallow refs a
    | Lab _ a | Wrap a => shallow refs a
    | LeftRec _ a b => negb (nullable a) && shallow refs a && negb (nullable b) && shallow refs b
    end.
End Depth.

Definition the_refs : list (string * nat) :=
  ("expr"%string, 6) :: ("expr"%string, 7) :: ("expr"%string, 14) :: ("expr"%string, 18) :: ("expr"%string, 19)
  :: map (fun r => (fst r, 0)) (rules 0).
Definition next_ranks (ranks : list (string * nat)) : list (string * nat) :=
  map (fun r => (fst r, depth (fun n => match mget String.eqb n ranks with Some d => d | None => 0 end) (snd r))) (rules 0).
Fixpoint iter_ranks (n : nat) (ranks : list (string * nat)) : list (string * nat) :=
  match n with O => ranks | S n' => iter_ranks n' (next_ranks ranks) end.
Definition the_ranks : list (string * nat) := Eval vm_compute in iter_ranks 20 [].
Definition the_rank (n : string) : nat := match mget String.eqb n the_ranks with Some d => d | None => 0 end.
Definition grammar_ok : bool :=
  forallb (fun r => let g := rule (fst r) (snd r) in
                    negb (nullable g) && shallow the_rank the_refs g && (depth the_rank g <=? the_rank (fst r))) the_refs.
Lemma grammar_is_ok : grammar_ok = true.
Proof. vm_compute. reflexivity. Qed.

Section Fuel.
  Context (rule : string -> nat -> gram) (rank : string -> nat) (refs : list (string * nat)).
  Hypothesis refs_ok : forall name p, In (name, p) refs ->
    nullable (rule name p) = false /\ shallow rank refs (rule name p) = true /\ depth rank (rule name p) <= rank name.
  Notation run := (run rule).
  Notation depth := (depth rank).
  Notation shallow := (shallow rank refs).

  Lemma ref_in name p : existsb (fun r => String.eqb (fst r) name && (snd r =? p)) refs = true -> In (name, p) refs.
  Proof.
    intro H. apply existsb_exists in H. destruct H as ((x, q) & I & E). apply andb_prop in E. destruct E as [E F].
    apply String.eqb_eq in E. apply Nat.eqb_eq in F. cbn in E, F. subst. exact I.
  Qed.

  Lemma shallow_depth g : shallow g = true -> depth g < 63.
  Proof. destruct g; cbn [ProofEbnf.shallow]; intro H; apply andb_prop in H; destruct H as [H _]; apply Nat.ltb_lt; exact H. Qed.

  Ltac parts H := cbn [ProofEbnf.shallow] in H; apply andb_prop in H; destruct H as [_ H].

  (** What is found does not depend on the bound, once it is large enough. *)
  Lemma run_ext : forall n g ts k m k', shallow g = true -> 64 * length ts + depth g < n -> 64 * length ts + depth g < m ->
    (forall cs r, length r <= length ts -> (nullable g = false -> length r < length ts) -> k cs r = k' cs r) ->
    run n g ts k = run m g ts k'.
  Proof.
    induction n as [|n IHn]; [lia|].
    induction g as [| |kind|name p|a IHa b IHb|a IHa b IHb|a IHa|a IHa|l a IHa|name a IHa b IHb|a IHa];
      intros ts k m k' S Ln Lm K; (destruct m as [|m]; [lia|]); rewrite (run_S rule n), (run_S rule m).
    - apply K; [lia|discriminate].
    - reflexivity.
    - destruct ts as [|t ts]; [reflexivity|]. destruct (String.eqb (tk t) kind); [|reflexivity].
      apply K; cbn [length]; lia.
    - parts S. apply ref_in in S. destruct (refs_ok _ _ S) as (N & S' & D). cbn [ProofEbnf.depth] in Ln, Lm.
      apply IHn; [exact S'|lia|lia|]. intros cs r L1 L2. apply K; [exact L1|]. intros _. exact (L2 N).
    - pose proof S as S0. parts S. apply andb_prop in S. destruct S as [Sa Sb]. cbn [ProofEbnf.depth nullable] in *.
      pose proof (shallow_depth _ Sb) as Db.
      destruct (nullable a) eqn:Na.
      + apply IHa; [exact Sa|lia|lia|]. intros ca r L1 _.
        apply IHb; [exact Sb|lia|lia|]. intros cb r' L3 L4. apply K; [lia|]. intro E. cbn in E. specialize (L4 E). lia.
      + apply IHa; [exact Sa|lia|lia|]. intros ca r L1 L2. specialize (L2 eq_refl).
        apply IHb; [exact Sb|lia|lia|]. intros cb r' L3 _. apply K; lia.
    - parts S. apply andb_prop in S. destruct S as [Sa Sb]. cbn [ProofEbnf.depth nullable] in *.
      assert (Ea : run (Datatypes.S n) a ts k = run (Datatypes.S m) a ts k').
      { apply IHa; [exact Sa|lia|lia|]. intros cs r L1 L2. apply K; [exact L1|]. intro E.
        apply orb_false_iff in E. apply L2. apply E. }
      rewrite Ea. destruct (run (Datatypes.S m) a ts k'); try reflexivity.
      apply IHb; [exact Sb|lia|lia|]. intros cs r L1 L2. apply K; [exact L1|]. intro E.
      apply orb_false_iff in E. apply L2. apply E.
    - pose proof S as S0. parts S. apply andb_prop in S. destruct S as [Na Sa]. apply negb_true_iff in Na.
      cbn [ProofEbnf.depth] in Ln, Lm.
      assert (Ea : run (Datatypes.S n) a ts (fun ca r => run n (Star a) r (fun cb r' => k (ca ++ cb) r'))
                   = run (Datatypes.S m) a ts (fun ca r => run m (Star a) r (fun cb r' => k' (ca ++ cb) r'))).
      { apply IHa; [exact Sa|lia|lia|]. intros ca r L1 L2. specialize (L2 Na).
        apply IHn; [exact S0|cbn [ProofEbnf.depth]; lia|cbn [ProofEbnf.depth]; lia|].
        intros cb r' L3 _. apply K; [lia|discriminate]. }
      rewrite Ea. destruct (run (Datatypes.S m) a ts _); try reflexivity. apply K; [lia|discriminate].
    - pose proof S as S0. parts S. apply andb_prop in S. destruct S as [Na Sa]. apply negb_true_iff in Na.
      cbn [ProofEbnf.depth] in Ln, Lm.
      rewrite (K [] ts) by (lia || discriminate). destruct (k' [] ts); try reflexivity.
      apply IHa; [exact Sa|lia|lia|]. intros ca r L1 L2. specialize (L2 Na).
      apply IHn; [exact S0|cbn [ProofEbnf.depth]; lia|cbn [ProofEbnf.depth]; lia|].
      intros cb r' L3 _. apply K; [lia|discriminate].
    - parts S. cbn [ProofEbnf.depth nullable] in *. apply IHa; [exact S|lia|lia|]. intros cs r L1 L2. apply K; assumption.
    - parts S. apply andb_prop in S. destruct S as [S Sb]. apply andb_prop in S. destruct S as [S Nb].
      apply andb_prop in S. destruct S as [Na Sa]. apply negb_true_iff in Na. cbn [ProofEbnf.depth nullable] in *.
      pose proof (shallow_depth _ Sb) as Db.
      assert (Sw : shallow (Star (Wrap b)) = true).
      { cbn [ProofEbnf.shallow ProofEbnf.depth nullable]. rewrite Nb, Sb.
        rewrite (proj2 (Nat.ltb_lt _ _) Db). reflexivity. }
      apply IHa; [exact Sa|lia|lia|]. intros ca r L1 L2. specialize (L2 Na).
      apply IHn; [exact Sw|cbn [ProofEbnf.depth]; lia|cbn [ProofEbnf.depth]; lia|].
      intros cb r' L3 _. apply K; lia.
    - parts S. cbn [ProofEbnf.depth nullable] in *. apply IHa; [exact S|lia|lia|]. intros cs r L1 L2. apply K; assumption.
  Qed.

  (** The bound is large enough. *)
  Lemma run_fuel : forall n g ts k, shallow g = true -> 64 * length ts + depth g < n ->
    (forall cs r, length r <= length ts -> (nullable g = false -> length r < length ts) -> k cs r <> OutOfFuel) ->
    run n g ts k <> OutOfFuel.
  Proof.
    induction n as [|n IHn]; [lia|].
    induction g as [| |kind|name p|a IHa b IHb|a IHa b IHb|a IHa|a IHa|l a IHa|name a IHa b IHb|a IHa];
      intros ts k S Ln K; rewrite run_S.
    - apply K; [lia|discriminate].
    - discriminate.
    - destruct ts as [|t ts]; [discriminate|]. destruct (String.eqb (tk t) kind); [|discriminate].
      apply K; cbn [length]; lia.
    - parts S. apply ref_in in S. destruct (refs_ok _ _ S) as (N & S' & D). cbn [ProofEbnf.depth] in Ln.
      apply IHn; [exact S'|lia|]. intros cs r L1 L2. apply K; [exact L1|]. intros _. exact (L2 N).
    - parts S. apply andb_prop in S. destruct S as [Sa Sb]. cbn [ProofEbnf.depth nullable] in *.
      pose proof (shallow_depth _ Sb) as Db.
      destruct (nullable a) eqn:Na.
      + apply IHa; [exact Sa|lia|]. intros ca r L1 _.
        apply IHb; [exact Sb|lia|]. intros cb r' L3 L4. apply K; [lia|]. intro E. cbn in E. specialize (L4 E). lia.
      + apply IHa; [exact Sa|lia|]. intros ca r L1 L2. specialize (L2 eq_refl).
        apply IHb; [exact Sb|lia|]. intros cb r' L3 _. apply K; lia.
    - parts S. apply andb_prop in S. destruct S as [Sa Sb]. cbn [ProofEbnf.depth nullable] in *.
      assert (Ea : run (Datatypes.S n) a ts k <> OutOfFuel).
      { apply IHa; [exact Sa|lia|]. intros cs r L1 L2. apply K; [exact L1|]. intro E.
        apply orb_false_iff in E. apply L2. apply E. }
      destruct (run (Datatypes.S n) a ts k); [exact Ea| |congruence].
      apply IHb; [exact Sb|lia|]. intros cs r L1 L2. apply K; [exact L1|]. intro E.
      apply orb_false_iff in E. apply L2. apply E.
    - pose proof S as S0. parts S. apply andb_prop in S. destruct S as [Na Sa]. apply negb_true_iff in Na.
      cbn [ProofEbnf.depth] in Ln.
      assert (Ea : run (Datatypes.S n) a ts (fun ca r => run n (Star a) r (fun cb r' => k (ca ++ cb) r')) <> OutOfFuel).
      { apply IHa; [exact Sa|lia|]. intros ca r L1 L2. specialize (L2 Na).
        apply IHn; [exact S0|cbn [ProofEbnf.depth]; lia|].
        intros cb r' L3 _. apply K; [lia|discriminate]. }
      destruct (run (Datatypes.S n) a ts _); [exact Ea| |congruence]. apply K; [lia|discriminate].
    - pose proof S as S0. parts S. apply andb_prop in S. destruct S as [Na Sa]. apply negb_true_iff in Na.
      cbn [ProofEbnf.depth] in Ln.
      pose proof (K [] ts (le_n _) ltac:(discriminate)) as K0. destruct (k [] ts); [exact K0| |congruence].
      apply IHa; [exact Sa|lia|]. intros ca r L1 L2. specialize (L2 Na).
      apply IHn; [exact S0|cbn [ProofEbnf.depth]; lia|].
      intros cb r' L3 _. apply K; [lia|discriminate].
    - parts S. cbn [ProofEbnf.depth nullable] in *. apply IHa; [exact S|lia|]. intros cs r L1 L2. apply K; assumption.
    - parts S. apply andb_prop in S. destruct S as [S Sb]. apply andb_prop in S. destruct S as [S Nb].
      apply andb_prop in S. destruct S as [Na Sa]. apply negb_true_iff in Na. cbn [ProofEbnf.depth nullable] in *.
      pose proof (shallow_depth _ Sb) as Db.
      assert (Sw : shallow (Star (Wrap b)) = true).
      { cbn [ProofEbnf.shallow ProofEbnf.depth nullable]. rewrite Nb, Sb.
        rewrite (proj2 (Nat.ltb_lt _ _) Db). reflexivity. }
      apply IHa; [exact Sa|lia|]. intros ca r L1 L2. specialize (L2 Na).
      apply IHn; [exact Sw|cbn [ProofEbnf.depth]; lia|].
      intros cb r' L3 _. apply K; lia.
    - parts S. cbn [ProofEbnf.depth nullable] in *. apply IHa; [exact S|lia|]. intros cs r L1 L2. apply K; assumption.
  Qed.
End Fuel.
