(** Texts the parser refuses: all ways to read them are followed until they fail or come to a known place. *)
From Verif Require Import GoBase ModelEbnf ModelGrammar ModelLex ProofEbnf ProofMachine ProofParse ProofLex ProofRound.

Definition state : Type := mode * list token * list frame.
Definition both_ways (a b : option (list state)) : option (list state) :=
  match a, b with Some x, Some y => Some (x ++ y) | _, _ => None end.
(** the states with the wanted place that reading the tokens l leads to *)
Fixpoint fronts (bot : option (list string)) (stop : mode -> list token -> list frame -> bool) (d n : nat) (m : mode) (l : list token) (s : list frame)
  : option (list state) :=
  if stop m l s then Some [(m, l, s)]
  else match n with
       | O => None
       | S n' =>
           match dstep bot d m l s with
           | Some (m', l', s') => fronts bot stop d n' m' l' s'
           | None =>
               match m with
               | MEval (Tok _) => match l with [] => None | _ => Some [] end
               | MEval (Alt a b) => both_ways (fronts bot stop d n' (MEval a) l s) (fronts bot stop d n' (MEval b) l s)
               | MEval (Star a) => both_ways (fronts bot stop d n' (MEval a) l (FSeq (Star a) :: s)) (fronts bot stop d n' (MRet []) l s)
               | MEval (StarNG a) => both_ways (fronts bot stop d n' (MRet []) l s) (fronts bot stop d n' (MEval a) l (FSeq (StarNG a) :: s))
               | MEval Fail => Some []
               | _ => None
               end
           end
       end.

Definition fails (k : children -> list token -> outcome) (rest : list token) (q : state) : Prop :=
  match q with (m, l, s) => denm k m (l ++ rest) s = NotFound end.
Lemma both_some' a b x : both_ways a b = Some x -> exists y z, a = Some y /\ b = Some z /\ x = y ++ z.
Proof. destruct a, b; try discriminate. intro H. injection H as <-. eauto. Qed.
Lemma fronts_sound bot k stop d : law bot k -> forall n m l s qs, fronts bot stop d n m l s = Some qs -> ok m s = true ->
  forall rest, Forall (fails k rest) qs -> denm k m (l ++ rest) s = NotFound.
Proof.
  intro L. induction n as [|n IH]; intros m l s qs H O rest F; cbn [fronts] in H; destruct (stop m l s).
  - injection H as <-. inversion F; assumption.
  - discriminate.
  - injection H as <-. inversion F; assumption.
  - destruct (dstep bot d m l s) as [((m1, l1), s1)|] eqn:E.
    { destruct (dstep_sound k bot L _ _ _ _ _ _ _ E O) as [O1 D]. rewrite <- D. exact (IH _ _ _ _ H O1 rest F). }
    destruct m as [g|cs]; [|discriminate]. pose proof (ok_g _ _ O) as G. pose proof (ok_s _ _ [] O) as O0. cbn [denm].
    destruct g as [| |kind|name p|a b|a b|a|a|lb a|name a b|a]; try discriminate.
    + apply R_fail.
    + destruct l as [|t l]; [discriminate|]. cbn [dstep] in E. rewrite R_tok. cbn [app]. destruct (String.eqb (tk t) kind); [discriminate|reflexivity].
    + destruct (okg_alt _ _ G) as [Ga Gb]. apply both_some' in H. destruct H as (y & z & Hy & Hz & ->). apply Forall_app in F. destruct F as [Fy Fz].
      pose proof (IH _ _ _ _ Hy (ok_sub _ _ _ O Ga) rest Fy) as Na. pose proof (IH _ _ _ _ Hz (ok_sub _ _ _ O Gb) rest Fz) as Nb. cbn [denm] in Na, Nb.
      rewrite R_alt, Na by exact G. exact Nb.
    + destruct (okg_star _ G) as [Ga _]. apply both_some' in H. destruct H as (y & z & Hy & Hz & ->). apply Forall_app in F. destruct F as [Fy Fz].
      pose proof (IH _ _ _ _ Hy (ok_eval _ _ (FSeq (Star a)) (ok_sub _ _ _ O Ga) G) rest Fy) as Na. pose proof (IH _ _ _ _ Hz O0 rest Fz) as Nb. cbn [denm] in Na, Nb.
      change (den k (FSeq (Star a) :: s)) with (fun (ca : children) (r : list token) => R (Star a) r (fun (cb : children) (r' : list token) => den k s (ca ++ cb) r')) in Na.
      rewrite R_star, Na by exact G. exact Nb.
    + destruct (okg_starng _ G) as [Ga _]. apply both_some' in H. destruct H as (y & z & Hy & Hz & ->). apply Forall_app in F. destruct F as [Fy Fz].
      pose proof (IH _ _ _ _ Hy O0 rest Fy) as Na. pose proof (IH _ _ _ _ Hz (ok_eval _ _ (FSeq (StarNG a)) (ok_sub _ _ _ O Ga) G) rest Fz) as Nb. cbn [denm] in Na, Nb.
      rewrite R_starng, Na by exact G. exact Nb.
Qed.
Lemma fseg bot k n p m l s qs rest ts : law bot k -> ts = l ++ rest -> fronts bot (at_place n p) 2000 5000 m l s = Some qs -> ok m s = true ->
  Forall (fails k rest) qs -> denm k m ts s = NotFound.
Proof. intros L -> E O F. exact (fronts_sound bot k _ _ L _ _ _ _ _ E O rest F). Qed.
(** follow the tokens l to the places p with n of them left; one goal for each *)
Ltac follow bot l n p :=
  match goal with |- denm ?k ?m ?ts ?s = NotFound =>
    let e := eval vm_compute in (fronts bot (at_place n p) 2000 5000 m l s) in
    match e with
    | Some ?qs =>
        refine (fseg bot k n p m l s qs _ ts _ _ _ _ _);
        [first [exact I|assumption]|cbn [app]; reflexivity|vm_cast_no_check (eq_refl (Some qs))|vm_cast_no_check (eq_refl true)
        |repeat (apply Forall_cons; [unfold fails; cbn [app]|]); try apply Forall_nil]
    end
  end.
