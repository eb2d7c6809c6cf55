(** Symbolic execution of the parser: tokens with known kinds and unknown texts, followed by an unknown
    rest.  [step] is one step of a backtracking machine whose continuations are lists of frames, [may]
    decides with the known tokens that a state fails, and [seg] says that a success after some steps is
    a success before them. *)
From Coq Require Import Lia.
From Verif Require Import GoBase ModelEbnf ModelGrammar SpecParse ProofEbnf.

Lemma the_refs_ok name p : In (name, p) the_refs ->
  nullable (rule name p) = false /\ shallow the_rank the_refs (rule name p) = true
  /\ depth the_rank (rule name p) <= the_rank name.
Proof.
  intro I. pose proof grammar_is_ok as H. unfold grammar_ok in H. rewrite forallb_forall in H.
  specialize (H _ I). cbn [fst snd] in H. apply andb_prop in H. destruct H as [H D]. apply andb_prop in H.
  destruct H as [N S]. apply negb_true_iff in N. apply Nat.leb_le in D. repeat split; assumption.
Qed.

Definition okg (g : gram) : bool := shallow the_rank the_refs g.
Definition R (g : gram) (ts : list token) (k : children -> list token -> outcome) : outcome :=
  run rule (64 * S (length ts)) g ts k.

Lemma okg_depth g : okg g = true -> depth the_rank g < 63.
Proof. apply shallow_depth. Qed.

Lemma run_R n g ts k : okg g = true -> 64 * length ts + depth the_rank g < n -> run rule n g ts k = R g ts k.
Proof.
  intros O L. apply okg_depth in O as D. unfold R. apply (run_ext rule the_rank the_refs the_refs_ok); auto; lia.
Qed.

Lemma R_ext g ts k k' : okg g = true ->
  (forall cs r, length r <= length ts -> (nullable g = false -> length r < length ts) -> k cs r = k' cs r) ->
  R g ts k = R g ts k'.
Proof.
  intros O K. apply okg_depth in O as D. apply (run_ext rule the_rank the_refs the_refs_ok); auto; lia.
Qed.

Ltac parts H := unfold okg in H; cbn [shallow] in H; apply andb_prop in H; destruct H as [_ H].
Ltac start := unfold R at 1; match goal with |- context [64 * S (length ?ts)] => replace (64 * S (length ts)) with (S (64 * length ts + 63)) by lia end; rewrite run_S.
Ltac fold_R := rewrite run_R; [|assumption|cbn [depth] in *; lia].

Lemma R_eps ts k : R Eps ts k = k [] ts.
Proof. start. reflexivity. Qed.
Lemma R_fail ts k : R Fail ts k = NotFound.
Proof. start. reflexivity. Qed.
Lemma R_tok kind ts k : R (Tok kind) ts k =
  match ts with
  | t :: r => if String.eqb (tk t) kind then k [(""%string, Leaf t)] r else NotFound
  | [] => NotFound
  end.
Proof. start. reflexivity. Qed.

Lemma okg_rule name p : okg (Rule name p) = true -> okg (rule name p) = true /\ depth the_rank (rule name p) < 62.
Proof.
  intro O. pose proof (okg_depth _ O) as D. cbn [depth] in D. parts O.
  apply ref_in in O. destruct (the_refs_ok _ _ O) as (_ & S & E). split; [exact S|lia].
Qed.
Lemma okg_seq a b : okg (Seq a b) = true -> okg a = true /\ okg b = true.
Proof. intro O. parts O. apply andb_prop in O. exact O. Qed.
Lemma okg_alt a b : okg (Alt a b) = true -> okg a = true /\ okg b = true.
Proof. intro O. parts O. apply andb_prop in O. exact O. Qed.
Lemma okg_star a : okg (Star a) = true -> okg a = true /\ nullable a = false.
Proof. intro O. parts O. apply andb_prop in O. destruct O as [N O]. apply negb_true_iff in N. split; assumption. Qed.
Lemma okg_starng a : okg (StarNG a) = true -> okg a = true /\ nullable a = false.
Proof. intro O. parts O. apply andb_prop in O. destruct O as [N O]. apply negb_true_iff in N. split; assumption. Qed.
Lemma okg_lab l a : okg (Lab l a) = true -> okg a = true.
Proof. intro O. parts O. exact O. Qed.
Lemma okg_wrap a : okg (Wrap a) = true -> okg a = true.
Proof. intro O. parts O. exact O. Qed.
Lemma okg_leftrec name a b : okg (LeftRec name a b) = true -> okg a = true /\ nullable a = false /\ okg (Star (Wrap b)) = true.
Proof.
  intro O. parts O. apply andb_prop in O. destruct O as [O Sb]. apply andb_prop in O. destruct O as [O Nb].
  apply andb_prop in O. destruct O as [Na Sa]. apply negb_true_iff in Na. repeat split; try assumption.
  unfold okg. cbn [shallow depth nullable]. rewrite Nb, Sb.
  apply shallow_depth in Sb. apply Nat.ltb_lt in Sb. rewrite Sb. reflexivity.
Qed.

Lemma R_rule name p ts k : okg (Rule name p) = true ->
  R (Rule name p) ts k = R (rule name p) ts (fun cs r => k [(""%string, Node name cs)] r).
Proof. intro O. destruct (okg_rule _ _ O) as [O' D]. start. apply run_R; [exact O'|lia]. Qed.
Lemma R_seq a b ts k : okg (Seq a b) = true ->
  R (Seq a b) ts k = R a ts (fun ca r => R b r (fun cb r' => k (ca ++ cb) r')).
Proof.
  intro O. destruct (okg_seq _ _ O) as [Oa Ob]. apply okg_depth in Oa as Da. apply okg_depth in Ob as Db. start.
  rewrite run_R; [|exact Oa|lia]. apply R_ext; [exact Oa|]. intros ca r L _. apply run_R; [exact Ob|lia].
Qed.
Lemma R_alt a b ts k : okg (Alt a b) = true ->
  R (Alt a b) ts k = match R a ts k with NotFound => R b ts k | o => o end.
Proof.
  intro O. destruct (okg_alt _ _ O) as [Oa Ob]. apply okg_depth in Oa as Da. apply okg_depth in Ob as Db. start.
  rewrite run_R; [|exact Oa|lia]. destruct (R a ts k); try reflexivity. apply run_R; [exact Ob|lia].
Qed.
Lemma R_star a ts k : okg (Star a) = true ->
  R (Star a) ts k = match R a ts (fun ca r => R (Star a) r (fun cb r' => k (ca ++ cb) r')) with NotFound => k [] ts | o => o end.
Proof.
  intro O. destruct (okg_star _ O) as [Oa Na]. apply okg_depth in Oa as Da. apply okg_depth in O as Ds. start.
  rewrite run_R; [|exact Oa|lia].
  rewrite (R_ext a ts _ (fun ca r => R (Star a) r (fun cb r' => k (ca ++ cb) r'))); [reflexivity|exact Oa|].
  intros ca r _ L. specialize (L Na). apply run_R; [exact O|lia].
Qed.
Lemma R_starng a ts k : okg (StarNG a) = true ->
  R (StarNG a) ts k = match k [] ts with NotFound => R a ts (fun ca r => R (StarNG a) r (fun cb r' => k (ca ++ cb) r')) | o => o end.
Proof.
  intro O. destruct (okg_starng _ O) as [Oa Na]. apply okg_depth in Oa as Da. apply okg_depth in O as Ds. start.
  destruct (k [] ts); try reflexivity.
  rewrite run_R; [|exact Oa|lia]. apply R_ext; [exact Oa|].
  intros ca r _ L. specialize (L Na). apply run_R; [exact O|lia].
Qed.
Lemma R_lab l a ts k : okg (Lab l a) = true -> R (Lab l a) ts k = R a ts (fun cs r => k (set_label l cs) r).
Proof. intro O. apply okg_lab in O. apply okg_depth in O as D. start. apply run_R; [exact O|lia]. Qed.
Lemma R_wrap a ts k : okg (Wrap a) = true -> R (Wrap a) ts k = R a ts (fun cs r => k [(""%string, Node "" cs)] r).
Proof. intro O. apply okg_wrap in O. apply okg_depth in O as D. start. apply run_R; [exact O|lia]. Qed.
Lemma R_leftrec name a b ts k : okg (LeftRec name a b) = true ->
  R (LeftRec name a b) ts k = R a ts (fun ca r => R (Star (Wrap b)) r (fun rounds r' => k (nest name ca rounds) r')).
Proof.
  intro O. destruct (okg_leftrec _ _ _ O) as (Oa & Na & Ob). apply okg_depth in Oa as Da. apply okg_depth in Ob as Db. start.
  rewrite run_R; [|exact Oa|lia]. apply R_ext; [exact Oa|].
  intros ca r _ L. specialize (L Na). apply run_R; [exact Ob|lia].
Qed.

(** ** States *)

Inductive frame :=
| FSeq (b : gram) | FPre (cs : children) | FRule (name : string) | FLab (l : string) | FWrap
| FLeft (name : string) (b : gram) | FNest (name : string) (cs : children).
Inductive mode := MEval (g : gram) | MRet (cs : children).

Section Machine.
  (** what is at the bottom, and the kinds of tokens before which it may succeed; [None] is any kind *)
  Context (base : children -> list token -> outcome) (bot : option (list string)).
  Hypothesis base_bot : match bot with
                        | Some ks => forall cs t ts, ~ In (tk t) ks -> base cs (t :: ts) = NotFound
                        | None => True
                        end.

  Fixpoint den (s : list frame) (cs : children) (ts : list token) : outcome :=
    match s with
    | [] => base cs ts
    | FSeq b :: s' => R b ts (fun cb r => den s' (cs ++ cb) r)
    | FPre ca :: s' => den s' (ca ++ cs) ts
    | FRule name :: s' => den s' [(""%string, Node name cs)] ts
    | FLab l :: s' => den s' (set_label l cs) ts
    | FWrap :: s' => den s' [(""%string, Node "" cs)] ts
    | FLeft name b :: s' => R (Star (Wrap b)) ts (fun rounds r => den s' (nest name cs rounds) r)
    | FNest name ca :: s' => den s' (nest name ca cs) ts
    end.
  Definition denm (m : mode) (ts : list token) (s : list frame) : outcome :=
    match m with MEval g => R g ts (den s) | MRet cs => den s cs ts end.

  Definition okf (f : frame) : bool :=
    match f with FSeq b => okg b | FLeft _ b => okg (Star (Wrap b)) | _ => true end.
  Definition ok (m : mode) (s : list frame) : bool :=
    match m with MEval g => okg g | MRet _ => true end && forallb okf s.

  (** the frame FPre on top of s *)
  Definition push_pre (cs : children) (s : list frame) : list frame :=
    match s with FPre d :: s' => FPre (d ++ cs) :: s' | _ => FPre cs :: s end.
  Lemma den_push_pre cs s cb r : den (push_pre cs s) cb r = den s (cs ++ cb) r.
  Proof. destruct s as [|[] s]; try reflexivity. cbn [push_pre den]. rewrite app_assoc. reflexivity. Qed.
  Lemma ok_push_pre cs s : forallb okf (push_pre cs s) = forallb okf s.
  Proof. destruct s as [|[] s]; reflexivity. Qed.

  (** Returning to the frame on top. *)
  Definition ret (cs : children) (s : list frame) : option (mode * list frame) :=
    match s with
    | [] => None
    | FSeq b :: s' => Some (MEval b, push_pre cs s')
    | FPre ca :: s' => Some (MRet (ca ++ cs), s')
    | FRule name :: s' => Some (MRet [(""%string, Node name cs)], s')
    | FLab l :: s' => Some (MRet (set_label l cs), s')
    | FWrap :: s' => Some (MRet [(""%string, Node "" cs)], s')
    | FLeft name b :: s' => Some (MEval (Star (Wrap b)), FNest name cs :: s')
    | FNest name ca :: s' => Some (MRet (nest name ca cs), s')
    end.
  Lemma R_den_ext g ts k k' : (forall cs r, k cs r = k' cs r) -> okg g = true -> R g ts k = R g ts k'.
  Proof. intros E O. apply R_ext; auto. Qed.
  Lemma ret_den cs s m s' ts : forallb okf s = true -> ret cs s = Some (m, s') -> denm m ts s' = den s cs ts /\ ok m s' = true.
  Proof.
    unfold ok. intros O E. destruct s as [|f s]; [discriminate|]. cbn [forallb] in O. apply andb_prop in O. destruct O as [Of Os].
    destruct f; cbn [ret] in E; injection E as <- <-; cbn [denm den forallb okf] in *; (split; [try reflexivity|]).
    - apply R_den_ext; [|exact Of]. intros. apply den_push_pre.
    - rewrite ok_push_pre, Of, Os. reflexivity.
    - rewrite Os. reflexivity.
    - rewrite Os. reflexivity.
    - rewrite Os. reflexivity.
    - rewrite Os. reflexivity.
    - rewrite Of, Os. reflexivity.
    - rewrite Os. reflexivity.
  Qed.

  (** Can the state succeed, as far as the known tokens tell? *)
  Fixpoint may (n : nat) (m : mode) (l : list token) (s : list frame) : bool :=
    match n, l with
    | O, _ | _, [] => true
    | S n', t :: l' =>
        match m with
        | MEval g =>
            match g with
            | Eps => may n' (MRet []) l s
            | Fail => false
            | Tok kind => if String.eqb (tk t) kind then may n' (MRet [(""%string, Leaf t)]) l' s else false
            | Rule name p => may n' (MEval (rule name p)) l (FRule name :: s)
            | Seq a b => may n' (MEval a) l (FSeq b :: s)
            | Alt a b => if may n' (MEval a) l s then true else may n' (MEval b) l s
            | Star a => if may n' (MEval a) l (FSeq (Star a) :: s) then true else may n' (MRet []) l s
            | StarNG a => if may n' (MRet []) l s then true else may n' (MEval a) l (FSeq (StarNG a) :: s)
            | Lab lb a => may n' (MEval a) l (FLab lb :: s)
            | LeftRec name a b => may n' (MEval a) l (FLeft name b :: s)
            | Wrap a => may n' (MEval a) l (FWrap :: s)
            end
        | MRet cs =>
            match ret cs s with
            | Some (m', s') => may n' m' l s'
            | None => match bot with Some ks => existsb (String.eqb (tk t)) ks | None => true end
            end
        end
    end.

  Lemma ok_eval g s f : ok (MEval g) s = true -> okf f = true -> ok (MEval g) (f :: s) = true.
  Proof. unfold ok. cbn [forallb]. intros O F. rewrite F. exact O. Qed.
  Lemma ok_sub g g' s : ok (MEval g) s = true -> okg g' = true -> ok (MEval g') s = true.
  Proof. unfold ok. intros O F. rewrite F. apply andb_prop in O. destruct O as [_ O]. rewrite O. reflexivity. Qed.
  Lemma ok_g g s : ok (MEval g) s = true -> okg g = true.
  Proof. unfold ok. intro O. apply andb_prop in O. apply O. Qed.
  Lemma ok_s g s cs : ok (MEval g) s = true -> ok (MRet cs) s = true.
  Proof. unfold ok. intro O. apply andb_prop in O. apply O. Qed.

  Ltac sub_ok := eapply ok_sub; [eassumption|assumption].

  Lemma may_false : forall n m l s, may n m l s = false -> ok m s = true -> forall rest, denm m (l ++ rest) s = NotFound.
  Proof.
    induction n as [|n IH]; [discriminate|]. intros m [|t l] s H O rest; [discriminate|]. cbn [may] in H.
    destruct m as [g|cs].
    - pose proof (ok_g _ _ O) as G. pose proof (ok_s _ _ [] O) as O0. cbn [denm].
      destruct g as [| |kind|name p|a b|a b|a|a|lb a|name a b|a].
      + rewrite R_eps. exact (IH _ _ _ H O0 rest).
      + apply R_fail.
      + rewrite R_tok. cbn [app]. destruct (String.eqb (tk t) kind); [|reflexivity]. exact (IH _ _ _ H (ok_s _ _ _ O) rest).
      + rewrite R_rule by exact G. destruct (okg_rule _ _ G) as [G' _].
        exact (IH _ _ _ H (ok_eval _ _ (FRule name) (ok_sub _ _ _ O G') eq_refl) rest).
      + destruct (okg_seq _ _ G) as [Ga Gb]. rewrite R_seq by exact G.
        exact (IH _ _ _ H (ok_eval _ _ (FSeq b) (ok_sub _ _ _ O Ga) Gb) rest).
      + destruct (okg_alt _ _ G) as [Ga Gb]. rewrite R_alt by exact G.
        destruct (may n (MEval a) (t :: l) s) eqn:E; [discriminate|].
        pose proof (IH _ _ _ E (ok_sub _ _ _ O Ga) rest) as Ea. cbn [denm] in Ea. rewrite Ea.
        exact (IH _ _ _ H (ok_sub _ _ _ O Gb) rest).
      + destruct (okg_star _ G) as [Ga _]. rewrite R_star by exact G.
        destruct (may n (MEval a) (t :: l) (FSeq (Star a) :: s)) eqn:E; [discriminate|].
        pose proof (IH _ _ _ E (ok_eval _ _ (FSeq (Star a)) (ok_sub _ _ _ O Ga) G) rest) as Ea. cbn [denm] in Ea.
        change (den (FSeq (Star a) :: s)) with (fun (ca : children) (r : list token) => R (Star a) r (fun (cb : children) (r' : list token) => den s (ca ++ cb) r')) in Ea.
        rewrite Ea. exact (IH _ _ _ H O0 rest).
      + destruct (okg_starng _ G) as [Ga _]. rewrite R_starng by exact G.
        destruct (may n (MRet []) (t :: l) s) eqn:E; [discriminate|].
        pose proof (IH _ _ _ E O0 rest) as Ea. cbn [denm] in Ea. rewrite Ea.
        exact (IH _ _ _ H (ok_eval _ _ (FSeq (StarNG a)) (ok_sub _ _ _ O Ga) G) rest).
      + rewrite R_lab by exact G. apply okg_lab in G.
        exact (IH _ _ _ H (ok_eval _ _ (FLab lb) (ok_sub _ _ _ O G) eq_refl) rest).
      + destruct (okg_leftrec _ _ _ G) as (Ga & _ & Gb). rewrite R_leftrec by exact G.
        exact (IH _ _ _ H (ok_eval _ _ (FLeft name b) (ok_sub _ _ _ O Ga) Gb) rest).
      + rewrite R_wrap by exact G. apply okg_wrap in G.
        exact (IH _ _ _ H (ok_eval _ _ FWrap (ok_sub _ _ _ O G) eq_refl) rest).
    - destruct (ret cs s) as [(m', s')|] eqn:E.
      + destruct (ret_den _ _ _ _ ((t :: l) ++ rest) (proj2 (andb_prop _ _ O)) E) as [D O'].
        cbn [denm]. rewrite <- D. exact (IH _ _ _ H O' rest).
      + destruct s as [|[] s]; cbn [ret] in E; try discriminate.
        cbn [denm den app]. destruct bot as [ks|]; [|discriminate]. apply base_bot. intro I.
        rewrite (proj2 (existsb_exists _ _)) in H; [discriminate|]. exists (tk t). split; [exact I|apply String.eqb_refl].
  Qed.

  (** One step: the first alternative that is not known to fail.  [w] bounds how many of the known tokens
      are looked at, [d] the depth of the search. *)
  Definition step (w d : nat) (m : mode) (l : list token) (s : list frame) : option (mode * list token * list frame) :=
    match m with
    | MEval g =>
        match g with
        | Eps => Some (MRet [], l, s)
        | Fail => None
        | Tok kind =>
            match l with
            | t :: l' => if String.eqb (tk t) kind then Some (MRet [(""%string, Leaf t)], l', s) else None
            | [] => None
            end
        | Rule name p => Some (MEval (rule name p), l, FRule name :: s)
        | Seq a b => Some (MEval a, l, FSeq b :: s)
        | Alt a b => if may d (MEval a) (firstn w l) s then Some (MEval a, l, s) else Some (MEval b, l, s)
        | Star a =>
            if may d (MEval a) (firstn w l) (FSeq (Star a) :: s) then Some (MEval a, l, FSeq (Star a) :: s)
            else Some (MRet [], l, s)
        | StarNG a =>
            if may d (MRet []) (firstn w l) s then Some (MRet [], l, s) else Some (MEval a, l, FSeq (StarNG a) :: s)
        | Lab lb a => Some (MEval a, l, FLab lb :: s)
        | LeftRec name a b => Some (MEval a, l, FLeft name b :: s)
        | Wrap a => Some (MEval a, l, FWrap :: s)
        end
    | MRet cs => match ret cs s with Some (m', s') => Some (m', l, s') | None => None end
    end.

  Lemma may_firstn w d m l s : may d m (firstn w l) s = false -> ok m s = true -> forall rest, denm m (l ++ rest) s = NotFound.
  Proof.
    intros H O rest. rewrite <- (firstn_skipn w l) at 1. rewrite <- app_assoc. apply may_false with (n := d); assumption.
  Qed.

  Lemma step_sound w d m l s m' l' s' : step w d m l s = Some (m', l', s') -> ok m s = true ->
    ok m' s' = true /\
    forall rest r, denm m' (l' ++ rest) s' = Found r -> denm m (l ++ rest) s = Found r.
  Proof.
    intros H O. unfold step in H. destruct m as [g|cs].
    - pose proof (ok_g _ _ O) as G. pose proof (ok_s _ _ [] O) as O0.
      destruct g as [| |kind|name p|a b|a b|a|a|lb a|name a b|a]; cbn [denm].
      + injection H as <- <- <-. split; [exact O0|]. intros rest r F. rewrite R_eps. exact F.
      + discriminate.
      + destruct l as [|t l]; [discriminate|]. destruct (String.eqb (tk t) kind) eqn:E; [|discriminate].
        injection H as <- <- <-. split; [exact O0|]. intros rest r F. rewrite R_tok. cbn [app]. rewrite E. exact F.
      + injection H as <- <- <-. destruct (okg_rule _ _ G) as [G' _].
        split; [exact (ok_eval _ _ (FRule name) (ok_sub _ _ _ O G') eq_refl)|]. intros rest r F. rewrite R_rule by exact G. exact F.
      + injection H as <- <- <-. destruct (okg_seq _ _ G) as [Ga Gb].
        split; [exact (ok_eval _ _ (FSeq b) (ok_sub _ _ _ O Ga) Gb)|]. intros rest r F. rewrite R_seq by exact G. exact F.
      + destruct (okg_alt _ _ G) as [Ga Gb]. destruct (may d (MEval a) (firstn w l) s) eqn:E; injection H as <- <- <-.
        * split; [exact (ok_sub _ _ _ O Ga)|]. intros rest r F. rewrite R_alt by exact G. cbn [denm] in F. rewrite F. reflexivity.
        * split; [exact (ok_sub _ _ _ O Gb)|]. intros rest r F. rewrite R_alt by exact G.
          pose proof (may_firstn _ _ _ _ _ E (ok_sub _ _ _ O Ga) rest) as N. cbn [denm] in N, F. rewrite N. exact F.
      + destruct (okg_star _ G) as [Ga _].
        pose proof (ok_eval _ _ (FSeq (Star a)) (ok_sub _ _ _ O Ga) G) as Oa.
        destruct (may d (MEval a) (firstn w l) (FSeq (Star a) :: s)) eqn:E; injection H as <- <- <-.
        * split; [exact Oa|]. intros rest r F. rewrite R_star by exact G. cbn [denm] in F.
          change (den (FSeq (Star a) :: s)) with (fun (ca : children) (r : list token) => R (Star a) r (fun (cb : children) (r' : list token) => den s (ca ++ cb) r')) in F.
          rewrite F. reflexivity.
        * split; [exact O0|]. intros rest r F. rewrite R_star by exact G.
          pose proof (may_firstn _ _ _ _ _ E Oa rest) as N. cbn [denm] in N, F.
          change (den (FSeq (Star a) :: s)) with (fun (ca : children) (r : list token) => R (Star a) r (fun (cb : children) (r' : list token) => den s (ca ++ cb) r')) in N.
          rewrite N. exact F.
      + destruct (okg_starng _ G) as [Ga _].
        pose proof (ok_eval _ _ (FSeq (StarNG a)) (ok_sub _ _ _ O Ga) G) as Oa.
        destruct (may d (MRet []) (firstn w l) s) eqn:E; injection H as <- <- <-.
        * split; [exact O0|]. intros rest r F. rewrite R_starng by exact G. cbn [denm] in F. rewrite F. reflexivity.
        * split; [exact Oa|]. intros rest r F. rewrite R_starng by exact G.
          pose proof (may_firstn _ _ _ _ _ E O0 rest) as N. cbn [denm] in N, F. rewrite N. exact F.
      + injection H as <- <- <-. split; [exact (ok_eval _ _ (FLab lb) (ok_sub _ _ _ O (okg_lab _ _ G)) eq_refl)|].
        intros rest r F. rewrite R_lab by exact G. exact F.
      + injection H as <- <- <-. destruct (okg_leftrec _ _ _ G) as (Ga & _ & Gb).
        split; [exact (ok_eval _ _ (FLeft name b) (ok_sub _ _ _ O Ga) Gb)|]. intros rest r F. rewrite R_leftrec by exact G. exact F.
      + injection H as <- <- <-. split; [exact (ok_eval _ _ FWrap (ok_sub _ _ _ O (okg_wrap _ G)) eq_refl)|].
        intros rest r F. rewrite R_wrap by exact G. exact F.
    - destruct (ret cs s) as [(m1, s1)|] eqn:E; [|discriminate]. injection H as <- <- <-.
      destruct (ret_den _ _ _ _ l (proj2 (andb_prop _ _ O)) E) as [_ O']. split; [exact O'|].
      intros rest r F. destruct (ret_den _ _ _ _ (l ++ rest) (proj2 (andb_prop _ _ O)) E) as [D _].
      cbn [denm]. rewrite <- D. exact F.
  Qed.

  (** Steps until the state is one to stop in. *)
  Fixpoint exec (stop : mode -> list token -> list frame -> bool) (w d n : nat) (m : mode) (l : list token) (s : list frame)
    : option (mode * list token * list frame) :=
    if stop m l s then Some (m, l, s)
    else match n with
         | O => None
         | S n' => match step w d m l s with
                   | Some (m', l', s') => exec stop w d n' m' l' s'
                   | None => None
                   end
         end.

  Lemma exec_sound stop w d : forall n m l s m' l' s', exec stop w d n m l s = Some (m', l', s') -> ok m s = true ->
    ok m' s' = true /\
    forall rest r, denm m' (l' ++ rest) s' = Found r -> denm m (l ++ rest) s = Found r.
  Proof.
    induction n as [|n IH]; intros m l s m' l' s' H O; cbn [exec] in H; destruct (stop m l s).
    - injection H as <- <- <-. split; [exact O|]. auto.
    - discriminate.
    - injection H as <- <- <-. split; [exact O|]. auto.
    - destruct (step w d m l s) as [((m1, l1), s1)|] eqn:E; [|discriminate].
      destruct (step_sound _ _ _ _ _ _ _ _ E O) as [O1 F1]. destruct (IH _ _ _ _ _ _ H O1) as [O2 F2].
      split; [exact O2|]. intros rest r F. apply F1, F2, F.
  Qed.

  (** The kinds of tokens with which a state can succeed; [None] if the depth is not enough. *)
  Definition both (a b : option (list string)) : option (list string) :=
    match a, b with Some x, Some y => Some (x ++ y) | _, _ => None end.
  Fixpoint firsts (n : nat) (m : mode) (s : list frame) : option (list string) :=
    match n with
    | O => None
    | S n' =>
        match m with
        | MEval g =>
            match g with
            | Eps => firsts n' (MRet []) s
            | Fail => Some []
            | Tok kind => Some [kind]
            | Rule name p => firsts n' (MEval (rule name p)) (FRule name :: s)
            | Seq a b => firsts n' (MEval a) (FSeq b :: s)
            | Alt a b => both (firsts n' (MEval a) s) (firsts n' (MEval b) s)
            | Star a => both (firsts n' (MEval a) (FSeq (Star a) :: s)) (firsts n' (MRet []) s)
            | StarNG a => both (firsts n' (MRet []) s) (firsts n' (MEval a) (FSeq (StarNG a) :: s))
            | Lab lb a => firsts n' (MEval a) (FLab lb :: s)
            | LeftRec name a b => firsts n' (MEval a) (FLeft name b :: s)
            | Wrap a => firsts n' (MEval a) (FWrap :: s)
            end
        | MRet cs =>
            match ret cs s with
            | Some (m', s') => firsts n' m' s'
            | None => bot
            end
        end
    end.
  Lemma both_some a b x : both a b = Some x -> exists y z, a = Some y /\ b = Some z /\ x = y ++ z.
  Proof. destruct a, b; try discriminate. intro H. injection H as <-. eauto. Qed.
  Lemma firsts_sound : forall n m s ks, firsts n m s = Some ks -> ok m s = true ->
    forall t ts, ~ In (tk t) ks -> denm m (t :: ts) s = NotFound.
  Proof.
    induction n as [|n IH]; [discriminate|]. intros m s ks H O t ts N. cbn [firsts] in H.
    destruct m as [g|cs].
    - pose proof (ok_g _ _ O) as G. pose proof (ok_s _ _ [] O) as O0. cbn [denm].
      destruct g as [| |kind|name p|a b|a b|a|a|lb a|name a b|a].
      + rewrite R_eps. exact (IH _ _ _ H O0 t ts N).
      + apply R_fail.
      + rewrite R_tok. injection H as <-. destruct (String.eqb (tk t) kind) eqn:E; [|reflexivity].
        apply String.eqb_eq in E. exfalso. apply N. left. symmetry. exact E.
      + rewrite R_rule by exact G. destruct (okg_rule _ _ G) as [G' _].
        exact (IH _ _ _ H (ok_eval _ _ (FRule name) (ok_sub _ _ _ O G') eq_refl) t ts N).
      + destruct (okg_seq _ _ G) as [Ga Gb]. rewrite R_seq by exact G.
        exact (IH _ _ _ H (ok_eval _ _ (FSeq b) (ok_sub _ _ _ O Ga) Gb) t ts N).
      + destruct (okg_alt _ _ G) as [Ga Gb]. rewrite R_alt by exact G.
        apply both_some in H. destruct H as (y & z & Hy & Hz & ->).
        pose proof (IH _ _ _ Hy (ok_sub _ _ _ O Ga) t ts (fun I => N (in_or_app _ _ _ (or_introl I)))) as Ea. cbn [denm] in Ea. rewrite Ea.
        exact (IH _ _ _ Hz (ok_sub _ _ _ O Gb) t ts (fun I => N (in_or_app _ _ _ (or_intror I)))).
      + destruct (okg_star _ G) as [Ga _]. rewrite R_star by exact G.
        apply both_some in H. destruct H as (y & z & Hy & Hz & ->).
        pose proof (IH _ _ _ Hy (ok_eval _ _ (FSeq (Star a)) (ok_sub _ _ _ O Ga) G) t ts (fun I => N (in_or_app _ _ _ (or_introl I)))) as Ea. cbn [denm] in Ea.
        change (den (FSeq (Star a) :: s)) with (fun (ca : children) (r : list token) => R (Star a) r (fun (cb : children) (r' : list token) => den s (ca ++ cb) r')) in Ea.
        rewrite Ea. exact (IH _ _ _ Hz O0 t ts (fun I => N (in_or_app _ _ _ (or_intror I)))).
      + destruct (okg_starng _ G) as [Ga _]. rewrite R_starng by exact G.
        apply both_some in H. destruct H as (y & z & Hy & Hz & ->).
        pose proof (IH _ _ _ Hy O0 t ts (fun I => N (in_or_app _ _ _ (or_introl I)))) as Ea. cbn [denm] in Ea. rewrite Ea.
        exact (IH _ _ _ Hz (ok_eval _ _ (FSeq (StarNG a)) (ok_sub _ _ _ O Ga) G) t ts (fun I => N (in_or_app _ _ _ (or_intror I)))).
      + rewrite R_lab by exact G. apply okg_lab in G.
        exact (IH _ _ _ H (ok_eval _ _ (FLab lb) (ok_sub _ _ _ O G) eq_refl) t ts N).
      + destruct (okg_leftrec _ _ _ G) as (Ga & _ & Gb). rewrite R_leftrec by exact G.
        exact (IH _ _ _ H (ok_eval _ _ (FLeft name b) (ok_sub _ _ _ O Ga) Gb) t ts N).
      + rewrite R_wrap by exact G. apply okg_wrap in G.
        exact (IH _ _ _ H (ok_eval _ _ FWrap (ok_sub _ _ _ O G) eq_refl) t ts N).
    - destruct (ret cs s) as [(m', s')|] eqn:E.
      2:{ destruct s as [|[] s]; cbn [ret] in E; try discriminate. cbn [denm den]. rewrite H in base_bot. apply base_bot. exact N. }
      destruct (ret_den _ _ _ _ (t :: ts) (proj2 (andb_prop _ _ O)) E) as [D O'].
      cbn [denm]. rewrite <- D. exact (IH _ _ _ H O' t ts N).
  Qed.

  (** One step when there is only one choice: the outcome stays the same. *)
  Definition dstep (d : nat) (m : mode) (l : list token) (s : list frame) : option (mode * list token * list frame) :=
    match m with
    | MEval (Tok kind) =>
        match l with
        | t :: l' => if String.eqb (tk t) kind then Some (MRet [(""%string, Leaf t)], l', s) else None
        | [] => None
        end
    | MEval (Alt a b) =>
        if may d (MEval a) l s then if may d (MEval b) l s then None else Some (MEval a, l, s)
        else Some (MEval b, l, s)
    | MEval (Star a) =>
        if may d (MEval a) l (FSeq (Star a) :: s)
        then if may d (MRet []) l s then None else Some (MEval a, l, FSeq (Star a) :: s)
        else Some (MRet [], l, s)
    | MEval (StarNG a) =>
        if may d (MRet []) l s
        then if may d (MEval a) l (FSeq (StarNG a) :: s) then None else Some (MRet [], l, s)
        else Some (MEval a, l, FSeq (StarNG a) :: s)
    | MEval Fail => None
    | _ => step (length l) d m l s
    end.

  Lemma dstep_sound d m l s m' l' s' : dstep d m l s = Some (m', l', s') -> ok m s = true ->
    ok m' s' = true /\ forall rest, denm m' (l' ++ rest) s' = denm m (l ++ rest) s.
  Proof.
    intros H O. destruct m as [g|cs].
    - pose proof (ok_g _ _ O) as G. pose proof (ok_s _ _ [] O) as O0.
      destruct g as [| |kind|name p|a b|a b|a|a|lb a|name a b|a]; cbn [denm dstep step] in *.
      + injection H as <- <- <-. split; [exact O0|]. intros rest. rewrite R_eps. reflexivity.
      + discriminate.
      + destruct l as [|t l]; [discriminate|]. destruct (String.eqb (tk t) kind) eqn:E; [|discriminate].
        injection H as <- <- <-. split; [exact O0|]. intros rest. rewrite R_tok. cbn [app]. rewrite E. reflexivity.
      + injection H as <- <- <-. destruct (okg_rule _ _ G) as [G' _].
        split; [exact (ok_eval _ _ (FRule name) (ok_sub _ _ _ O G') eq_refl)|]. intros rest. rewrite R_rule by exact G. reflexivity.
      + injection H as <- <- <-. destruct (okg_seq _ _ G) as [Ga Gb].
        split; [exact (ok_eval _ _ (FSeq b) (ok_sub _ _ _ O Ga) Gb)|]. intros rest. rewrite R_seq by exact G. reflexivity.
      + destruct (okg_alt _ _ G) as [Ga Gb]. destruct (may d (MEval a) l s) eqn:E; [destruct (may d (MEval b) l s) eqn:F; [discriminate|]|];
          injection H as <- <- <-.
        * split; [exact (ok_sub _ _ _ O Ga)|]. intros rest. rewrite R_alt by exact G.
          pose proof (may_false _ _ _ _ F (ok_sub _ _ _ O Gb) rest) as N. cbn [denm] in *. rewrite N. destruct (R a (l ++ rest) (den s)); reflexivity.
        * split; [exact (ok_sub _ _ _ O Gb)|]. intros rest. rewrite R_alt by exact G.
          pose proof (may_false _ _ _ _ E (ok_sub _ _ _ O Ga) rest) as N. cbn [denm] in *. rewrite N. reflexivity.
      + destruct (okg_star _ G) as [Ga _].
        pose proof (ok_eval _ _ (FSeq (Star a)) (ok_sub _ _ _ O Ga) G) as Oa.
        destruct (may d (MEval a) l (FSeq (Star a) :: s)) eqn:E; [destruct (may d (MRet []) l s) eqn:F; [discriminate|]|];
          injection H as <- <- <-.
        * split; [exact Oa|]. intros rest. rewrite R_star by exact G.
          pose proof (may_false _ _ _ _ F O0 rest) as N. cbn [denm] in *. rewrite N.
          change (den (FSeq (Star a) :: s)) with (fun (ca : children) (r : list token) => R (Star a) r (fun (cb : children) (r' : list token) => den s (ca ++ cb) r')).
          destruct (R a (l ++ rest) _); reflexivity.
        * split; [exact O0|]. intros rest. rewrite R_star by exact G.
          pose proof (may_false _ _ _ _ E Oa rest) as N. cbn [denm] in *.
          change (den (FSeq (Star a) :: s)) with (fun (ca : children) (r : list token) => R (Star a) r (fun (cb : children) (r' : list token) => den s (ca ++ cb) r')) in N.
          rewrite N. reflexivity.
      + destruct (okg_starng _ G) as [Ga _].
        pose proof (ok_eval _ _ (FSeq (StarNG a)) (ok_sub _ _ _ O Ga) G) as Oa.
        destruct (may d (MRet []) l s) eqn:E; [destruct (may d (MEval a) l (FSeq (StarNG a) :: s)) eqn:F; [discriminate|]|];
          injection H as <- <- <-.
        * split; [exact O0|]. intros rest. rewrite R_starng by exact G.
          pose proof (may_false _ _ _ _ F Oa rest) as N. cbn [denm] in *.
          change (den (FSeq (StarNG a) :: s)) with (fun (ca : children) (r : list token) => R (StarNG a) r (fun (cb : children) (r' : list token) => den s (ca ++ cb) r')) in N.
          rewrite N. destruct (den s [] (l ++ rest)); reflexivity.
        * split; [exact Oa|]. intros rest. rewrite R_starng by exact G.
          pose proof (may_false _ _ _ _ E O0 rest) as N. cbn [denm] in *. rewrite N. reflexivity.
      + injection H as <- <- <-. split; [exact (ok_eval _ _ (FLab lb) (ok_sub _ _ _ O (okg_lab _ _ G)) eq_refl)|].
        intros rest. rewrite R_lab by exact G. reflexivity.
      + injection H as <- <- <-. destruct (okg_leftrec _ _ _ G) as (Ga & _ & Gb).
        split; [exact (ok_eval _ _ (FLeft name b) (ok_sub _ _ _ O Ga) Gb)|]. intros rest. rewrite R_leftrec by exact G. reflexivity.
      + injection H as <- <- <-. split; [exact (ok_eval _ _ FWrap (ok_sub _ _ _ O (okg_wrap _ G)) eq_refl)|].
        intros rest. rewrite R_wrap by exact G. reflexivity.
    - cbn [dstep step] in H. destruct (ret cs s) as [(m1, s1)|] eqn:E; [|discriminate]. injection H as <- <- <-.
      destruct (ret_den _ _ _ _ l (proj2 (andb_prop _ _ O)) E) as [_ O']. split; [exact O'|].
      intros rest. destruct (ret_den _ _ _ _ (l ++ rest) (proj2 (andb_prop _ _ O)) E) as [D _]. exact D.
  Qed.

  Fixpoint dexec (stop : mode -> list token -> list frame -> bool) (d n : nat) (m : mode) (l : list token) (s : list frame)
    : option (mode * list token * list frame) :=
    if stop m l s then Some (m, l, s)
    else match n with
         | O => None
         | S n' => match dstep d m l s with
                   | Some (m', l', s') => dexec stop d n' m' l' s'
                   | None => None
                   end
         end.
  Lemma dexec_sound stop d : forall n m l s m' l' s', dexec stop d n m l s = Some (m', l', s') -> ok m s = true ->
    ok m' s' = true /\ forall rest, denm m' (l' ++ rest) s' = denm m (l ++ rest) s.
  Proof.
    induction n as [|n IH]; intros m l s m' l' s' H O; cbn [dexec] in H; destruct (stop m l s).
    - injection H as <- <- <-. split; [exact O|]. auto.
    - discriminate.
    - injection H as <- <- <-. split; [exact O|]. auto.
    - destruct (dstep d m l s) as [((m1, l1), s1)|] eqn:E; [|discriminate].
      destruct (dstep_sound _ _ _ _ _ _ _ E O) as [O1 F1]. destruct (IH _ _ _ _ _ _ H O1) as [O2 F2].
      split; [exact O2|]. intros rest. rewrite F2. apply F1.
  Qed.
End Machine.
