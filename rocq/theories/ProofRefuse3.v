(** Conditions that cannot be read, whatever follows. *)
From Verif Require Import GoBase ModelUtil ModelNum ModelFn ModelEbnf ModelGrammar ModelLex ModelQuery ModelVisitor SpecRound FactsBase ProofEbnf ProofMachine ProofParse ProofLex ProofRound
  ProofRound2 ProofRound3 ProofRound4 ProofRound5 ProofRound6 ProofRound7 ProofRound8 ProofRound9 ProofRound10 ProofRound11 ProofRound12 ProofRound13 ProofTest ProofRefuse ProofTest5 ProofRefuse2.
Local Open Scope string_scope.
Local Open Scope list_scope.

(** ** Kinds *)

Definition k1 (k : string) : list string := [k].
Definition kn : list string := k1 "IDENTIFIER".
Definition kop : list string := ["ASSIGN"; "NOT_EQ1"; "NOT_EQ2"; "LT"; "GT"; "LT_EQ"; "GT_EQ"].
Definition kar : list string := ["PLUS"; "MINUS"; "STAR"; "DIV"; "MOD"].
Definition klit : list string := "NUMERIC_LITERAL" :: "STRING_LITERAL" :: lit_words.
Definition kneg : list (list string) := [k1 "MINUS"; k1 "NUMERIC_LITERAL"].
Definition kj : list string := ["AND_"; "OR_"].
Definition has_kinds : list token -> list (list string) -> Prop := Forall2 (fun t c => In (tk t) c).
Definition hopeless_kinds (ks : list (list string)) : Prop := mays (Some on_follow) 5000 (MEval (Rule "expr" 0)) ks [] = false.
Lemma kinds_none ks ts more : hopeless_kinds ks -> has_kinds ts ks -> no_expr (ts ++ more).
Proof.
  intros M F k K. apply (may_false k (Some on_follow) K 5000 (MEval (Rule "expr" 0)) ts []); [|vm_compute; reflexivity].
  destruct (may _ _ _ _) eqn:E; [|reflexivity]. unfold hopeless_kinds in M. rewrite (bare_some _ _ _ (MEval (Rule "expr" 0)) _ _ [] _ E F eq_refl eq_refl) in M. discriminate M.
Qed.
Lemma lit_kinds l : lit_ok l -> has_kinds (lit_toks l) [klit] \/ has_kinds (lit_toks l) kneg.
Proof.
  destruct l as [n|n|b|k w]; intro L; [left|right|left|left]; unfold has_kinds; repeat (apply Forall2_cons; [try (cbn; tauto)|]); try apply Forall2_nil.

Qed.
Lemma cmp_kinds_of c : cmp_ok c -> has_kinds (cmp_toks c) [kn; kop; klit] \/ has_kinds (cmp_toks c) (kn :: kop :: kneg).
Proof.
  intros [O L]. destruct c as [x o l]. cbn [cm_op cm_lit] in O, L. assert (P : has_kinds [idt x; op_tok o] [kn; kop]).
  { apply Forall2_cons; [left; reflexivity|]. apply Forall2_cons; [|apply Forall2_nil]. each_op O; cbn; tauto. }
  unfold cmp_toks. cbn [cm_col cm_op cm_lit]. destruct (lit_kinds l L) as [H|H]; [left|right]; exact (Forall2_app P H).
Qed.
Lemma cond_kinds c : cond_ok c -> exists ks, has_kinds (cond_toks c) ks /\
  In ks (let one := [[kn; kop; klit]; kn :: kop :: kneg] in one ++ flat_map (fun a => map (fun b => a ++ [kj] ++ b) one) one)%list.
Proof.
  intro C. destruct c as [a|w a b|w a b]; cbn [cond_ok cond_toks] in *; unfold conn_toks in *.
  - destruct (cmp_kinds_of a C) as [H|H]; eexists; (split; [exact H|cbn; tauto]).
  - destruct C as [A B]. destruct (cmp_kinds_of a A) as [H|H], (cmp_kinds_of b B) as [H'|H'];
      (eexists; split; [apply Forall2_app; [exact H|]; apply (Forall2_cons (mkTok "AND_" w) kj); [left; reflexivity|exact H']|cbn; tauto]).
  - destruct C as [A B]. destruct (cmp_kinds_of a A) as [H|H], (cmp_kinds_of b B) as [H'|H'];
      (eexists; split; [apply Forall2_app; [exact H|]; apply (Forall2_cons (mkTok "OR_" w) kj); [right; left; reflexivity|exact H']|cbn; tauto]).
Qed.

(** ** Lists of values *)

Lemma lit_none l k t tl : lit_ok l -> In (tk t) ["COMMA"; "CLOSE_PAR"] -> (forall cs, k cs (t :: tl) = NotFound) -> R (Rule "expr" 0) (lit_toks l ++ t :: tl) k = NotFound.
Proof.
  intros L T E. destruct t as [kd w]. enter.
  destruct l as [?|?|?|? ?]; [| | |cbn [lit_ok lit_words In] in L; each_in L]; cbn [lit_toks app]; cbn [tk In] in T; repeat (destruct T as [<-|T]); try contradiction;
  match goal with |- denm _ _ (?a :: ?b :: tl) _ = _ => follow (@None (list string)) [a; b] 1 AtEnd | |- denm _ _ (?a :: ?b :: ?c :: tl) _ = _ => follow (@None (list string)) [a; b; c] 1 AtEnd end;
  apply E.
Qed.
Lemma lits_none ls k tl : Forall lit_ok ls -> (forall cs, k cs (close_ :: tl) = NotFound) -> (forall cs r, k cs (comma :: r) = NotFound) ->
  R (Star (Seq (Tok "COMMA") (Rule "expr" 0))) (clist lit_toks ls ++ close_ :: tl) k = NotFound.
Proof.
  revert k. induction ls as [|l ls IH]; intros k L E N.
  - cbn [clist flat_map app]. rewrite R_star by (vm_compute; reflexivity). rewrite R_seq, R_tok by (vm_compute; reflexivity). cbn. apply E.
  - inversion L; subst. unfold clist. cbn [flat_map app]. fold (clist lit_toks ls).
    rewrite R_star by (vm_compute; reflexivity). rewrite R_seq by (vm_compute; reflexivity). rewrite R_tok. cbn [tk String.eqb Ascii.eqb Bool.eqb comma].
    rewrite <- app_assoc.
    assert (X : forall k', (forall cs, k' cs (clist lit_toks ls ++ close_ :: tl) = NotFound) -> R (Rule "expr" 0) (lit_toks l ++ clist lit_toks ls ++ close_ :: tl) k' = NotFound).
    { intros k' E'. destruct ls as [|l' ls']; [apply lit_none; [assumption|cbn; tauto|exact E']|].
      unfold clist in E' |- *. cbn [flat_map app] in E' |- *. apply lit_none; [assumption|cbn; tauto|exact E']. }
    rewrite X; [apply N|]. intro cs. apply IH; [assumption| |]; intros; [apply E|apply N].
Qed.
Lemma joint_kinds t : joint_tok t -> has_kinds [t] [kj].
Proof. intro T. apply Forall2_cons; [|apply Forall2_nil]. destruct T as [->| ->]; cbn; tauto. Qed.
Lemma kind_is t c ts ks : In (tk t) c -> has_kinds ts ks -> has_kinds (t :: ts) (c :: ks).
Proof. exact (@Forall2_cons token (list string) (fun t c => In (tk t) c) t c ts ks). Qed.
Lemma kinds_app a b ka kb : has_kinds a ka -> has_kinds b kb -> has_kinds (a ++ b) (ka ++ kb).
Proof. apply Forall2_app. Qed.
Ltac upto_comma l :=
  match l with mkTok "COMMA" "," :: _ => constr:([mkTok "COMMA" ","]) | ?a :: ?r => let x := upto_comma r in constr:(a :: x) end.
(** a list of values, in parentheses or not *)
Definition before_in (par : bool) : list token := if par then [open_] else [].
Definition after_in (par : bool) (t2 : token) : list token := if par then [close_; t2] else [t2].
Lemma in_none (par n : bool) c l ls t2 more : lit_ok l -> Forall lit_ok ls -> joint_tok t2 ->
  no_expr ((before_in par ++ dtest_toks (DAmong n c l ls) ++ after_in par t2) ++ more).
Proof.
  intros L Ls T. destruct ls as [|l' ls].
  - assert (F : exists kl, has_kinds (lit_toks l) kl /\ (kl = [klit] \/ kl = kneg)) by (destruct (lit_kinds l L); eexists; eauto). destruct F as (kl & Kl & E).
    apply (kinds_none ((if par then [k1 "OPEN_PAR"] else []) ++ (kn :: (if n then [k1 "NOT_"] else []) ++ k1 "IN_" :: k1 "OPEN_PAR" :: kl ++ [k1 "CLOSE_PAR"]) ++ (if par then [k1 "CLOSE_PAR"; kj] else [kj]))).
    + destruct par, n, E as [-> | ->]; vm_compute; reflexivity.
    + cbn [dtest_toks clist flat_map]. apply kinds_app; [destruct par; [apply kind_is; [cbn; tauto|]|]; apply Forall2_nil|]. apply kinds_app.
      * apply kind_is; [cbn; tauto|]. apply kinds_app; [destruct n; [apply kind_is; [cbn; tauto|]|]; apply Forall2_nil|].
        apply kind_is; [cbn; tauto|]. apply kind_is; [cbn; tauto|]. apply kinds_app; [exact Kl|]. apply kind_is; [cbn; tauto|]. apply Forall2_nil.
      * destruct par; [apply kind_is; [cbn; tauto|]|]; apply joint_kinds, T.
  - intros k K. inversion Ls as [|? ? L' Ls']; subst. cbn [dtest_toks]. unfold clist. cbn [flat_map app]. fold (clist lit_toks ls).
    assert (X : forall tl k', (forall cs r, k' cs (comma :: r) = NotFound) -> (forall cs, k' cs (close_ :: tl) = NotFound) ->
       R (Rule "expr" 0) (lit_toks l ++ comma :: lit_toks l' ++ clist lit_toks ls ++ close_ :: tl)
         (fun ca r => R (Star (Seq (Tok "COMMA") (Rule "expr" 0))) r (fun cb r' => k' (ca ++ cb) r')) = NotFound).
    { intros tl k' N E. apply lit_none; [exact L|cbn; tauto|]. intro cs.
      pose proof (lits_none (l' :: ls) (fun cb r' => k' (cs ++ cb) r') tl Ls (fun cb => E _) (fun cb r => N _ r)) as Y.
      unfold clist in Y. cbn [flat_map app] in Y. fold (clist lit_toks ls) in Y. rewrite <- app_assoc in Y. exact Y. }
    assert (Y : forall tl k', (forall cs, k' cs tl = NotFound) ->
       R (Rule "expr" 0) (lit_toks l ++ comma :: lit_toks l' ++ clist lit_toks ls ++ close_ :: tl)
         (fun ca r => R (Seq (Star (Seq (Tok "COMMA") (Rule "expr" 0))) (Tok "CLOSE_PAR")) r (fun cb r' => k' (ca ++ cb) r')) = NotFound).
    { intros tl k' E. apply lit_none; [exact L|cbn; tauto|]. intro cs. rewrite R_seq by (vm_compute; reflexivity).
      pose proof (lits_none (l' :: ls) (fun cb r' => R (Tok "CLOSE_PAR") r' (fun cb0 r'0 => k' (cs ++ cb ++ cb0) r'0)) tl Ls) as Y.
      unfold clist in Y. cbn [flat_map app] in Y. fold (clist lit_toks ls) in Y. rewrite <- app_assoc in Y. apply Y; intros; rewrite R_tok; [apply E|reflexivity]. }
    revert X Y. destruct par, n; cbn [before_in after_in nots app]; repeat (rewrite <- app_assoc; cbn [app]); intros X Y; enter; revert X Y.
    all: destruct l as [?|?|?|? ?]; [| | |cbn [lit_ok lit_words In] in L; each_in L]; cbn [lit_toks app].
    all: try match goal with |- context[mkTok "STRING_LITERAL" ?x] => generalize x; intro text_ end; unfold comma; intros X Y.
    all: lazymatch goal with |- denm _ _ ?l _ = _ => let x := upto_comma l in
      lazymatch l with context[mkTok "MINUS" "-"] => follow (Some on_follow) x 3 (AtRule "expr") | _ => follow (Some on_follow) x 2 (AtRule "expr") end end.
    all: leave; lazymatch goal with |- R _ _ (den _ (FSeq ?b :: ?s)) = _ =>
      change (den k (FSeq b :: s)) with (fun (ca : children) (r : list token) => R b r (fun (cb : children) (r' : list token) => den k s (ca ++ cb) r'));
      lazymatch b with Star _ => apply (X _ (den k s)) | _ => apply (Y _ (den k s)) end end.
    all: intros; clear X Y; destruct t2 as [kd w2], T as [T|T]; cbn [tk] in T; subst kd; lazymatch goal with
    | |- den _ ?s ?cs (mkTok "COMMA" "," :: ?r) = _ => exact (may_false k (Some on_follow) K 2000 (MRet cs) [mkTok "COMMA" ","] s ltac:(vm_compute; reflexivity) ltac:(vm_compute; reflexivity) r)
    | |- den _ ?s ?cs (?a :: ?b :: ?d :: ?r) = _ => exact (may_false k (Some on_follow) K 2000 (MRet cs) [a; b; d] s ltac:(vm_compute; reflexivity) ltac:(vm_compute; reflexivity) r)
    | |- den _ ?s ?cs (?a :: ?b :: ?r) = _ => exact (may_false k (Some on_follow) K 2000 (MRet cs) [a; b] s ltac:(vm_compute; reflexivity) ltac:(vm_compute; reflexivity) r)
    | |- den _ ?s ?cs (?a :: ?r) = _ => exact (may_false k (Some on_follow) K 2000 (MRet cs) [a] s ltac:(vm_compute; reflexivity) ltac:(vm_compute; reflexivity) r)
    end.
Qed.
