(** Texts that are refused whatever follows, found from the kinds of their first tokens. *)
From Verif Require Import GoBase ModelUtil ModelNum ModelFn ModelEbnf ModelGrammar ModelLex ModelQuery ModelVisitor SpecRound FactsBase ProofEbnf ProofMachine ProofParse ProofLex ProofRound
  ProofRound2 ProofRound3 ProofRound4 ProofRound5 ProofRound6 ProofRound7 ProofRound8 ProofRound9 ProofRound10 ProofRefuse ProofTest5.

(** ** Kinds instead of tokens *)

(** frames and modes without the trees read so far *)
Definition bare_frame (f : frame) : frame := match f with FPre _ => FPre [] | FNest n _ => FNest n [] | _ => f end.
Definition bare_mode (m : mode) : mode := match m with MRet _ => MRet [] | _ => m end.
(** can the state succeed, when of each of the next tokens the kind is known to be one of a list? *)
Fixpoint mays (bot : option (list string)) (n : nat) (m : mode) (l : list (list string)) (s : list frame) : bool :=
  match n, l with
  | O, _ | _, [] => true
  | S n', c :: l' =>
      match m with
      | MEval g =>
          match g with
          | Eps => mays bot n' (MRet []) l s
          | Fail => false
          | Tok kind => if existsb (String.eqb kind) c then mays bot n' (MRet []) l' s else false
          | Rule name p => mays bot n' (MEval (rule name p)) l (FRule name :: s)
          | Seq a b => mays bot n' (MEval a) l (FSeq b :: s)
          | Alt a b => if mays bot n' (MEval a) l s then true else mays bot n' (MEval b) l s
          | Star a => if mays bot n' (MEval a) l (FSeq (Star a) :: s) then true else mays bot n' (MRet []) l s
          | StarNG a => if mays bot n' (MRet []) l s then true else mays bot n' (MEval a) l (FSeq (StarNG a) :: s)
          | Lab lb a => mays bot n' (MEval a) l (FLab lb :: s)
          | LeftRec name a b => mays bot n' (MEval a) l (FLeft name b :: s)
          | Wrap a => mays bot n' (MEval a) l (FWrap :: s)
          end
      | MRet cs =>
          match ret [] s with
          | Some (m', s') => mays bot n' (bare_mode m') l (map bare_frame s')
          | None => match bot with Some ks => existsb (fun k => existsb (String.eqb k) ks) c | None => true end
          end
      end
  end.
Lemma ret_bare cs s : match ret cs s with
  | Some (m, s') => exists m' s'', ret [] (map bare_frame s) = Some (m', s'') /\ bare_mode m' = bare_mode m /\ map bare_frame s'' = map bare_frame s'
  | None => ret [] (map bare_frame s) = None end.
Proof.
  assert (P : forall b c s', map bare_frame (push_pre b (map bare_frame s')) = map bare_frame (push_pre c s')).
  { intros b c s'. assert (I : map bare_frame (map bare_frame s') = map bare_frame s') by (rewrite map_map; apply map_ext; intros []; reflexivity).
    destruct s' as [|[] s']; cbn [push_pre map bare_frame] in *; try (f_equal; assumption); try exact I. }
  assert (I : forall s', map bare_frame (map bare_frame s') = map bare_frame s') by (intro s'; rewrite map_map; apply map_ext; intros []; reflexivity).
  destruct s as [|[] s]; cbn [ret map bare_frame]; try reflexivity.
  all: try (do 2 eexists; split; [reflexivity|]; split; [reflexivity|]; first [apply P|apply I|cbn [map bare_frame]; f_equal; apply I]).
Qed.
Lemma bare_some bot : forall n m m0 l s s0 ks, may bot n m l s = true -> Forall2 (fun t c => In (tk t) c) l ks -> m0 = bare_mode m -> s0 = map bare_frame s ->
  mays bot n m0 ks s0 = true.
Proof.
  induction n as [|n IH]; [reflexivity|]. intros m m0 l s s0 ks H F -> ->. destruct F as [|t c l ks T F]; [reflexivity|].
  assert (F' : Forall2 (fun t c => In (tk t) c) (t :: l) (c :: ks)) by (constructor; assumption). cbn [may] in H. cbn [mays].
  destruct m as [g|cs]; cbn [bare_mode].
  - destruct g as [| |kind|name p|a b|a b|a|a|lb a|name a b|a]; try discriminate H;
      try (exact (IH _ _ _ _ _ _ H F' eq_refl eq_refl)).
    + destruct (String.eqb_spec (tk t) kind) as [<-|]; [|discriminate]. replace (existsb (String.eqb (tk t)) c) with true.
      * exact (IH _ _ _ _ _ _ H F eq_refl eq_refl).
      * symmetry. apply existsb_exists. exists (tk t). split; [exact T|apply String.eqb_refl].
    + destruct (may bot n (MEval a) (t :: l) s) eqn:E; [pose proof (IH _ _ _ _ _ _ E F' eq_refl eq_refl) as X; cbn [bare_mode] in X; rewrite X; reflexivity|].
      destruct (mays _ _ _ _ _); [reflexivity|]. exact (IH _ _ _ _ _ _ H F' eq_refl eq_refl).
    + destruct (may bot n (MEval a) (t :: l) (FSeq (Star a) :: s)) eqn:E.
      * rewrite (IH _ (MEval a) _ _ (FSeq (Star a) :: map bare_frame s) _ E F' eq_refl eq_refl); reflexivity.
      * destruct (mays _ _ _ _ _); [reflexivity|]. exact (IH _ _ _ _ _ _ H F' eq_refl eq_refl).
    + destruct (may bot n (MRet []) (t :: l) s) eqn:E; [pose proof (IH _ _ _ _ _ _ E F' eq_refl eq_refl) as X; cbn [bare_mode] in X; rewrite X; reflexivity|].
      destruct (mays _ _ _ _ _); [reflexivity|]. exact (IH _ _ _ _ _ _ H F' eq_refl eq_refl).
  - pose proof (ret_bare cs s) as B. destruct (ret cs s) as [[m' s']|].
    + destruct B as (m1 & s1 & -> & Bm & Bs). exact (IH _ _ _ _ _ _ H F' Bm Bs).
    + rewrite B. destruct bot as [ks'|]; [|reflexivity]. apply existsb_exists. exists (tk t). split; assumption.
Qed.
(** texts whose first tokens have kinds with which nothing can be parsed *)
Lemma mays_refused entries ks ps rest : mays None 5000 (MEval (Rule "parse" 0)) ks [] = false -> good ps -> Forall2 (fun t c => In (tk t) c) (shown ps) ks ->
  parse entries (glue ps ++ " " ++ rest) = Err ErrParse.
Proof.
  intros M G F. apply no_parse.
  - destruct (glue ps); discriminate.
  - intro E. destruct (glue ps) as [|x g]; [discriminate E|]. injection E as _ E. destruct g; discriminate E.
  - rewrite stream_before by exact G.
    apply (may_false at_end None I 5000 (MEval (Rule "parse" 0)) (shown ps) []); [|vm_compute; reflexivity].
    destruct (may _ _ _ _) eqn:E; [|reflexivity]. rewrite (bare_some None _ _ (MEval (Rule "parse" 0)) _ _ [] _ E F eq_refl eq_refl) in M. discriminate M.
Qed.

Local Open Scope string_scope.

(** what may follow the expression after WHERE or ON *)
Definition on_follow : list string := ["WHERE_"; "COMMA"; "JOIN_"; "NATURAL_"; "LEFT_"; "INNER_"; "CROSS_"] ++ where_follow.
Definition can_start (f : token) : Prop := In (tk f) ["IDENTIFIER"; "NUMERIC_LITERAL"; "MINUS"; "OPEN_PAR"].
Definition no_expr (ts : list token) : Prop := forall k, law (Some on_follow) k -> R (Rule "expr" 0) ts k = NotFound.
Ltac each_start H := unfold can_start in H; cbn [In tk] in H; repeat (destruct H as [<-|H]); [..|contradiction].
Ltac by_expr l n := follow (@None (list string)) l n (AtRule "expr"); leave;
  match goal with E : no_expr _ |- _ => apply E end; law_by (I : law None at_end).
Definition delete_ : token := mkTok "DELETE_" "DELETE".
Definition select_ : token := mkTok "SELECT_" "SELECT".
Definition star_ : token := mkTok "STAR" "*".
Definition from_ : token := mkTok "FROM_" "FROM".
Definition join_ : token := mkTok "JOIN_" "JOIN".
Definition on_ : token := mkTok "ON_" "ON".
Lemma delete_none t f rest : can_start f -> no_expr (f :: rest) -> R (Rule "parse" 0) (delete_ :: from_ :: idt t :: where_tok :: f :: rest) at_end = NotFound.
Proof. destruct f as [kd w]. intros H E. enter. each_start H; by_expr [delete_; from_; idt t; where_tok] 0. Qed.
Lemma select_none t f rest : can_start f -> no_expr (f :: rest) -> R (Rule "parse" 0) (select_ :: star_ :: from_ :: idt t :: where_tok :: f :: rest) at_end = NotFound.
Proof.
  destruct f as [kd w]. intros H E. enter. each_start H;
  match goal with |- denm _ _ (_ :: _ :: _ :: _ :: _ :: ?f :: _) _ = _ => by_expr [select_; star_; from_; idt t; where_tok; f] 1 end.
Qed.
Lemma update_none t c l f rest : lit_ok l -> can_start f -> no_expr (f :: rest) ->
  R (Rule "parse" 0) (mkTok "UPDATE_" "UPDATE" :: idt t :: mkTok "SET_" "SET" :: idt c :: mkTok "ASSIGN" "=" :: lit_toks l ++ where_tok :: f :: rest) at_end = NotFound.
Proof.
  destruct f as [kd w]. intros L H E. enter.
  destruct l as [?|?|?|? ?]; [| | |cbn [lit_ok lit_words In] in L; each_in L]; cbn [lit_toks app]; each_start H;
  match goal with |- denm _ _ ?l _ = _ => match l with context[where_tok :: ?f :: rest] => let l' := eval pattern rest in l in
    match l' with ?g _ => let l1 := eval cbn beta in (g (@nil token)) in by_expr l1 1 end end end.
Qed.
Lemma join_none t u f rest : can_start f -> no_expr (f :: rest) ->
  R (Rule "parse" 0) (select_ :: star_ :: from_ :: idt t :: join_ :: idt u :: on_ :: f :: rest) at_end = NotFound.
Proof.
  destruct f as [kd w]. intros H E. enter. each_start H;
  match goal with |- denm _ _ (_ :: _ :: _ :: _ :: _ :: _ :: _ :: ?f :: _) _ = _ => by_expr [select_; star_; from_; idt t; join_; idt u; on_; f] 1 end.
Qed.
