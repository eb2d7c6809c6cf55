(** When the visitor meets a nil context. *)
From Verif Require Import GoBase ModelUtil ModelNum ModelFn ModelQuery ModelEbnf ModelGrammar ModelLex ModelVisitor
  SpecParse SpecPanic ProofEbnf ProofMachine ProofParse.

(** ** What every derivation of a grammar has *)

Inductive want := WSub (r : string) | WTok (ks : list string) | WLab (l : string).
(** every derivation has a child *)
Fixpoint some (g : gram) : bool :=
  match g with
  | Tok _ | Rule _ _ | Wrap _ | Fail => true
  | Seq a b => some a || some b
  | Alt a b => some a && some b
  | Lab _ a => some a
  | _ => false
  end.
Fixpoint always (w : want) (g : gram) : bool :=
  match g with
  | Fail => true
  | Tok k => match w with WTok ks => existsb (String.eqb k) ks | _ => false end
  | Rule n _ => match w with WSub r => String.eqb n r | _ => false end
  | Seq a b => always w a || always w b
  | Alt a b => always w a && always w b
  | Lab l a => match w with WLab m => String.eqb l m && some a | _ => always w a end
  | _ => false
  end.
Definition meets (w : want) (c : string * tree) : Prop :=
  match w with
  | WSub r => is_rule r (snd c) = true
  | WTok ks => exists k, In k ks /\ is_tok k (snd c) = true
  | WLab l => fst c = l
  end.

Lemma some_sound ru g w cs : derives ru g w cs -> some g = true -> cs <> [].
Proof.
  intro D. induction D; cbn [some]; intro H; try discriminate.
  - apply orb_prop in H. intro E. apply app_eq_nil in E. destruct E as [E1 E2], H as [H|H]; [exact (IHD1 H E1)|exact (IHD2 H E2)].
  - apply andb_prop in H. destruct H. auto.
  - apply andb_prop in H. destruct H. auto.
  - intro E. apply map_eq_nil in E. exact (IHD H E).
Qed.
Lemma always_sound ru wt g w cs : derives ru g w cs -> always wt g = true -> exists c, In c cs /\ meets wt c.
Proof.
  intro D. induction D; cbn [always]; intro H; try discriminate.
  - destruct wt as [|ks|]; try discriminate. apply existsb_exists in H. destruct H as (k & I & E).
    apply String.eqb_eq in E. subst k. exists (""%string, Leaf t). split; [left; reflexivity|].
    exists (tk t). split; [exact I|]. cbn. apply String.eqb_refl.
  - destruct wt as [r| |]; try discriminate. apply String.eqb_eq in H. subst.
    exists (""%string, Node r cs). split; [left; reflexivity|]. cbn. apply String.eqb_refl.
  - apply orb_prop in H. destruct H as [H|H]; [destruct (IHD1 H) as (c & I & M)|destruct (IHD2 H) as (c & I & M)];
      exists c; (split; [apply in_or_app; auto|exact M]).
  - apply andb_prop in H. destruct H. auto.
  - apply andb_prop in H. destruct H. auto.
  - destruct wt as [r|ks|m].
    + destruct (IHD H) as (c & I & M). exists (l, snd c). split; [apply (in_map (fun c => (l, snd c))); exact I|exact M].
    + destruct (IHD H) as (c & I & M). exists (l, snd c). split; [apply (in_map (fun c => (l, snd c))); exact I|exact M].
    + apply andb_prop in H. destruct H as [E S]. apply String.eqb_eq in E. subst m.
      pose proof (some_sound _ _ _ _ D S) as N. destruct cs as [|c cs]; [congruence|].
      exists (l, snd c). split; [left; reflexivity|reflexivity].
Qed.

(** ** Every node of a parse tree is derived by its rule *)

Inductive sound : tree -> Prop :=
| sound_leaf t : sound (Leaf t)
| sound_node n cs : (n = "" \/ n = "expr" \/ exists p w, derives rule (rule n p) w cs)%string ->
    Forall (fun c => sound (snd c)) cs -> sound (Node n cs).
Definition sounds (cs : children) : Prop := Forall (fun c => sound (snd c)) cs.

Fixpoint only_expr (g : gram) : bool :=
  match g with
  | Seq a b | Alt a b => only_expr a && only_expr b
  | Star a | StarNG a | Lab _ a | Wrap a => only_expr a
  | LeftRec n a b => String.eqb n "expr" && only_expr a && only_expr b
  | _ => true
  end.
Lemma only_expr_refs : forallb (fun r => only_expr (rule (fst r) (snd r))) the_refs = true.
Proof. vm_compute. reflexivity. Qed.
Lemma only_expr_rule name p : okg (Rule name p) = true -> only_expr (rule name p) = true.
Proof.
  intro O. parts O. apply ref_in in O. pose proof only_expr_refs as H. rewrite forallb_forall in H. exact (H _ O).
Qed.

Lemma sounds_label l cs : sounds cs -> sounds (set_label l cs).
Proof. intro H. unfold sounds, set_label. apply Forall_map. exact H. Qed.
Lemma sounds_nest rounds : forall acc, sounds acc -> sounds rounds -> sounds (nest "expr" acc rounds).
Proof.
  induction rounds as [|[l [t|n cs]] r IH]; intros acc A S; try exact A.
  cbn [nest]. inversion S as [|c r' Sc Sr]; subst. apply IH; [|exact Sr].
  cbn [snd] in Sc. inversion Sc as [|n' cs' _ Scs]; subst.
  constructor; [|exact Scs]. cbn [snd]. constructor; [right; left; reflexivity|exact A].
Qed.
Lemma derives_sound g w cs : derives rule g w cs -> okg g = true -> only_expr g = true -> sounds cs.
Proof.
  intro D. induction D; intros O X.
  - constructor.
  - constructor; [constructor|constructor].
  - constructor; [|constructor]. cbn [snd]. constructor.
    + right. right. exists p, w. exact D.
    + apply IHD; [exact (proj1 (okg_rule _ _ O))|exact (only_expr_rule _ _ O)].
  - apply okg_seq in O. destruct O. cbn [only_expr] in X. apply andb_prop in X. destruct X.
    apply Forall_app. split; [apply IHD1|apply IHD2]; assumption.
  - apply okg_alt in O. destruct O. cbn [only_expr] in X. apply andb_prop in X. destruct X. apply IHD; assumption.
  - apply okg_alt in O. destruct O. cbn [only_expr] in X. apply andb_prop in X. destruct X. apply IHD; assumption.
  - constructor.
  - apply Forall_app. split; [apply IHD1; [exact (proj1 (okg_star _ O))|exact X]|apply IHD2; assumption].
  - constructor.
  - apply Forall_app. split; [apply IHD1; [exact (proj1 (okg_starng _ O))|exact X]|apply IHD2; assumption].
  - apply sounds_label. apply IHD; [exact (okg_lab _ _ O)|exact X].
  - constructor; [|constructor]. cbn [snd]. constructor; [left; reflexivity|].
    apply IHD; [exact (okg_wrap _ O)|exact X].
  - apply okg_leftrec in O. destruct O as (Oa & _ & Ob). cbn [only_expr] in X. apply andb_prop in X.
    destruct X as [X Xb]. apply andb_prop in X. destruct X as [E Xa]. apply String.eqb_eq in E. subst name.
    apply sounds_nest; [apply IHD1; assumption|apply IHD2; assumption].
Qed.

(** a sound node of the rule *)
Definition nd (r : string) (t : tree) : Prop := is_rule r t = true /\ sound t.
Lemma nd_sound r t : nd r t -> sound t. Proof. intros [_ S]. exact S. Qed.

Lemma kids_sound t : sound t -> sounds (kids t).
Proof. intro S. inversion S; subst; [constructor|assumption]. Qed.
Lemma subs_nd r t x : sound t -> In x (subs r t) -> nd r x.
Proof.
  intros S I. unfold subs in I. apply filter_In in I. destruct I as [I E]. split; [exact E|].
  apply in_map_iff in I. destruct I as (c & <- & I). apply kids_sound in S.
  unfold sounds in S. rewrite Forall_forall in S. exact (S _ I).
Qed.
Lemma sub_in r t x : sub r t = Some x -> In x (subs r t).
Proof. unfold sub. destruct (subs r t); cbn; [discriminate|]. intro H. injection H as <-. left. reflexivity. Qed.
Lemma sub_nd r t x : sound t -> sub r t = Some x -> nd r x.
Proof. intros S H. apply (subs_nd r t); [exact S|apply sub_in; exact H]. Qed.
Lemma lab_sound l t x : sound t -> lab l t = Some x -> sound x.
Proof.
  intros S H. apply kids_sound in S. unfold lab, labelled in H.
  destruct (map snd _) as [|y ys] eqn:E; [discriminate|]. cbn in H. injection H as <-.
  assert (I : In y (y :: ys)) by (left; reflexivity). rewrite <- E in I. apply in_map_iff in I.
  destruct I as (c & <- & I). apply filter_In in I. unfold sounds in S. rewrite Forall_forall in S. apply S. tauto.
Qed.

Lemma nd_meets r t wt : nd r t -> r <> ""%string -> r <> "expr"%string -> (forall p, always wt (rule r p) = true) ->
  exists c, In c (kids t) /\ meets wt c.
Proof.
  intros [E S] N1 N2 A. destruct t as [k|n cs]; [discriminate|]. cbn [is_rule] in E. apply String.eqb_eq in E. subst n.
  inversion S as [|n cs' [H|[H|(p & w & D)]] F]; subst; try congruence.
  exact (always_sound _ _ _ _ _ D (A p)).
Qed.
Ltac byrule := first [discriminate | intro; reflexivity].
Lemma has_sub r m t : nd r t -> r <> ""%string -> r <> "expr"%string -> (forall p, always (WSub m) (rule r p) = true) ->
  exists x, sub m t = Some x /\ nd m x.
Proof.
  intros D N1 N2 A. destruct (nd_meets _ _ _ D N1 N2 A) as (c & I & M). cbn [meets] in M.
  assert (H : In (snd c) (subs m t)).
  { unfold subs. apply filter_In. split; [apply in_map; exact I|exact M]. }
  unfold sub. destruct (subs m t) as [|x l] eqn:E; [contradiction|]. exists x. split; [reflexivity|].
  apply (subs_nd m t); [exact (nd_sound _ _ D)|rewrite E; left; reflexivity].
Qed.
Lemma has_lab r l t : nd r t -> r <> ""%string -> r <> "expr"%string -> (forall p, always (WLab l) (rule r p) = true) ->
  exists x, lab l t = Some x /\ sound x.
Proof.
  intros D N1 N2 A. destruct (nd_meets _ _ _ D N1 N2 A) as (c & I & M). cbn [meets] in M.
  destruct (lab l t) as [x|] eqn:E; [exists x; split; [reflexivity|exact (lab_sound _ _ _ (nd_sound _ _ D) E)]|].
  exfalso. unfold lab, labelled in E. destruct (map snd _) eqn:F; [|discriminate].
  apply map_eq_nil in F.
  assert (H : In c (filter (fun c => String.eqb (fst c) l) (kids t))).
  { apply filter_In. split; [exact I|]. rewrite M. apply String.eqb_refl. }
  rewrite F in H. contradiction.
Qed.

(** ** How many child nodes a derivation can have; two stands for many *)

Fixpoint most (f : string -> bool) (g : gram) : nat :=
  match g with
  | Rule n _ => if f n then 1 else 0
  | Wrap _ => if f ""%string then 1 else 0
  | Seq a b => most f a + most f b
  | Alt a b => Nat.max (most f a) (most f b)
  | Star a | StarNG a => if most f a =? 0 then 0 else 2
  | Lab _ a => most f a
  | LeftRec _ _ _ => 2
  | _ => 0
  end.
Definition counted (f : string -> bool) (c : string * tree) : bool :=
  match snd c with Node n _ => f n | Leaf _ => false end.
Lemma counted_label f l cs : length (filter (counted f) (set_label l cs)) = length (filter (counted f) cs).
Proof.
  induction cs as [|[l' [k|n ds]] cs IH]; [reflexivity|exact IH|].
  change (set_label l ((l', Node n ds) :: cs)) with ((l, Node n ds) :: set_label l cs). cbn [filter counted snd].
  destruct (f n); cbn [length]; rewrite IH; reflexivity.
Qed.
Lemma most_sound f g w cs : derives rule g w cs -> most f g < 2 -> length (filter (counted f) cs) <= most f g.
Proof.
  intro D. induction D; cbn [most]; intro L.
  - cbn. lia.
  - cbn. lia.
  - cbn [filter counted snd]. destruct (f name); cbn; lia.
  - rewrite filter_app, app_length. specialize (IHD1 ltac:(lia)). specialize (IHD2 ltac:(lia)). lia.
  - specialize (IHD ltac:(lia)). lia.
  - specialize (IHD ltac:(lia)). lia.
  - cbn. lia.
  - rewrite filter_app, app_length. cbn [most] in IHD2. destruct (most f a =? 0) eqn:E; [|lia].
    apply Nat.eqb_eq in E. specialize (IHD1 ltac:(lia)). specialize (IHD2 ltac:(lia)). lia.
  - cbn. lia.
  - rewrite filter_app, app_length. cbn [most] in IHD2. destruct (most f a =? 0) eqn:E; [|lia].
    apply Nat.eqb_eq in E. specialize (IHD1 ltac:(lia)). specialize (IHD2 ltac:(lia)). lia.
  - rewrite counted_label. exact (IHD L).
  - cbn [filter counted snd]. destruct (f ""%string); cbn; lia.
  - lia.
Qed.
Lemma few_kids r f t : nd r t -> r <> ""%string -> r <> "expr"%string -> (forall p, most f (rule r p) <= 1) ->
  length (filter (counted f) (kids t)) <= 1.
Proof.
  intros [E S] N1 N2 A. destruct t as [k|n cs]; [discriminate|]. cbn [is_rule] in E. apply String.eqb_eq in E. subst n.
  inversion S as [|n cs' [H|[H|(p & w & D)]] F]; subst; try congruence.
  cbn [kids]. pose proof (A p). pose proof (most_sound f _ _ _ D ltac:(lia)). lia.
Qed.
Lemma subs_counted f m cs : f m = true ->
  length (filter (is_rule m) (map snd cs)) <= length (filter (counted f) cs).
Proof.
  intro M. induction cs as [|[l [k|n ds]] cs IH]; [apply Nat.le_refl|exact IH|].
  cbn [map snd filter is_rule counted]. destruct (String.eqb n m) eqn:E.
  - apply String.eqb_eq in E. subst n. rewrite M. cbn [length]. apply le_n_S. exact IH.
  - destruct (f n); [cbn [length]; apply le_S|]; exact IH.
Qed.
Lemma few_subs r f m t : nd r t -> r <> ""%string -> r <> "expr"%string -> (forall p, most f (rule r p) <= 1) -> f m = true ->
  length (subs m t) <= 1.
Proof.
  intros D N1 N2 A M. pose proof (few_kids r f t D N1 N2 A). pose proof (subs_counted f m (kids t) M). unfold subs. lia.
Qed.

(** ** The visitor *)

Definition np {A} (r : result A) : Prop := r <> Panic.
Lemma np_ok {A} (a : A) : np (Ok a). Proof. discriminate. Qed.
Lemma np_bind {A B} (r : result A) (f : A -> result B) : np r -> (forall a, r = Ok a -> np (f a)) -> np (rbind r f).
Proof. intros H K. destruct r; cbn [rbind]; [exact (K _ eq_refl)|discriminate|congruence]. Qed.
Lemma panic_bind {A B} (r : result A) (f : A -> result B) : no_err r ->
  (rbind r f = Panic <-> r = Panic \/ exists a, r = Ok a /\ f a = Panic).
Proof.
  intro N. destruct r as [a|e|]; cbn [rbind].
  - split; [intro H; right; exists a; auto|]. intros [H|(b & E & H)]; [discriminate|]. injection E as <-. exact H.
  - exfalso. exact (N e eq_refl).
  - split; [left; reflexivity|reflexivity].
Qed.
Lemma np_collect {A B} (f : A -> result B) l : (forall x, In x l -> np (f x)) -> np (collect f l).
Proof.
  induction l as [|x l IH]; intro H; cbn [collect]; [apply np_ok|].
  apply np_bind; [apply H; left; reflexivity|]. intros y _. apply np_bind; [apply IH; intros z I; apply H; right; exact I|].
  intros ys _. apply np_ok.
Qed.
Lemma panic_collect {A B} (f : A -> result B) l : (forall x, no_err (f x)) ->
  (collect f l = Panic <-> exists x, In x l /\ f x = Panic).
Proof.
  intro N. induction l as [|x l IH]; cbn [collect].
  - split; [discriminate|]. intros (x & [] & _).
  - rewrite panic_bind by apply N. split.
    + intros [H|(y & E & H)]; [exists x; split; [left; reflexivity|exact H]|].
      apply panic_bind in H; [|apply ne_collect; exact N]. destruct H as [H|(ys & _ & H)]; [|discriminate].
      apply IH in H. destruct H as (z & I & H). exists z. split; [right; exact I|exact H].
    + intros (z & [->|I] & H); [left; exact H|]. destruct (f x) as [y|e|] eqn:E; [|exfalso; exact (N _ _ E)|left; reflexivity].
      right. exists y. split; [reflexivity|]. assert (collect f l = Panic) as -> by (apply IH; exists z; auto). reflexivity.
Qed.

(** the text of a child that the rule always has *)
Ltac have r m t D := let x := fresh "x" in let E := fresh "E" in let X := fresh "X" in
  destruct (has_sub r m t D ltac:(byrule) ltac:(byrule) ltac:(byrule)) as (x & E & X); rewrite ?E.
Ltac havel r l t D := let x := fresh "x" in let E := fresh "E" in let X := fresh "X" in
  destruct (has_lab r l t D ltac:(byrule) ltac:(byrule) ltac:(byrule)) as (x & E & X); rewrite ?E.
Ltac ok := unfold name_of, text_of; cbn [need rbind].

Lemma cmp_read t : nd "comparison_expr" t -> exists e, v_cmp t = Ok (Some e).
Proof.
  intro D. unfold v_cmp. have "comparison_expr" "column_name" t D. ok.
  assert (v_operator t <> None) as O.
  { destruct (nd_meets _ _ (WTok ["ASSIGN"; "NOT_EQ1"; "NOT_EQ2"; "LT"; "LT_EQ"; "GT"; "GT_EQ"]%string) D
                ltac:(byrule) ltac:(byrule) ltac:(byrule)) as (c & I & k & K & M).
    assert (T : has_tok k t = true).
    { unfold has_tok. apply existsb_exists. exists (snd c). split; [apply in_map; exact I|exact M]. }
    unfold v_operator. cbn [In] in K.
    repeat (destruct K as [<-|K]; [rewrite T; rewrite ?orb_true_r; cbn [orb];
      repeat match goal with |- context [if ?b then _ else _] => destruct b end; discriminate|]). contradiction. }
  destruct (v_operator t); [|congruence]. eexists. reflexivity.
Qed.
Lemma derives_lab_inv l a w cs : derives rule (Lab l a) w cs -> exists ds, derives rule a w ds /\ cs = set_label l ds.
Proof. intro D. inversion D; subst. eexists; split; [eassumption|reflexivity]. Qed.
Lemma pair_kids r k t :
  (forall p, rule r p = seq [Lab "left" (Rule "comparison_expr" 0); Tok k; Lab "right" (Rule "comparison_expr" 0)]) ->
  nd r t -> r <> ""%string -> r <> "expr"%string ->
  exists a b, lab "left" t = Some a /\ lab "right" t = Some b /\ nd "comparison_expr" a /\ nd "comparison_expr" b.
Proof.
  intros Q [E S] N1 N2. destruct t as [?|n cs]; [discriminate|]. cbn [is_rule] in E. apply String.eqb_eq in E. subst n.
  inversion S as [|n cs' [H|[H|(p & w & D)]] F]; subst; try congruence.
  rewrite Q in D. cbn [seq] in D. inversion D as [| | |x1 x2 u v c1 c2 D1 D2| | | | | | | | |]; subst.
  inversion D2 as [| | |x3 x4 u' v' c3 c4 D3 D4| | | | | | | | |]; subst.
  apply derives_lab_inv in D1. destruct D1 as (d1 & D1 & ->). apply derives_lab_inv in D4. destruct D4 as (d4 & D4 & ->).
  destruct (derives_rule_inv _ _ _ _ D1) as (e1 & -> & _). destruct (derives_rule_inv _ _ _ _ D4) as (e4 & -> & _).
  inversion D3; subst. cbn [set_label map app snd] in *.
  exists (Node "comparison_expr" e1), (Node "comparison_expr" e4).
  split; [reflexivity|]. split; [reflexivity|].
  inversion F as [|? ? Fa F']; subst. inversion F' as [|? ? _ F'']; subst. inversion F'' as [|? ? Fb _]; subst.
  split; (split; [reflexivity|assumption]).
Qed.
Lemma pair_read mk r k t :
  (forall p, rule r p = seq [Lab "left" (Rule "comparison_expr" 0); Tok k; Lab "right" (Rule "comparison_expr" 0)]) ->
  nd r t -> r <> ""%string -> r <> "expr"%string -> np (v_pair mk t).
Proof.
  intros Q D N1 N2. destruct (pair_kids r k t Q D N1 N2) as (a & b & La & Lb & Da & Db).
  unfold v_pair. rewrite La, Lb. cbn [need rbind].
  destruct (cmp_read a Da) as (x & ->). cbn [rbind]. destruct (cmp_read b Db) as (y & ->). cbn [rbind]. discriminate.
Qed.
Lemma expr_read t : sound t -> np (v_expr t).
Proof.
  intro S. unfold v_expr. destruct (sub "and_expr" t) as [a|] eqn:E.
  - apply (pair_read _ "and_expr" "AND_"); try byrule. exact (sub_nd _ _ _ S E).
  - destruct (sub "or_expr" t) as [o|] eqn:E'.
    + apply (pair_read _ "or_expr" "OR_"); try byrule. exact (sub_nd _ _ _ S E').
    + destruct (sub "comparison_expr" t) as [c|] eqn:E''; [|apply np_ok].
      destruct (cmp_read c (sub_nd _ _ _ S E'')) as (e & ->). apply np_ok.
Qed.
Lemma where_read t : sound t -> np (v_where (lab "whereExpr" t)).
Proof.
  intro S. unfold v_where. destruct (lab "whereExpr" t) as [w|] eqn:E; [|apply np_ok].
  apply expr_read. exact (lab_sound _ _ _ S E).
Qed.

Section Types.
  Context (entries : list (dtype * string)).

  Lemma column_read t : nd "column_def" t -> np (v_column entries t).
  Proof.
    intro D. unfold v_column. have "column_def" "column_name" t D. ok. cbv zeta.
    destruct (existsb _ _); [apply np_ok|]. destruct (sub "type_name" t); [|apply np_ok].
    destruct (_ ++ _); apply np_ok.
  Qed.
  Lemma index_defs_read t : nd "column_def" t -> np (v_index_defs t).
  Proof. intro D. unfold v_index_defs. have "column_def" "column_name" t D. ok. apply np_ok. Qed.
  Lemma column_def_read acc t : nd "column_def" t -> np (v_column_def entries acc t).
  Proof.
    intro D. unfold v_column_def. destruct acc as [cols idxs]. apply np_bind; [apply column_read; exact D|].
    intros c _. have "column_def" "column_name" t D.
    destruct c; ok;
      (destruct (String.eqb (text x) "PRIMARY"); [apply np_bind; [apply index_defs_read; exact D|intros; apply np_ok]|];
       destruct (String.eqb (text x) "KEY" || String.eqb (text x) "INDEX");
       [apply np_bind; [apply index_defs_read; exact D|intros; apply np_ok]|apply np_ok]).
  Qed.
  Lemma column_defs_read l : forall acc, (forall x, In x l -> nd "column_def" x) -> np (v_column_defs entries acc l).
  Proof.
    induction l as [|t l IH]; intros acc H; cbn [v_column_defs]; [apply np_ok|].
    apply np_bind; [apply column_def_read, H; left; reflexivity|]. intros acc' _. apply IH. intros x I. apply H. right. exact I.
  Qed.
  Lemma add_index_read t : nd "add_table_index" t -> np (v_add_index t).
  Proof.
    intro D. unfold v_add_index. apply np_bind; [|intros; apply np_ok].
    destruct (sub "column_constraint" t) as [k|] eqn:E; [|apply np_ok].
    pose proof (sub_nd _ _ _ (nd_sound _ _ D) E) as K.
    destruct (sub "index_constraint" k) as [i|] eqn:E'; [|apply np_ok].
    pose proof (sub_nd _ _ _ (nd_sound _ _ K) E') as Di.
    have "index_constraint" "index_name" i Di. ok. apply np_ok.
  Qed.
  Lemma alter_read t : nd "alter_table_stmt" t -> np (v_alter_table entries t).
  Proof.
    intro D. pose proof (nd_sound _ _ D) as S. unfold v_alter_table. cbv zeta.
    apply np_bind.
    { destruct (sub "rename_table_to" t) as [r|] eqn:E; [|apply np_ok].
      pose proof (sub_nd _ _ _ S E) as K. have "rename_table_to" "table_name" r K. ok. apply np_ok. }
    intros rt _. apply np_bind.
    { destruct (sub "rename_table_colum" t) as [r|] eqn:E; [|apply np_ok].
      pose proof (sub_nd _ _ _ S E) as K. havel "rename_table_colum" "old_column_name" r K. ok.
      havel "rename_table_colum" "new_column_name" r K. ok. apply np_ok. }
    intros rc _. apply np_bind.
    { destruct (sub "add_table_column" t) as [r|] eqn:E; [|apply np_ok].
      pose proof (sub_nd _ _ _ S E) as K. have "add_table_column" "column_def" r K. ok. apply column_read. exact X. }
    intros ac _. apply np_bind.
    { destruct (sub "add_table_index" t) as [r|] eqn:E; [|apply np_ok].
      pose proof (sub_nd _ _ _ S E) as K. apply np_bind; [apply add_index_read; exact K|intros; apply np_ok]. }
    intros ai _. havel "alter_table_stmt" "target_table_name" t D. ok. apply np_ok.
  Qed.
  Lemma row_read es : forall names, (forall e, In e es -> sound e) -> np (v_row names es).
  Proof.
    induction es as [|e es IH]; intros names H; cbn [v_row]; [apply np_ok|].
    assert (K : forall ns, np (v_row ns es)) by (intro ns; apply IH; intros x I; apply H; right; exact I).
    destruct (sub "comparison_expr" e) as [c|] eqn:E.
    - pose proof (sub_nd _ _ _ (H _ (or_introl eq_refl)) E) as D. have "comparison_expr" "column_name" c D. ok.
      apply np_bind; [apply K|intros; apply np_ok].
    - cbv zeta. destruct (match sub "literal_value" e with Some l => _ | None => _ end); [|apply K].
      destruct names as [|n ns]; [apply K|]. apply np_bind; [apply K|intros; apply np_ok].
  Qed.
  Lemma selector_read t : sound t -> np (v_selector t).
  Proof.
    intro S. unfold v_selector. cbv zeta. destruct (sub "expr" t) as [e|] eqn:E; [|apply np_ok].
    destruct (sub "function" e) as [f|] eqn:E'; [|apply np_ok].
    pose proof (sub_nd _ _ _ (nd_sound _ _ (sub_nd _ _ _ S E)) E') as D.
    have "function" "function_name" f D. ok. apply np_ok.
  Qed.
  Lemma order_read t : nd "ordering_term" t -> np (v_order t).
  Proof. intro D. unfold v_order. have "ordering_term" "expr" t D. ok. apply np_ok. Qed.
  Lemma select_read t : nd "select_stmt" t -> np (v_select t).
  Proof.
    intro D. pose proof (nd_sound _ _ D) as S. unfold v_select. cbv zeta.
    destruct (lab "parentQuery" t) as [q|] eqn:E.
    - pose proof (lab_sound _ _ _ S E) as Sq.
      apply np_bind; [apply np_collect; intros x I; apply selector_read, (nd_sound "result_column"), (subs_nd _ q); assumption|].
      intros sels _. apply np_bind; [apply where_read; exact Sq|]. intros w _. apply np_bind; [|intros; apply np_ok].
      destruct (sub "order_by_stmt" t) as [o|] eqn:Eo; [|apply np_ok]. apply np_bind; [|intros; apply np_ok].
      apply np_collect. intros x I. apply order_read. apply (subs_nd _ o); [|exact I].
      exact (nd_sound _ _ (sub_nd _ _ _ S Eo)).
    - cbn [rbind]. apply np_bind; [|intros; apply np_ok].
      destruct (sub "order_by_stmt" t) as [o|] eqn:Eo; [|apply np_ok]. apply np_bind; [|intros; apply np_ok].
      apply np_collect. intros x I. apply order_read. apply (subs_nd _ o); [|exact I].
      exact (nd_sound _ _ (sub_nd _ _ _ S Eo)).
  Qed.
  Lemma delete_read t : nd "delete_stmt" t -> np (v_delete t).
  Proof.
    intro D. unfold v_delete. havel "delete_stmt" "table" t D. ok.
    apply np_bind; [apply where_read, (nd_sound _ _ D)|intros; apply np_ok].
  Qed.
  Lemma copy_read t : nd "copy_stmt" t -> np (v_copy t).
  Proof.
    intro D. unfold v_copy. cbv zeta. apply np_bind.
    { destruct (sub "copy_format" t) as [f|] eqn:E; [|apply np_ok].
      pose proof (sub_nd _ _ _ (nd_sound _ _ D) E) as K. havel "copy_format" "format_type" f K. ok. apply np_ok. }
    intros fmt _. havel "copy_stmt" "table" t D. ok. have "copy_stmt" "source_name" t D. ok. apply np_ok.
  Qed.

  (** ** Where the visitor does panic *)

  Lemma below1 r t x : below [r] t x <-> In x (subs r t).
  Proof.
    split.
    - intro H. inversion H as [|r' path n cs l ds y I B]; subst. inversion B; subst. unfold subs. apply filter_In.
      split; [apply (in_map snd) in I; exact I|]. cbn. apply String.eqb_refl.
    - intro I. unfold subs in I. apply filter_In in I. destruct I as [I E]. apply in_map_iff in I.
      destruct I as ((l, y) & <- & I). cbn [snd] in *. destruct y as [k|n ds]; [discriminate|].
      cbn [is_rule] in E. apply String.eqb_eq in E. subst n. destruct t as [k|n cs]; [contradiction|].
      eapply below_down; [exact I|constructor].
  Qed.
  Lemma below_cons r path t x : below (r :: path) t x <-> exists y, In y (subs r t) /\ below path y x.
  Proof.
    split.
    - intro H. inversion H as [|r' path' n cs l ds y I B]; subst. exists (Node r ds). split; [|exact B].
      apply below1. eapply below_down; [exact I|constructor].
    - intros (y & I & B). apply below1 in I. inversion I as [|r' path' n cs l ds z J B']; subst. inversion B'; subst.
      eapply below_down; [exact J|exact B].
  Qed.
  Lemma without_sub r t : without r t <-> sub r t = None.
  Proof.
    unfold without. split.
    - intro H. destruct (sub r t) as [x|] eqn:E; [|reflexivity]. exfalso. apply (H x). apply below1, sub_in, E.
    - intros E x B. apply below1 in B. unfold sub in E. destruct (subs r t); [contradiction|discriminate].
  Qed.

  Lemma name_panic t : name_of (sub "column_name" t) = Panic <-> without "column_name" t.
  Proof.
    rewrite without_sub. unfold name_of, text_of. destruct (sub "column_name" t); cbn; split; congruence.
  Qed.
  Lemma insert_panic t : nd "insert_stmt" t -> (v_insert t = Panic <-> without "values_clause" t).
  Proof.
    intro D. rewrite without_sub. unfold v_insert. have "insert_stmt" "table_name" t D. ok.
    destruct (sub "values_clause" t) as [vc|] eqn:Ev; cbn [need rbind]; [|split; reflexivity].
    split; [|discriminate]. intro H. exfalso. revert H. apply np_bind; [|intros; apply np_ok].
    apply np_collect. intros row I. apply row_read. intros e J.
    pose proof (sub_nd _ _ _ (nd_sound _ _ D) Ev) as K. pose proof (subs_nd _ _ _ (nd_sound _ _ K) I) as R.
    exact (nd_sound _ _ (subs_nd _ _ _ (nd_sound _ _ R) J)).
  Qed.
  Lemma set_panic t : nd "update_column_set" t -> (v_set t = Panic <-> without "column_name" t).
  Proof.
    intro D. rewrite without_sub. unfold v_set. destruct (sub "column_name" t) as [c|]; ok; [|split; reflexivity].
    split; [|discriminate]. intro H. exfalso. revert H. have "update_column_set" "expr" t D. cbn [need rbind].
    destruct (sub "literal_value" x); [apply np_ok|]. destruct (sub "bind_param" x); [apply np_ok|].
    destruct (sub "arithmetic_expr" x) as [a|] eqn:Ea; [|apply np_ok].
    pose proof (sub_nd _ _ _ (nd_sound _ _ X) Ea) as K.
    havel "arithmetic_expr" "ope" a K. ok. have "arithmetic_expr" "column_name" a K. ok.
    have "arithmetic_expr" "expr" a K. ok. apply np_ok.
  Qed.
  Lemma update_panic t : nd "update_stmt" t ->
    (v_update t = Panic <-> exists x, below ["update_column_set"]%string t x /\ without "column_name" x).
  Proof.
    intro D. unfold v_update. havel "update_stmt" "table" t D. ok.
    rewrite panic_bind by (apply ne_collect; apply ne_set). rewrite panic_collect by apply ne_set.
    split.
    - intros [(y & I & H)|(cs & _ & H)].
      + exists y. split; [apply below1; exact I|]. apply set_panic; [|exact H]. exact (subs_nd _ _ _ (nd_sound _ _ D) I).
      + exfalso. revert H. apply np_bind; [apply where_read, (nd_sound _ _ D)|intros; apply np_ok].
    - intros (y & I & H). left. apply below1 in I. exists y. split; [exact I|].
      apply set_panic; [exact (subs_nd _ _ _ (nd_sound _ _ D) I)|exact H].
  Qed.
  Lemma indexed_panic t : v_indexed_column entries t = Panic <-> without "column_name" t.
  Proof.
    unfold v_indexed_column. rewrite panic_bind by apply ne_name. rewrite name_panic.
    split; [intros [H|(a & _ & H)]; [exact H|discriminate]|left; assumption].
  Qed.
  Lemma constraint_panic t : nd "table_constraint" t ->
    (v_table_constraint entries t = Panic <->
     exists x, below ["primary_key_def"; "indexed_column"]%string t x /\ without "column_name" x).
  Proof.
    intro D. unfold v_table_constraint.
    assert (U : length (subs "primary_key_def" t) <= 1).
    { apply (few_subs "table_constraint" (String.eqb "primary_key_def")); [exact D|discriminate|discriminate|intro p; vm_compute; auto|].
      apply String.eqb_refl. }
    destruct (sub "primary_key_def" t) as [p|] eqn:E.
    - rewrite panic_bind by (apply ne_collect; apply ne_indexed). rewrite panic_collect by apply ne_indexed. split.
      + intros [(x & I & H)|(cs & _ & H)]; [|discriminate]. exists x. split; [|apply indexed_panic; exact H].
        apply below_cons. exists p. split; [apply sub_in; exact E|apply below1; exact I].
      + intros (x & B & W). left. exists x. split; [|apply indexed_panic; exact W].
        apply below_cons in B. destruct B as (p' & I & B). apply below1 in B.
        pose proof (sub_in _ _ _ E) as I'. destruct (subs "primary_key_def" t) as [|y [|z l]]; [contradiction| |cbn in U; lia].
        destruct I as [->|[]], I' as [->|[]]. exact B.
    - split; [discriminate|]. intros (x & B & _). exfalso. apply below_cons in B. destruct B as (p & I & _).
      unfold sub in E. destruct (subs "primary_key_def" t); [contradiction|discriminate].
  Qed.
  Lemma table_panic t : nd "create_table_stmt" t ->
    (v_table_schema entries t = Panic <->
     exists x, below ["table_constraint"; "primary_key_def"; "indexed_column"]%string t x /\ without "column_name" x).
  Proof.
    intro D. unfold v_table_schema. have "create_table_stmt" "table_name" t D. ok.
    assert (Q : np (v_column_defs entries ([], []) (subs "column_def" t))).
    { apply column_defs_read. intros y I. exact (subs_nd _ _ _ (nd_sound _ _ D) I). }
    destruct (v_column_defs entries ([], []) (subs "column_def" t)) as [ci|e|] eqn:Ec; [|exfalso; exact (ne_column_defs entries _ _ _ Ec)|congruence].
    cbn [rbind]. rewrite panic_bind by (apply ne_collect; apply ne_table_constraint).
    rewrite panic_collect by apply ne_table_constraint. split.
    - intros [(y & I & H)|(cs & _ & H)]; [|discriminate].
      apply constraint_panic in H; [|exact (subs_nd _ _ _ (nd_sound _ _ D) I)]. destruct H as (z & B & W).
      exists z. split; [|exact W]. apply below_cons. exists y. auto.
    - intros (z & B & W). left. apply below_cons in B. destruct B as (y & I & B). exists y. split; [exact I|].
      apply constraint_panic; [exact (subs_nd _ _ _ (nd_sound _ _ D) I)|]. exists z. auto.
  Qed.
  Lemma index_panic t : nd "create_index_stmt" t ->
    (v_index_schema t = Panic <-> exists x, below ["indexed_column"]%string t x /\ without "column_name" x).
  Proof.
    intro D. unfold v_index_schema. have "create_index_stmt" "index_name" t D. ok.
    have "create_index_stmt" "table_name" t D. ok.
    assert (N : forall c, no_err (rbind (name_of (sub "column_name" c)) (fun n => Ok (new_column n)))).
    { intro c. apply ne_bind; [apply ne_name|intro; apply ne_ok]. }
    rewrite panic_bind by (apply ne_collect; exact N). rewrite panic_collect by exact N.
    assert (P : forall c, rbind (name_of (sub "column_name" c)) (fun n => Ok (new_column n)) = Panic <-> without "column_name" c).
    { intro c. rewrite panic_bind by apply ne_name. rewrite name_panic.
      split; [intros [H|(a & _ & H)]; [exact H|discriminate]|left; assumption]. }
    split.
    - intros [(y & I & H)|(cs & _ & H)]; [|discriminate]. exists y. split; [apply below1; exact I|apply P; exact H].
    - intros (y & I & H). left. apply below1 in I. exists y. split; [exact I|apply P; exact H].
  Qed.

  Lemma alone a b t s : nd "sql_stmt" t -> sub a t = Some s -> a <> b -> subs b t = [].
  Proof.
    intros D E N. apply sub_in in E. destruct (subs b t) as [|y l] eqn:F; [reflexivity|exfalso].
    assert (I : In y (subs b t)) by (rewrite F; left; reflexivity). clear F.
    pose proof (few_kids "sql_stmt" (fun _ => true) t D ltac:(byrule) ltac:(byrule) ltac:(intro; vm_compute; auto)) as L.
    unfold subs in E, I. apply filter_In in E, I. destruct E as [E Ra], I as [I Rb].
    apply in_map_iff in E, I. destruct E as (c & <- & E), I as (d & <- & I).
    assert (Ec : In c (filter (counted (fun _ => true)) (kids t))).
    { apply filter_In. split; [exact E|]. unfold counted. destruct (snd c); [discriminate|reflexivity]. }
    assert (Id : In d (filter (counted (fun _ => true)) (kids t))).
    { apply filter_In. split; [exact I|]. unfold counted. destruct (snd d); [discriminate|reflexivity]. }
    destruct (filter _ (kids t)) as [|z [|z' r]]; [contradiction| |cbn in L; lia].
    destruct Ec as [->|[]], Id as [->|[]]. destruct (snd d) as [|n ds]; [discriminate|].
    cbn [is_rule] in Ra, Rb. apply String.eqb_eq in Ra, Rb. congruence.
  Qed.
  Lemma only_sub a t s x : nd "sql_stmt" t -> sub a t = Some s -> In x (subs a t) -> x = s.
  Proof.
    intros D E I. apply sub_in in E.
    pose proof (few_subs "sql_stmt" (fun _ => true) a t D ltac:(byrule) ltac:(byrule) ltac:(intro; vm_compute; auto) eq_refl) as L.
    destruct (subs a t) as [|y [|z l]]; [contradiction| |cbn in L; lia].
    destruct E as [->|[]], I as [->|[]]. reflexivity.
  Qed.

  (** some node at the end of the path does not have a child of the rule *)
  Definition lacks (path : list string) (r : string) (t : tree) : Prop := exists x, below path t x /\ without r x.
  Lemma lacks_cons a path r t : lacks (a :: path) r t <-> exists y, In y (subs a t) /\ lacks path r y.
  Proof.
    unfold lacks. split.
    - intros (x & B & W). apply below_cons in B. destruct B as (y & I & B). exists y. split; [exact I|]. exists x. auto.
    - intros (y & I & x & B & W). exists x. split; [apply below_cons; exists y; auto|exact W].
  Qed.
  Lemma lacks_at a path r t s : nd "sql_stmt" t -> sub a t = Some s -> (lacks (a :: path) r t <-> lacks path r s).
  Proof.
    intros D E. rewrite lacks_cons. split.
    - intros (y & I & L). rewrite <- (only_sub _ _ _ _ D E I). exact L.
    - intro L. exists s. split; [apply sub_in; exact E|exact L].
  Qed.
  Lemma lacks_not a b path r t s : nd "sql_stmt" t -> sub a t = Some s -> a <> b -> ~ lacks (b :: path) r t.
  Proof. intros D E N L. apply lacks_cons in L. destruct L as (y & I & _). rewrite (alone _ _ _ _ D E N) in I. contradiction. Qed.
  Lemma lacks_none a path r t : sub a t = None -> ~ lacks (a :: path) r t.
  Proof.
    intros E L. apply lacks_cons in L. destruct L as (y & I & _). unfold sub in E. destruct (subs a t); [contradiction|discriminate].
  Qed.
  Lemma lacks_here r t : lacks [] r t <-> without r t.
  Proof.
    unfold lacks. split; [intros (x & B & W); inversion B; subst; exact W|]. intro W. exists t. split; [constructor|exact W].
  Qed.

  Definition bad_stmt (t : tree) : Prop :=
    lacks ["insert_stmt"] "values_clause" t
    \/ lacks ["create_index_stmt"; "indexed_column"] "column_name" t
    \/ lacks ["create_table_stmt"; "table_constraint"; "primary_key_def"; "indexed_column"] "column_name" t
    \/ lacks ["update_stmt"; "update_column_set"] "column_name" t.

  Lemma some_panic {A} (r : result A) (g : A -> stmt) : rbind (rbind r (fun x => Ok (g x))) (fun x => Ok (Some x)) = Panic <-> r = Panic.
  Proof. destruct r; cbn; split; congruence. Qed.
  Lemma some_panic' (r : result stmt) : rbind r (fun x => Ok (Some x)) = Panic <-> r = Panic.
  Proof. destruct r; cbn; split; congruence. Qed.

  Ltac elsewhere D E := exfalso; match goal with H : bad_stmt _ |- _ =>
    destruct H as [H|[H|[H|H]]]; revert H; apply (lacks_not _ _ _ _ _ _ D E); discriminate end.
  Ltac fine D E := split; [let H := fresh in intro H; exfalso; revert H|intro; elsewhere D E].
  Ltac here D E := unfold bad_stmt; rewrite (lacks_at _ _ _ _ _ D E); rewrite <- ?lacks_here;
    split; [auto|]; intros [H|[H|[H|H]]]; try exact H; exfalso; revert H; apply (lacks_not _ _ _ _ _ _ D E); discriminate.

  Lemma statement_panic t : nd "sql_stmt" t -> (v_statement entries t = Panic <-> bad_stmt t).
  Proof.
    intro D. pose proof (nd_sound _ _ D) as S. unfold v_statement. cbv zeta.
    destruct (sub "create_database_stmt" t) as [s|] eqn:E1.
    { pose proof (sub_nd _ _ _ S E1) as K. have "create_database_stmt" "database_name" s K. ok. fine D E1. discriminate. }
    destruct (sub "create_table_stmt" t) as [s|] eqn:E2.
    { pose proof (sub_nd _ _ _ S E2) as K. rewrite some_panic, table_panic by exact K.
      change (lacks ["table_constraint"; "primary_key_def"; "indexed_column"] "column_name" s <-> bad_stmt t). here D E2. }
    destruct (sub "create_index_stmt" t) as [s|] eqn:E3.
    { pose proof (sub_nd _ _ _ S E3) as K. rewrite some_panic, index_panic by exact K.
      change (lacks ["indexed_column"] "column_name" s <-> bad_stmt t). here D E3. }
    destruct (sub "drop_database_stmt" t) as [s|] eqn:E4.
    { pose proof (sub_nd _ _ _ S E4) as K. have "drop_database_stmt" "database_name" s K. ok. fine D E4. discriminate. }
    destruct (sub "drop_table_stmt" t) as [s|] eqn:E5.
    { fine D E5. discriminate. }
    destruct (sub "drop_index_stmt" t) as [s|] eqn:E6.
    { pose proof (sub_nd _ _ _ S E6) as K. have "drop_index_stmt" "index_name" s K. ok. fine D E6. discriminate. }
    destruct (sub "alter_database_stmt" t) as [s|] eqn:E7.
    { pose proof (sub_nd _ _ _ S E7) as K. have "alter_database_stmt" "database_name" s K. ok.
      destruct (sub "rename_database_to" s) as [r|] eqn:Er.
      - pose proof (sub_nd _ _ _ (nd_sound _ _ K) Er) as Kr. havel "rename_database_to" "new_database_name" r Kr. ok. fine D E7. discriminate.
      - ok. fine D E7. discriminate. }
    destruct (sub "alter_table_stmt" t) as [s|] eqn:E8.
    { pose proof (sub_nd _ _ _ S E8) as K. rewrite some_panic'. fine D E8. apply alter_read. exact K. }
    destruct (sub "insert_stmt" t) as [s|] eqn:E9.
    { pose proof (sub_nd _ _ _ S E9) as K. rewrite some_panic', insert_panic, <- lacks_here by exact K. here D E9. }
    destruct (sub "update_stmt" t) as [s|] eqn:E10.
    { pose proof (sub_nd _ _ _ S E10) as K. rewrite some_panic', update_panic by exact K.
      change (lacks ["update_column_set"] "column_name" s <-> bad_stmt t). here D E10. }
    assert (NB : ~ bad_stmt t).
    { intros [H|[H|[H|H]]]; revert H; apply lacks_none; assumption. }
    match goal with |- ?r = Panic <-> _ => enough (Q : np r) by (split; [intro H; contradiction|intro H; contradiction]) end.
    destruct (sub "select_stmt" t) as [s|] eqn:E11.
    { apply np_bind; [apply select_read; exact (sub_nd _ _ _ S E11)|intros; apply np_ok]. }
    destruct (sub "delete_stmt" t) as [s|] eqn:E12.
    { apply np_bind; [apply delete_read; exact (sub_nd _ _ _ S E12)|intros; apply np_ok]. }
    destruct (sub "commit_stmt" t); [apply np_ok|]. destruct (sub "begin_stmt" t); [apply np_ok|].
    destruct (sub "rollback_stmt" t); [apply np_ok|].
    destruct (sub "use_stmt" t) as [s|] eqn:E13.
    { pose proof (sub_nd _ _ _ S E13) as K. have "use_stmt" "database_name" s K. ok. apply np_ok. }
    destruct (sub "copy_stmt" t) as [s|] eqn:E14.
    { apply np_bind; [apply copy_read; exact (sub_nd _ _ _ S E14)|intros; apply np_ok]. }
    destruct (sub "truncate_stmt" t); [apply np_ok|]. destruct (sub "vacuum_stmt" t); apply np_ok.
  Qed.

  Lemma unreadable_lacks t : unreadable t <-> exists s x, In s (subs "sql_stmt_list" t) /\ In x (subs "sql_stmt" s) /\ bad_stmt x.
  Proof.
    assert (P : forall path r, lacks ("sql_stmt_list" :: "sql_stmt" :: path) r t <->
                exists s x, In s (subs "sql_stmt_list" t) /\ In x (subs "sql_stmt" s) /\ lacks path r x).
    { intros path r. rewrite lacks_cons. split.
      - intros (s & I & L). apply lacks_cons in L. destruct L as (x & J & L). exists s, x. auto.
      - intros (s & x & I & J & L). exists s. split; [exact I|]. apply lacks_cons. exists x. auto. }
    unfold unreadable, bad_stmt, insert_without_values, index_on_expression, update_of_a_list.
    fold (lacks ["sql_stmt_list"; "sql_stmt"; "insert_stmt"] "values_clause" t).
    fold (lacks ["sql_stmt_list"; "sql_stmt"; "update_stmt"; "update_column_set"] "column_name" t).
    assert (Q : (exists x, (below ["sql_stmt_list"; "sql_stmt"; "create_index_stmt"; "indexed_column"]%string t x
             \/ below ["sql_stmt_list"; "sql_stmt"; "create_table_stmt"; "table_constraint"; "primary_key_def";
                       "indexed_column"]%string t x) /\ without "column_name" x)
      <-> lacks ["sql_stmt_list"; "sql_stmt"; "create_index_stmt"; "indexed_column"] "column_name" t
          \/ lacks ["sql_stmt_list"; "sql_stmt"; "create_table_stmt"; "table_constraint"; "primary_key_def"; "indexed_column"] "column_name" t).
    { unfold lacks. split; [intros (x & [B|B] & W); [left|right]; exists x; auto|intros [(x & B & W)|(x & B & W)]; exists x; auto]. }
    rewrite Q, !P. clear. split.
    - intros [(s & x & I & J & L)|[[(s & x & I & J & L)|(s & x & I & J & L)]|(s & x & I & J & L)]]; exists s, x; auto 6.
    - intros (s & x & I & J & [L|[L|[L|L]]]); [left|right; left; left|right; left; right|right; right]; exists s, x; auto.
  Qed.

  Lemma root_sound ts d : derives rule (rule "parse" 0) ts d -> nd "parse" (Node "parse" d).
  Proof.
    intro D. split; [reflexivity|]. constructor; [right; right; exists 0, ts; exact D|].
    apply (derives_sound _ _ _ D); vm_compute; reflexivity.
  Qed.
  Lemma parse_panic t : nd "parse" t -> (v_parse entries t = Panic <-> unreadable t).
  Proof.
    intro D. rewrite unreadable_lacks. unfold v_parse.
    rewrite panic_bind by (apply ne_collect; apply ne_statement). rewrite panic_collect by apply ne_statement.
    assert (M : forall x, In x (concat (map (subs "sql_stmt") (subs "sql_stmt_list" t))) <->
                exists s, In s (subs "sql_stmt_list" t) /\ In x (subs "sql_stmt" s)).
    { intro x. rewrite in_concat. split.
      - intros (l & I & J). apply in_map_iff in I. destruct I as (s & <- & I). exists s. auto.
      - intros (s & I & J). exists (subs "sql_stmt" s). split; [apply in_map; exact I|exact J]. }
    assert (N : forall s x, In s (subs "sql_stmt_list" t) -> In x (subs "sql_stmt" s) -> nd "sql_stmt" x).
    { intros s x I J. exact (subs_nd _ _ _ (nd_sound _ _ (subs_nd _ _ _ (nd_sound _ _ D) I)) J). }
    split.
    - intros [(x & I & H)|(a & _ & H)]; [|discriminate]. apply M in I. destruct I as (s & I & J).
      exists s, x. split; [exact I|]. split; [exact J|]. apply statement_panic; [exact (N _ _ I J)|exact H].
    - intros (s & x & I & J & B). left. exists x. split; [apply M; exists s; auto|]. apply statement_panic; [exact (N _ _ I J)|exact B].
  Qed.

  Lemma panics q : parse entries q = Panic <->
    ~ blank q /\ exists d, parse_tree (token_stream q) = Found [(""%string, Node "parse" d)] /\ unreadable (Node "parse" d).
  Proof.
    unfold parse, parse_string. rewrite <- blank_b. destruct (String.eqb q "" || String.eqb q ";").
    { split; [discriminate|]. intros [N _]. exfalso. apply N. reflexivity. }
    destruct (parse_tree_one q) as (d & [(E & Dv & L)|(E & X)]); rewrite E; cbn [fst].
    - rewrite parse_panic by exact (root_sound _ _ Dv). split.
      + intro U. split; [discriminate|]. exists d. auto.
      + intros [_ (d' & Q & U)]. injection Q as ->. exact U.
    - split; [discriminate|]. intros [_ (d' & Q & _)]. discriminate.
  Qed.

  (** a token at the leaves of some node below *)
  Lemma leaves_child n cs c k : In c cs -> In k (leaves (snd c)) -> In k (leaves (Node n cs)).
  Proof.
    intros I J. rewrite leaves_node. unfold yield. apply in_concat. exists (leaves (snd c)). split; [|exact J].
    apply in_map_iff. exists c. split; [reflexivity|exact I].
  Qed.
  Lemma leaves_subs r t x k : In x (subs r t) -> In k (leaves x) -> In k (leaves t).
  Proof.
    intros I J. unfold subs in I. apply filter_In in I. destruct I as [I _]. apply in_map_iff in I.
    destruct I as (c & <- & I). destruct t as [|n cs]; [contradiction|]. exact (leaves_child _ _ _ _ I J).
  Qed.
  Lemma leaves_tok r ks t : nd r t -> r <> ""%string -> r <> "expr"%string -> (forall p, always (WTok ks) (rule r p) = true) ->
    exists k, In k (leaves t) /\ In (tk k) ks.
  Proof.
    intros D N1 N2 A. destruct (nd_meets _ _ _ D N1 N2 A) as (c & I & kd & K & M).
    destruct c as [l [k|n ds]]; [|discriminate]. cbn [snd is_tok] in M. apply String.eqb_eq in M.
    exists k. split; [|rewrite M; exact K]. destruct t as [|n cs]; [contradiction|].
    apply (leaves_child n cs (l, Leaf k)); [exact I|left; reflexivity].
  Qed.
  Lemma calm q : (forall k, In k (token_stream q) -> ~ In (tk k) ["INSERT_"; "REPLACE_"; "UPDATE_"; "CREATE_"]%string) ->
    parse entries q <> Panic.
  Proof.
    intros N H. apply panics in H. destruct H as (B & d & E & U).
    destruct (parse_tree_shape _ _ E) as (ds & Q & Dv & L). injection Q as ->.
    pose proof (nd_sound _ _ (root_sound _ _ Dv)) as S. apply unreadable_lacks in U. destruct U as (s & x & I & J & U).
    pose proof (subs_nd _ _ _ S I) as Ds. pose proof (subs_nd _ _ _ (nd_sound _ _ Ds) J) as Dx.
    assert (W : forall y r, In y (subs r x) -> forall k, In k (leaves y) -> ~ In (tk k) ["INSERT_"; "REPLACE_"; "UPDATE_"; "CREATE_"]%string).
    { intros y r Iy k Ik. apply N. rewrite <- L. apply (leaves_subs _ _ _ _ I), (leaves_subs _ _ _ _ J), (leaves_subs _ _ _ _ Iy). exact Ik. }
    assert (G : forall r path m, lacks (r :: path) m x -> exists y, In y (subs r x) /\ nd r y).
    { intros r path m K. apply lacks_cons in K. destruct K as (y & Iy & _). exists y. split; [exact Iy|].
      exact (subs_nd _ _ _ (nd_sound _ _ Dx) Iy). }
    assert (Z : forall r ks, r <> ""%string -> r <> "expr"%string -> (forall p, always (WTok ks) (rule r p) = true) ->
                (forall k, In k ks -> In k ["INSERT_"; "REPLACE_"; "UPDATE_"; "CREATE_"]%string) ->
                forall path m, ~ lacks (r :: path) m x).
    { intros r ks N1 N2 A F path m K. destruct (G _ _ _ K) as (y & Iy & Dy).
      destruct (leaves_tok _ _ _ Dy N1 N2 A) as (k & Ik & Kk). exact (W _ _ Iy _ Ik (F _ Kk)). }
    destruct U as [U|[U|[U|U]]]; revert U.
    - apply (Z _ ["INSERT_"; "REPLACE_"]%string); try byrule. intros k. cbn [In]. tauto.
    - apply (Z _ ["CREATE_"]%string); try byrule. intros k. cbn [In]. tauto.
    - apply (Z _ ["CREATE_"]%string); try byrule. intros k. cbn [In]. tauto.
    - apply (Z _ ["UPDATE_"]%string); try byrule. intros k. cbn [In]. tauto.
  Qed.
End Types.
