(** What the visitor reports for a parse tree. *)
From Verif Require Import GoBase ModelUtil ModelNum ModelFn ModelQuery ModelEbnf ModelGrammar ModelLex ModelVisitor
  SpecParse SpecPanic SpecLost ProofEbnf ProofMachine ProofParse ProofPanic.

(** ** Labels: what they are put on, and how often *)

Fixpoint width (g : gram) : nat :=
  match g with
  | Tok _ | Rule _ _ | Wrap _ => 1
  | Seq a b => width a + width b
  | Alt a b => Nat.max (width a) (width b)
  | Star a | StarNG a => 2
  | Lab _ a => width a
  | LeftRec _ _ _ => 2
  | _ => 0
  end.
Lemma width_sound ru g w cs : derives ru g w cs -> width g < 2 -> length cs <= width g.
Proof.
  intro D. induction D; cbn [width]; intro L; try lia; try (cbn; lia).
  - rewrite app_length. specialize (IHD1 ltac:(lia)). specialize (IHD2 ltac:(lia)). lia.
  - unfold set_label. rewrite map_length. exact (IHD L).
Qed.
(** how many children have the label; two stands for many *)
Fixpoint times (l : string) (g : gram) : nat :=
  match g with
  | Lab m a => if String.eqb m l then width a else 0
  | Seq a b => times l a + times l b
  | Alt a b => Nat.max (times l a) (times l b)
  | Star a | StarNG a => if times l a =? 0 then 0 else 2
  | LeftRec _ _ _ => 2
  | _ => 0
  end.
Definition has_label (l : string) (c : string * tree) : bool := String.eqb (fst c) l.
Lemma label_filter l m cs : filter (has_label l) (set_label m cs) = if String.eqb m l then set_label m cs else [].
Proof.
  induction cs as [|c cs IH]; [destruct (String.eqb m l); reflexivity|].
  change (set_label m (c :: cs)) with ((m, snd c) :: set_label m cs). cbn [filter has_label fst]. rewrite IH.
  unfold has_label. cbn [fst]. destruct (String.eqb m l); reflexivity.
Qed.
Lemma times_sound l g w cs : l <> ""%string -> derives rule g w cs -> times l g < 2 -> length (filter (has_label l) cs) <= times l g.
Proof.
  intros N D. assert (Q : String.eqb "" l = false) by (apply String.eqb_neq; congruence).
  induction D; cbn [times]; intro L.
  - cbn. lia.
  - cbn [filter]. unfold has_label. cbn [fst]. rewrite Q. cbn. lia.
  - cbn [filter]. unfold has_label. cbn [fst]. rewrite Q. cbn. lia.
  - rewrite filter_app, app_length. specialize (IHD1 ltac:(lia)). specialize (IHD2 ltac:(lia)). lia.
  - specialize (IHD ltac:(lia)). lia.
  - specialize (IHD ltac:(lia)). lia.
  - cbn. lia.
  - rewrite filter_app, app_length. cbn [times] in IHD2. destruct (times l a =? 0) eqn:E; [|lia].
    apply Nat.eqb_eq in E. specialize (IHD1 ltac:(lia)). specialize (IHD2 ltac:(lia)). lia.
  - cbn. lia.
  - rewrite filter_app, app_length. cbn [times] in IHD2. destruct (times l a =? 0) eqn:E; [|lia].
    apply Nat.eqb_eq in E. specialize (IHD1 ltac:(lia)). specialize (IHD2 ltac:(lia)). lia.
  - rewrite label_filter. destruct (String.eqb l0 l) eqn:E; [|cbn; lia].
    unfold set_label. rewrite map_length. exact (width_sound _ _ _ _ D L).
  - cbn [filter]. unfold has_label. cbn [fst]. rewrite Q. cbn. lia.
  - lia.
Qed.
(** the label is only put on nodes of the rule *)
Fixpoint on (l m : string) (g : gram) : bool :=
  match g with
  | Lab k a => if String.eqb k l then match a with Rule n _ => String.eqb n m | _ => false end else true
  | Seq a b | Alt a b => on l m a && on l m b
  | Star a | StarNG a => on l m a
  | LeftRec _ _ _ => false
  | _ => true
  end.
Lemma on_sound l m g w cs : l <> ""%string -> derives rule g w cs -> on l m g = true ->
  forall x, In (l, x) cs -> is_rule m x = true.
Proof.
  intros N D. induction D; cbn [on]; intros O y I.
  - contradiction.
  - destruct I as [I|[]]. injection I as I _. congruence.
  - destruct I as [I|[]]. injection I as I _. congruence.
  - apply andb_prop in O. destruct O. apply in_app_or in I. destruct I; auto.
  - apply andb_prop in O. destruct O. auto.
  - apply andb_prop in O. destruct O. auto.
  - contradiction.
  - apply in_app_or in I. destruct I; auto.
  - contradiction.
  - apply in_app_or in I. destruct I; auto.
  - unfold set_label in I. apply in_map_iff in I. destruct I as (c & E & I). injection E as -> <-.
    rewrite String.eqb_refl in O. destruct a; try discriminate. apply String.eqb_eq in O. subst.
    destruct (derives_rule_inv _ _ _ _ D) as (ds & -> & _). destruct I as [<-|[]]. cbn. apply String.eqb_refl.
  - destruct I as [I|[]]. injection I as I _. congruence.
  - discriminate.
Qed.

Lemma lab_in l n cs x : lab l (Node n cs) = Some x -> In (l, x) cs.
Proof.
  unfold lab, labelled. cbn [kids]. intro H.
  destruct (filter (fun c => String.eqb (fst c) l) cs) as [|c r] eqn:E; [discriminate|]. cbn in H. injection H as <-.
  assert (I : In c (filter (fun c => String.eqb (fst c) l) cs)) by (rewrite E; left; reflexivity).
  apply filter_In in I. destruct I as [I Q]. apply String.eqb_eq in Q. destruct c as [l' x]. cbn in *. subst. exact I.
Qed.
Lemma lab_only r l t x n cs : nd r t -> r <> ""%string -> r <> "expr"%string -> l <> ""%string ->
  (forall p, times l (rule r p) <= 1) -> t = Node n cs -> In (l, x) cs -> lab l t = Some x.
Proof.
  intros [E S] N1 N2 N3 A -> I. cbn [is_rule] in E. apply String.eqb_eq in E. subst n.
  inversion S as [|n cs' [H|[H|(p & w & D)]] F]; subst; try congruence.
  pose proof (A p) as Ap. pose proof (times_sound l _ _ _ N3 D ltac:(lia)) as T.
  assert (J : In (l, x) (filter (has_label l) cs)).
  { apply filter_In. split; [exact I|]. unfold has_label. cbn. apply String.eqb_refl. }
  unfold lab, labelled. cbn [kids]. change (fun c : string * tree => String.eqb (fst c) l) with (has_label l).
  destruct (filter (has_label l) cs) as [|c [|d k]]; [contradiction| |cbn in T; lia].
  destruct J as [->|[]]. reflexivity.
Qed.

(** ** Conditions *)

Lemma simple_where w : sound w -> exists c, v_expr w = Ok c /\ (c <> None <-> simple_condition w).
Proof.
  intro S.
  assert (P : forall r, In r ["comparison_expr"; "and_expr"; "or_expr"]%string -> forall y, sub r w = Some y -> simple_condition w).
  { intros r I y E. exists r, y. split; [exact I|]. apply below1, sub_in, E. }
  unfold v_expr. destruct (sub "and_expr" w) as [a|] eqn:E.
  { pose proof (sub_nd _ _ _ S E) as D.
    destruct (pair_kids "and_expr" "AND_" a ltac:(byrule) D ltac:(byrule) ltac:(byrule)) as (x & y & La & Lb & Dx & Dy).
    unfold v_pair. rewrite La, Lb. cbn [need rbind]. destruct (cmp_read x Dx) as (u & ->). cbn [rbind].
    destruct (cmp_read y Dy) as (v & ->). cbn [rbind]. eexists. split; [reflexivity|]. split; [intros _|discriminate].
    apply (P "and_expr"%string) with a; [cbn; tauto|exact E]. }
  destruct (sub "or_expr" w) as [o|] eqn:E'.
  { pose proof (sub_nd _ _ _ S E') as D.
    destruct (pair_kids "or_expr" "OR_" o ltac:(byrule) D ltac:(byrule) ltac:(byrule)) as (x & y & La & Lb & Dx & Dy).
    unfold v_pair. rewrite La, Lb. cbn [need rbind]. destruct (cmp_read x Dx) as (u & ->). cbn [rbind].
    destruct (cmp_read y Dy) as (v & ->). cbn [rbind]. eexists. split; [reflexivity|]. split; [intros _|discriminate].
    apply (P "or_expr"%string) with o; [cbn; tauto|exact E']. }
  destruct (sub "comparison_expr" w) as [c|] eqn:E''.
  { destruct (cmp_read c (sub_nd _ _ _ S E'')) as (u & ->). eexists. split; [reflexivity|]. split; [intros _|discriminate].
    apply (P "comparison_expr"%string) with c; [cbn; tauto|exact E'']. }
  exists None. split; [reflexivity|]. split; [congruence|]. intros (r & x & I & B). exfalso.
  assert (W : without r w) by (apply without_sub; destruct I as [<-|[<-|[<-|[]]]]; assumption). exact (W x B).
Qed.

(** the condition read at the label, given that the label occurs once *)
Lemma where_at r n cs : nd r (Node n cs) -> r <> ""%string -> r <> "expr"%string ->
  (forall p, times "whereExpr" (rule r p) <= 1) ->
  exists c, v_where (lab "whereExpr" (Node n cs)) = Ok c /\
    (c <> None <-> exists w, In ("whereExpr"%string, w) cs /\ simple_condition w).
Proof.
  intros D N1 N2 A. destruct (lab "whereExpr" (Node n cs)) as [w|] eqn:E; cbn [v_where].
  - destruct (simple_where w (lab_sound _ _ _ (nd_sound _ _ D) E)) as (c & -> & H). exists c. split; [reflexivity|].
    rewrite H. split.
    + intro Q. exists w. split; [exact (lab_in _ _ _ _ E)|exact Q].
    + intros (w' & I & Q).
      pose proof (lab_only r "whereExpr" _ _ _ _ D N1 N2 ltac:(discriminate) A eq_refl I) as E'. congruence.
  - exists None. split; [reflexivity|]. split; [congruence|]. intros (w & I & _). exfalso.
    pose proof (lab_only r "whereExpr" _ _ _ _ D N1 N2 ltac:(discriminate) A eq_refl I) as E'. congruence.
Qed.

(** ** Statements *)

Lemma bind_ok {A B} (r : result A) (f : A -> result B) b : rbind r f = Ok b -> exists a, r = Ok a /\ f a = Ok b.
Proof. destruct r; cbn; intro H; try discriminate. eexists. split; [reflexivity|exact H]. Qed.
Ltac binds H := repeat (apply bind_ok in H; let a := fresh "a" in let E := fresh "E" in destruct H as (a & E & H)).

Section Types.
  Context (entries : list (dtype * string)).

  Lemma stands r t x s : nd "sql_stmt" t -> sub r t = Some x -> kind s = r -> where_of s = None ->
    existsb (String.eqb r) ["update_stmt"; "delete_stmt"; "select_stmt"]%string = false -> stands_for s t.
  Proof.
    intros D E K W Q. exists x. rewrite K. split; [apply below1, sub_in, E|].
    rewrite W. split; [congruence|]. intros (w & C & _). exfalso.
    destruct (sub_nd _ _ _ (nd_sound _ _ D) E) as [R _].
    inversion C as [n cs w' N I|cs q ds w' I J]; subst; cbn [is_rule] in R; apply String.eqb_eq in R; rewrite <- R in Q.
    - destruct N as [-> | ->]; discriminate.
    - discriminate.
  Qed.

  Lemma stands_where r t x s : nd "sql_stmt" t -> sub r t = Some x -> kind s = r ->
    (where_of s <> None <-> exists w, condition_at x w /\ simple_condition w) -> stands_for s t.
  Proof. intros D E K W. exists x. rewrite K. split; [apply below1, sub_in, E|exact W]. Qed.

  Lemma condition_in r n cs w : (r = "update_stmt" \/ r = "delete_stmt")%string -> is_rule r (Node n cs) = true ->
    (condition_at (Node n cs) w <-> In ("whereExpr"%string, w) cs).
  Proof.
    intros R E. cbn [is_rule] in E. apply String.eqb_eq in E. subst n. split.
    - intro C. inversion C; subst; [assumption|]. destruct R; discriminate.
    - intro I. constructor; assumption.
  Qed.
  Lemma update_stands x s : nd "update_stmt" x -> v_update x = Ok s ->
    kind s = "update_stmt"%string /\ (where_of s <> None <-> exists w, condition_at x w /\ simple_condition w).
  Proof.
    intros D H. unfold v_update in H. binds H. injection H as <-. split; [reflexivity|]. cbn [where_of].
    destruct x as [|n cs]; [destruct D; discriminate|].
    destruct (where_at "update_stmt" n cs D ltac:(discriminate) ltac:(discriminate)) as (c & E' & C); [intro; vm_compute; auto|].
    rewrite E' in E1. injection E1 as ->. rewrite C. destruct D as [R _].
    split; intros (w & I & Q); exists w; (split; [|exact Q]); apply (condition_in "update_stmt" n cs w); auto.
  Qed.
  Lemma delete_stands x s : nd "delete_stmt" x -> v_delete x = Ok s ->
    kind s = "delete_stmt"%string /\ (where_of s <> None <-> exists w, condition_at x w /\ simple_condition w).
  Proof.
    intros D H. unfold v_delete in H. binds H. injection H as <-. split; [reflexivity|]. cbn [where_of].
    destruct x as [|n cs]; [destruct D; discriminate|].
    destruct (where_at "delete_stmt" n cs D ltac:(discriminate) ltac:(discriminate)) as (c & E' & C); [intro; vm_compute; auto|].
    rewrite E' in E0. injection E0 as ->. rewrite C. destruct D as [R _].
    split; intros (w & I & Q); exists w; (split; [|exact Q]); apply (condition_in "delete_stmt" n cs w); auto.
  Qed.
  Lemma select_stands x s : nd "select_stmt" x -> v_select x = Ok s ->
    kind s = "select_stmt"%string /\ (where_of s <> None <-> exists w, condition_at x w /\ simple_condition w).
  Proof.
    intros D H. unfold v_select in H. cbv zeta in H. binds H. injection H as <-. split; [reflexivity|]. cbn [where_of sel_where].
    destruct x as [|n cs]; [destruct D; discriminate|].
    assert (n = "select_stmt"%string) as -> by (destruct D as [R _]; cbn in R; apply String.eqb_eq; exact R).
    assert (L : forall y, In ("parentQuery"%string, y) cs -> lab "parentQuery" (Node "select_stmt" cs) = Some y).
    { intros y I. apply (lab_only "select_stmt" _ _ _ "select_stmt" cs D); try discriminate; [intro; vm_compute; auto|reflexivity|exact I]. }
    assert (Z : forall w, condition_at (Node "select_stmt" cs) w <->
                exists q ds, In ("parentQuery"%string, Node q ds) cs /\ In ("whereExpr"%string, w) ds).
    { intro w. split.
      - intro C. inversion C as [? ? ? N I|? q ds ? I J]; subst; [destruct N; discriminate|]. exists q, ds. auto.
      - intros (q & ds & I & J). econstructor; eassumption. }
    destruct (lab "parentQuery" (Node "select_stmt" cs)) as [q|] eqn:Eq.
    - pose proof (lab_in _ _ _ _ Eq) as Iq.
      assert (Rq : nd "select_core" q).
      { split; [|exact (lab_sound _ _ _ (nd_sound _ _ D) Eq)]. destruct D as [_ S].
        inversion S as [|n' cs' [X|[X|(p & w & Dv)]] F]; subst; try discriminate.
        apply (on_sound "parentQuery" _ _ _ _ ltac:(discriminate) Dv); [reflexivity|exact Iq]. }
      destruct q as [|m ds]; [destruct Rq; discriminate|].
      destruct (where_at "select_core" m ds Rq ltac:(discriminate) ltac:(discriminate)) as (c & E' & C); [intro; vm_compute; auto|].
      rewrite E' in E0. injection E0 as ->. rewrite C. split.
      + intros (w & I & Q). exists w. split; [apply Z; exists m, ds; auto|exact Q].
      + intros (w & I & Q). apply Z in I. destruct I as (m' & ds' & I & J).
        specialize (L _ I). injection L as -> ->. exists w. auto.
    - injection E0 as <-. split; [congruence|]. intros (w & I & _). exfalso. apply Z in I. destruct I as (m' & ds' & I & J).
      specialize (L _ I). discriminate.
  Qed.

  Lemma statement_stands t o : nd "sql_stmt" t -> v_statement entries t = Ok o ->
    match o with Some s => stands_for s t | None => passed_over t end.
  Proof.
    intros D H. pose proof (nd_sound _ _ D) as S. unfold v_statement in H. cbv zeta in H.
    repeat match type of H with
    | match ?o with _ => _ end = _ => let E := fresh "E" in let x := fresh "x" in
        destruct o as [x|] eqn:E; [apply bind_ok in H; let s := fresh "s" in let K := fresh "K" in
          destruct H as (s & K & H); injection H as <-|]
    end.
    all: try match goal with E : sub ?r ?t = Some ?x |- stands_for _ ?t =>
      apply (stands r t x); [exact D|exact E| | |reflexivity] end.
    all: try match goal with
      | K : v_alter_table _ _ = Ok _ |- _ => unfold v_alter_table in K; cbv zeta in K
      | K : v_insert _ = Ok _ |- _ => unfold v_insert in K; cbv zeta in K
      | K : v_copy _ = Ok _ |- _ => unfold v_copy in K; cbv zeta in K
      end.
    all: try (match goal with K : _ = Ok ?s |- kind ?s = _ => binds K; injection K as <-; reflexivity
                           | K : _ = Ok ?s |- where_of ?s = _ => binds K; injection K as <-; reflexivity end).
    - destruct (update_stands _ _ (sub_nd _ _ _ S E8) K) as [A B]. exact (stands_where _ _ _ _ D E8 A B).
    - destruct (select_stands _ _ (sub_nd _ _ _ S E9) K) as [A B]. exact (stands_where _ _ _ _ D E9 A B).
    - destruct (delete_stands _ _ (sub_nd _ _ _ S E10) K) as [A B]. exact (stands_where _ _ _ _ D E10 A B).
    - injection H as <-. intros r I. apply without_sub. unfold kinds in I. cbn [In] in I.
      repeat (destruct I as [<-|I]; [assumption|]). contradiction.
  Qed.

  Lemma reported q ss : parse entries q = Ok ss ->
    exists d, parse_tree (token_stream q) = Found [(""%string, Node "parse" d)] /\ report ss (statements (Node "parse" d)).
  Proof.
    intro H. unfold parse, parse_string in H.
    destruct (String.eqb q "" || String.eqb q ";"); [discriminate|].
    destruct (parse_tree_one q) as (d & [(E & Dv & L)|(E & X)]); rewrite E in H; cbn [fst] in H; [|discriminate].
    exists d. split; [exact E|]. pose proof (nd_sound _ _ (root_sound _ _ Dv)) as S.
    unfold v_parse in H. fold (statements (Node "parse" d)) in H.
    assert (N : forall x, In x (statements (Node "parse" d)) -> nd "sql_stmt" x).
    { intros x I. unfold statements in I. apply in_concat in I. destruct I as (l & I & J). apply in_map_iff in I.
      destruct I as (s & <- & I). exact (subs_nd _ _ _ (nd_sound _ _ (subs_nd _ _ _ S I)) J). }
    apply bind_ok in H. destruct H as (l & C & H). injection H as <-. revert l C N.
    induction (statements (Node "parse" d)) as [|t ts IH]; intros l C N; cbn [collect] in C.
    - injection C as <-. constructor.
    - apply bind_ok in C. destruct C as (o & Eo & C). apply bind_ok in C. destruct C as (os & Es & C). injection C as <-.
      pose proof (statement_stands _ _ (N _ (or_introl eq_refl)) Eo) as P.
      specialize (IH _ Es (fun x I => N x (or_intror I))). destruct o as [s|]; cbn [map concat app]; constructor; assumption.
  Qed.
End Types.
