(** The parser of the repository as a whole: it always answers, it accepts exactly the sentences of the
    grammar, and its trees hold all the tokens. *)
From Coq Require Import Lia.
From Verif Require Import GoBase ModelUtil ModelNum ModelFn ModelQuery ModelEbnf ModelGrammar ModelLex ModelVisitor
  SpecParse ProofEbnf ProofMachine.

(** ** The tree *)

Lemma parse_R ts : parse_tree ts = R (Rule "parse" 0) ts at_end.
Proof. reflexivity. Qed.

Lemma parse_ok : okg (Rule "parse" 0) = true.
Proof. vm_compute. reflexivity. Qed.

Lemma parse_tree_total ts : parse_tree ts <> OutOfFuel.
Proof.
  unfold parse_tree, fuel. pose proof (okg_depth _ parse_ok) as D.
  apply (run_fuel rule the_rank the_refs the_refs_ok); [exact parse_ok|lia|].
  intros cs [|t r] _ _; discriminate.
Qed.

Lemma parse_tree_sound ts cs : parse_tree ts = Found cs -> derives rule (Rule "parse" 0) ts cs.
Proof.
  intro H. apply run_sound in H. destruct H as (w & ds & rest & -> & D & K).
  destruct rest as [|t rest]; [|discriminate]. injection K as <-. rewrite app_nil_r. exact D.
Qed.

Lemma parse_tree_found ts : sentence rule "parse" ts -> exists cs, parse_tree ts = Found cs.
Proof.
  intros [ds D]. pose proof (parse_tree_total ts) as T.
  destruct (parse_tree ts) as [cs| |] eqn:E; [exists cs; reflexivity| |congruence].
  exfalso. eapply run_complete in E; [|symmetry; apply app_nil_r|exact D]. discriminate.
Qed.

Lemma derives_rule_inv name p w cs : derives rule (Rule name p) w cs ->
  exists ds, cs = [(""%string, Node name ds)] /\ derives rule (rule name p) w ds.
Proof. intro D. inversion D; subst. eexists. split; [reflexivity|assumption]. Qed.

(** ** The leaves *)

Definition yield (cs : children) : list token := concat (map (fun c => leaves (snd c)) cs).

Lemma leaves_node name cs : leaves (Node name cs) = yield cs.
Proof.
  unfold yield. cbn [leaves]. induction cs as [|(l, c) cs IH]; [reflexivity|]. cbn [map concat snd]. rewrite <- IH. reflexivity.
Qed.
Lemma yield_app a b : yield (a ++ b) = yield a ++ yield b.
Proof. unfold yield. rewrite map_app, concat_app. reflexivity. Qed.
Lemma yield_label l cs : yield (set_label l cs) = yield cs.
Proof. unfold yield, set_label. rewrite map_map. reflexivity. Qed.

Inductive all_rounds : children -> Prop :=
| rounds_nil : all_rounds []
| rounds_cons cs r : all_rounds r -> all_rounds ((""%string, Node "" cs) :: r).

Lemma star_wrap_rounds ru b w cs : derives ru (Star (Wrap b)) w cs -> all_rounds cs.
Proof.
  remember (Star (Wrap b)) as g eqn:E. intro D. induction D; try discriminate.
  - constructor.
  - injection E as ->. inversion D1; subst. constructor. apply IHD2. reflexivity.
Qed.

Lemma yield_nest name : forall rounds acc, all_rounds rounds -> yield (nest name acc rounds) = yield acc ++ yield rounds.
Proof.
  induction rounds as [|c r IH]; intros acc A; cbn [nest].
  - rewrite app_nil_r. reflexivity.
  - inversion A; subst. cbn [nest]. rewrite IH by assumption.
    change (("", Node name acc) :: cs) with ([(""%string, Node name acc)] ++ cs).
    rewrite yield_app.
    change (("", Node "" cs) :: r) with ([(""%string, Node "" cs)] ++ r). rewrite yield_app.
    unfold yield at 1. cbn [map concat snd]. rewrite app_nil_r.
    unfold yield at 4. cbn [map concat snd]. rewrite app_nil_r, !leaves_node, app_assoc. reflexivity.
Qed.

Lemma derives_yield ru g w cs : derives ru g w cs -> yield cs = w.
Proof.
  intro D. induction D; try reflexivity; rewrite ?yield_app, ?yield_label; try (rewrite IHD1, IHD2; reflexivity); try assumption.
  - unfold yield. cbn [map concat snd]. rewrite app_nil_r, leaves_node. exact IHD.
  - unfold yield. cbn [map concat snd]. rewrite app_nil_r, leaves_node. exact IHD.
  - rewrite yield_nest by (eapply star_wrap_rounds; eassumption). rewrite IHD1, IHD2. reflexivity.
Qed.

Lemma parse_tree_shape ts cs : parse_tree ts = Found cs ->
  exists ds, cs = [(""%string, Node "parse" ds)] /\ derives rule (rule "parse" 0) ts ds /\ leaves (Node "parse" ds) = ts.
Proof.
  intro H. apply parse_tree_sound in H. destruct (derives_rule_inv _ _ _ _ H) as (ds & -> & D).
  exists ds. split; [reflexivity|]. split; [exact D|]. rewrite leaves_node. exact (derives_yield _ _ _ _ D).
Qed.

(** ** The visitor never reports an error *)

Definition no_err {A} (r : result A) : Prop := forall e, r <> Err e.
Lemma ne_ok {A} (a : A) : no_err (Ok a). Proof. intros e H; discriminate. Qed.
Lemma ne_panic {A} : no_err (@Panic A). Proof. intros e H; discriminate. Qed.
Lemma ne_bind {A B} (r : result A) (f : A -> result B) : no_err r -> (forall a, no_err (f a)) -> no_err (rbind r f).
Proof. intros H K e E. destruct r; cbn [rbind] in E; [exact (K a e E)|exact (H _ eq_refl)|discriminate]. Qed.
Lemma ne_need o : no_err (need o). Proof. destruct o; [apply ne_ok|apply ne_panic]. Qed.
Lemma ne_text o : no_err (text_of o). Proof. apply ne_bind; [apply ne_need|intro; apply ne_ok]. Qed.
Lemma ne_name o : no_err (name_of o). Proof. apply ne_bind; [apply ne_text|intro; apply ne_ok]. Qed.
Lemma ne_collect {A B} (f : A -> result B) l : (forall a, no_err (f a)) -> no_err (collect f l).
Proof.
  intro H. induction l as [|a l IH]; [apply ne_ok|]. cbn [collect].
  apply ne_bind; [apply H|]. intro. apply ne_bind; [exact IH|]. intro. apply ne_ok.
Qed.
Create HintDb ne.
#[local] Hint Resolve ne_ok ne_panic ne_need ne_text ne_name ne_collect : ne.
Ltac ne := repeat first [apply ne_ok | apply ne_panic | apply ne_need | apply ne_text | apply ne_name | assumption
  | match goal with |- no_err (rbind _ _) => apply ne_bind; [|intro] | |- no_err (collect _ _) => apply ne_collect; intro end
  | match goal with |- no_err (match ?x with _ => _ end) => destruct x end
  | match goal with |- no_err (if ?x then _ else _) => destruct x end
  | match goal with |- no_err (let (_, _) := ?x in _) => destruct x end ].

Lemma ne_cmp t : no_err (v_cmp t). Proof. unfold v_cmp. ne. Qed.
Lemma ne_pair mk t : no_err (v_pair mk t). Proof. unfold v_pair. ne; apply ne_cmp. Qed.
Lemma ne_expr t : no_err (v_expr t). Proof. unfold v_expr. ne; first [apply ne_pair|apply ne_cmp]. Qed.
Lemma ne_where o : no_err (v_where o). Proof. destruct o; [apply ne_expr|apply ne_ok]. Qed.

Section Types.
  Context (entries : list (dtype * string)).
  Lemma ne_column t : no_err (v_column entries t). Proof. unfold v_column. cbv zeta. ne. Qed.
  Lemma ne_indexed t : no_err (v_indexed_column entries t). Proof. unfold v_indexed_column. ne. Qed.
  Lemma ne_index_defs t : no_err (v_index_defs t). Proof. unfold v_index_defs. ne. Qed.
  Lemma ne_column_def acc t : no_err (v_column_def entries acc t).
  Proof.
    unfold v_column_def. destruct acc. apply ne_bind; [apply ne_column|]. intro c.
    destruct c; ne; apply ne_index_defs.
  Qed.
  Lemma ne_column_defs l : forall acc, no_err (v_column_defs entries acc l).
  Proof. induction l; intro acc; cbn [v_column_defs]; ne; first [apply ne_column_def|apply IHl]. Qed.
  Lemma ne_table_constraint t : no_err (v_table_constraint entries t).
  Proof. unfold v_table_constraint. ne; apply ne_indexed. Qed.
  Lemma ne_table_schema t : no_err (v_table_schema entries t).
  Proof. unfold v_table_schema. ne; first [apply ne_column_defs|apply ne_table_constraint]. Qed.
  Lemma ne_index_schema t : no_err (v_index_schema t).
  Proof. unfold v_index_schema. ne. Qed.
  Lemma ne_add_index t : no_err (v_add_index t).
  Proof. unfold v_add_index. ne. Qed.
  Lemma ne_alter t : no_err (v_alter_table entries t).
  Proof. unfold v_alter_table. cbv zeta. ne; auto using ne_column, ne_add_index, ne_ok. Qed.
  Lemma ne_row es : forall names, no_err (v_row names es).
  Proof. induction es; intro names; cbn [v_row]; cbv zeta; ne; auto. Qed.
  Lemma ne_insert t : no_err (v_insert t). Proof. unfold v_insert. cbv zeta. ne; apply ne_row. Qed.
  Lemma ne_set t : no_err (v_set t). Proof. unfold v_set. ne. Qed.
  Lemma ne_update t : no_err (v_update t). Proof. unfold v_update. ne; first [apply ne_set|apply ne_where]. Qed.
  Lemma ne_selector t : no_err (v_selector t). Proof. unfold v_selector. cbv zeta. ne. Qed.
  Lemma ne_order t : no_err (v_order t). Proof. unfold v_order. ne. Qed.
  Lemma ne_select t : no_err (v_select t).
  Proof. unfold v_select. cbv zeta. ne; first [apply ne_selector|apply ne_where|apply ne_order]. Qed.
  Lemma ne_delete t : no_err (v_delete t). Proof. unfold v_delete. ne; apply ne_where. Qed.
  Lemma ne_copy t : no_err (v_copy t). Proof. unfold v_copy. cbv zeta. ne. Qed.
  Lemma ne_statement t : no_err (v_statement entries t).
  Proof.
    unfold v_statement. cbv zeta.
    repeat (match goal with |- no_err (match ?x with _ => _ end) => destruct x end; [apply ne_bind; [|intro; apply ne_ok]|]);
      try apply ne_ok; ne;
      first [apply ne_table_schema|apply ne_index_schema|apply ne_alter|apply ne_insert|apply ne_update|apply ne_select
            |apply ne_delete|apply ne_copy].
  Qed.
  Lemma ne_parse t : no_err (v_parse entries t).
  Proof. unfold v_parse. ne; apply ne_statement. Qed.

  (** ** ParseString *)

  Definition blank (q : string) : Prop := q = ""%string \/ q = ";"%string.
  Lemma blank_b q : (String.eqb q "" || String.eqb q ";") = true <-> blank q.
  Proof. unfold blank. rewrite orb_true_iff, !String.eqb_eq. reflexivity. Qed.

  Lemma parse_string_clean clean q : fst (parse_string entries clean q) = Err ErrEmptyQuery <-> blank q.
  Proof.
    unfold parse_string. rewrite <- blank_b. destruct (String.eqb q "" || String.eqb q ";"); [split; reflexivity|].
    split; [|discriminate]. destruct (parse_tree (token_stream q)) as [[|(l, t) [|]]| |]; try discriminate.
    destruct clean; [|discriminate]. cbn [fst]. intro H. exfalso. exact (ne_parse _ _ H).
  Qed.

  Lemma parse_tree_one q : exists d, (parse_tree (token_stream q) = Found [(""%string, Node "parse" d)]
      /\ derives rule (rule "parse" 0) (token_stream q) d /\ leaves (Node "parse" d) = token_stream q)
    \/ (parse_tree (token_stream q) = NotFound /\ ~ sentence rule "parse" (token_stream q)).
  Proof.
    pose proof (parse_tree_total (token_stream q)) as T.
    destruct (parse_tree (token_stream q)) as [cs| |] eqn:E; [| |congruence].
    - destruct (parse_tree_shape _ _ E) as (ds & -> & D & L). exists ds. left. split; [reflexivity|]. split; assumption.
    - exists []. right. split; [reflexivity|]. intro S. destruct (parse_tree_found _ S) as [cs F]. congruence.
  Qed.

  (** a new parser reports a syntax error exactly when the text is not a sentence of the grammar *)
  Lemma parse_error q : ~ blank q ->
    (parse entries q = Err ErrParse <-> ~ sentence rule "parse" (token_stream q)).
  Proof.
    intro B. unfold parse, parse_string. destruct (String.eqb q "" || String.eqb q ";") eqn:Eb; [apply blank_b in Eb; contradiction|].
    destruct (parse_tree_one q) as (d & [(E & D & L)|(E & N)]); rewrite E; cbn [fst].
    - split; [intro H; exfalso; exact (ne_parse _ _ H)|]. intro N. exfalso. apply N. eexists. constructor. exact D.
    - split; [intros _; exact N|reflexivity].
  Qed.
  Lemma parse_errors q e : parse entries q = Err e -> (e = ErrEmptyQuery /\ blank q) \/ (e = ErrParse /\ ~ blank q).
  Proof.
    intro H. destruct (String.eqb q "" || String.eqb q ";") eqn:Eb.
    - left. split; [|apply blank_b; exact Eb]. unfold parse, parse_string in H. rewrite Eb in H. injection H as <-. reflexivity.
    - right. assert (B : ~ blank q) by (intro B; apply blank_b in B; congruence). split; [|exact B].
      unfold parse, parse_string in H. rewrite Eb in H.
      destruct (parse_tree_one q) as (d & [(E & D & L)|(E & N)]); rewrite E in H; cbn [fst] in H.
      + exfalso. exact (ne_parse _ _ H).
      + injection H as <-. reflexivity.
  Qed.
  Lemma parse_result q r : parse entries q = r -> (forall e, r <> Err e) ->
    exists d, derives rule (rule "parse" 0) (token_stream q) d /\ leaves (Node "parse" d) = token_stream q
      /\ r = v_parse entries (Node "parse" d).
  Proof.
    intros H N. unfold parse, parse_string in H.
    destruct (String.eqb q "" || String.eqb q ";"); [cbn in H; subst r; exfalso; exact (N _ eq_refl)|].
    destruct (parse_tree_one q) as (d & [(E & D & L)|(E & X)]); rewrite E in H; cbn [fst] in H.
    - exists d. split; [exact D|]. split; [exact L|]. congruence.
    - subst r. exfalso. exact (N _ eq_refl).
  Qed.
End Types.
