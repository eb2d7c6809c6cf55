(** Upper and lower case: the visitor. *)
From Coq Require Import Lia.
From Verif Require Import GoBase FactsBase ModelUtil ModelNum ModelFn ModelQuery ModelEbnf ModelGrammar ModelLex ModelVisitor
  SpecParse SpecPanic SpecCase ProofFn ProofEbnf ProofMachine ProofParse ProofPanic ProofLex ProofSpace ProofCase.

Section TreeInd.
  Context (P : tree -> Prop) (leaf : forall k, P (Leaf k)) (node : forall r cs, Forall (fun c => P (snd c)) cs -> P (Node r cs)).
  Fixpoint tree_ind2 (t : tree) : P t :=
    match t with
    | Leaf k => leaf k
    | Node r cs => node r cs ((fix go (cs : children) : Forall (fun c => P (snd c)) cs :=
                                 match cs with
                                 | [] => Forall_nil _
                                 | c :: rest => Forall_cons c (tree_ind2 (snd c)) (go rest)
                                 end) cs)
    end.
End TreeInd.

(** ** Trees with the same text *)

Definition kids_text (cs : children) : string := fold_right (fun c s => (text (snd c) ++ s)%string) ""%string cs.
Lemma text_node r cs : text (Node r cs) = kids_text cs.
Proof. cbn [text]. induction cs as [|(l, c) cs IH]; [reflexivity|]. cbn [kids_text fold_right snd]. fold (kids_text cs). rewrite <- IH. reflexivity. Qed.
Lemma append_inj : forall a b c d, String.length a = String.length c -> (a ++ b = c ++ d)%string -> a = c /\ b = d.
Proof.
  induction a as [|x a IH]; intros b [|y c] d L E; try discriminate L.
  - split; [reflexivity|exact E].
  - cbn [append] in E. injection E as -> E. injection L as L. destruct (IH b c d L E) as [-> ->]. split; reflexivity.
Qed.
Lemma append_len a b : String.length (a ++ b)%string = String.length a + String.length b.
Proof. induction a as [|c a IH]; [reflexivity|]. cbn [append String.length]. rewrite IH. reflexivity. Qed.
Lemma respelt_up t : forall t', respelt t t' -> same_letters (text t) (text t').
Proof.
  induction t as [k|r cs IH] using tree_ind2; intros t' H; inversion H as [a b K X|r' cs' ds F]; subst.
  - exact X.
  - rewrite !text_node. unfold same_letters. clear H. revert ds F. induction cs as [|c cs IHc]; intros ds F; inversion F as [|? d ? ds' [_ R] F']; subst; [reflexivity|].
    inversion IH as [|? ? I1 I2]; subst. cbn [kids_text fold_right]. fold (kids_text cs). fold (kids_text ds').
    rewrite !to_upper_app. f_equal; [exact (I1 _ R)|exact (IHc I2 _ F')].
Qed.
Lemma respelt_eq t : forall t', respelt t t' -> text t = text t' -> t = t'.
Proof.
  induction t as [k|r cs IH] using tree_ind2; intros t' H; inversion H as [a b K X|r' cs' ds F]; subst.
  - cbn [text]. intro E. destruct k as [k1 x1], b as [k2 x2]. cbn in K, E. subst. reflexivity.
  - rewrite !text_node. intro E. f_equal. clear H. revert ds F E. induction cs as [|c cs IHc]; intros ds F E; inversion F as [|? d ? ds' [L R] F']; subst; [reflexivity|].
    inversion IH as [|? ? I1 I2]; subst. cbn [kids_text fold_right] in E. fold (kids_text cs) in E. fold (kids_text ds') in E.
    apply append_inj in E; [|apply same_length, respelt_up, R]. destruct E as [E1 E2].
    f_equal; [|exact (IHc I2 _ F' E2)]. destruct c as [l c], d as [l' d]. cbn [fst snd] in *. subst l'. f_equal. exact (I1 _ R E1).
Qed.
Lemma respelt_rule t t' n : respelt t t' -> is_rule n t = is_rule n t'.
Proof. destruct 1; reflexivity. Qed.

(** ** Trees whose own words are the same *)

Definition own (r : string) : bool := existsb (String.eqb r) own_rules.
Inductive alike : tree -> tree -> Prop :=
| alike_same t : alike t t
| alike_leaf a b : like a b -> alike (Leaf a) (Leaf b)
| alike_node r cs ds : own r = false ->
    Forall2 (fun c d => fst c = fst d /\ alike (snd c) (snd d) /\ (own_part r (fst c) (snd c) = true -> snd c = snd d)) cs ds ->
    alike (Node r cs) (Node r ds).

Definition kids_words (r : string) (cs : children) : list string :=
  concat (map (fun c => if own_part r (fst c) (snd c) then [text (snd c)] else own_words (snd c)) cs).
Lemma words_node r cs : own_words (Node r cs) = if own r then [text (Node r cs)] else kids_words r cs.
Proof.
  cbn [own_words]. fold (own r). destruct (own r); [reflexivity|]. unfold kids_words.
  induction cs as [|(l, c) cs IH]; [reflexivity|]. cbn [map concat fst snd]. rewrite <- IH. reflexivity.
Qed.
Lemma own_part_like r l t t' : respelt t t' -> own_part r l t = own_part r l t'.
Proof. intro H. unfold own_part. rewrite (respelt_rule _ _ _ H). reflexivity. Qed.
Lemma words_len t : forall t', respelt t t' -> length (own_words t) = length (own_words t').
Proof.
  induction t as [k|r cs IH] using tree_ind2; intros t' H; inversion H as [a b K X|r' cs' ds F]; subst; [reflexivity|].
  rewrite !words_node. destruct (own r); [reflexivity|]. clear H. revert ds F.
  induction cs as [|c cs IHc]; intros ds F; inversion F as [|? d ? ds' [L R] F']; subst; [reflexivity|].
  inversion IH as [|? ? I1 I2]; subst. unfold kids_words. cbn [map concat]. rewrite !app_length. f_equal; [|exact (IHc I2 _ F')].
  rewrite L, (own_part_like _ _ _ _ R). destruct (own_part r (fst d) (snd d)); [reflexivity|exact (I1 _ R)].
Qed.
Lemma app_inj_len {A} : forall (a b c d : list A), length a = length c -> a ++ b = c ++ d -> a = c /\ b = d.
Proof.
  induction a as [|x a IH]; intros b [|y c] d L E; try discriminate L.
  - split; [reflexivity|exact E].
  - cbn [app] in E. injection E as -> E. injection L as L. destruct (IH b c d L E) as [-> ->]. split; reflexivity.
Qed.
Lemma words_alike t : forall t', respelt t t' -> own_words t = own_words t' -> alike t t'.
Proof.
  induction t as [k|r cs IH] using tree_ind2; intros t' H E; inversion H as [a b K X|r' cs' ds F]; subst.
  - constructor. split; assumption.
  - rewrite !words_node in E. destruct (own r) eqn:O.
    + injection E as E. rewrite (respelt_eq _ _ H E). constructor.
    + constructor; [exact O|]. clear H. revert ds F E.
      induction cs as [|c cs IHc]; intros ds F E; inversion F as [|? d ? ds' [L R] F']; subst; [constructor|].
      inversion IH as [|? ? I1 I2]; subst. unfold kids_words in E. cbn [map concat] in E.
      rewrite L, (own_part_like _ _ _ _ R) in E. apply app_inj_len in E.
      * destruct E as [E1 E2]. constructor; [|exact (IHc I2 _ F' E2)]. split; [exact L|]. rewrite L, (own_part_like _ _ _ _ R).
        destruct (own_part r (fst d) (snd d)).
        -- injection E1 as E1. pose proof (respelt_eq _ _ R E1) as Q. split; [rewrite Q; constructor|intros _; exact Q].
        -- split; [exact (I1 _ R E1)|discriminate].
      * destruct (own_part r (fst d) (snd d)); [reflexivity|exact (words_len _ _ R)].
Qed.

(** ** What the visitor sees of such trees *)

Definition root (t : tree) : string := match t with Leaf _ => ""%string | Node r _ => r end.
Lemma alike_kids t t' : alike t t' ->
  Forall2 (fun c d => fst c = fst d /\ alike (snd c) (snd d) /\ (own_part (root t) (fst c) (snd c) = true -> snd c = snd d)) (kids t) (kids t').
Proof.
  intro H. destruct H as [t|a b L|r cs ds O F]; [|constructor|exact F].
  induction (kids t) as [|c cs IH]; [constructor|]. constructor; [|exact IH]. split; [reflexivity|]. split; [constructor|reflexivity].
Qed.
Lemma alike_rule t t' n : alike t t' -> is_rule n t = is_rule n t'.
Proof. destruct 1; reflexivity. Qed.
Lemma alike_tok t t' k : alike t t' -> is_tok k t = is_tok k t'.
Proof. destruct 1 as [t|a b [K _]|]; [reflexivity| |reflexivity]. cbn [is_tok]. rewrite K. reflexivity. Qed.
Lemma alike_own t t' n : alike t t' -> own n = true -> is_rule n t = true -> t = t'.
Proof. destruct 1 as [t|a b L|r cs ds O F]; intros Q E; [reflexivity|discriminate|]. cbn [is_rule] in E. apply String.eqb_eq in E. congruence. Qed.
Lemma alike_up t : forall t', alike t t' -> same_letters (text t) (text t').
Proof.
  induction t as [k|r cs IH] using tree_ind2; intros t' H; inversion H as [t0|a b [_ X]|r' cs' ds O F]; subst; try reflexivity; [exact X|].
  rewrite !text_node. unfold same_letters. clear H. revert ds F. induction cs as [|c cs IHc]; intros ds F; inversion F as [|? d ? ds' (_ & R & _) F']; subst; [reflexivity|].
  inversion IH as [|? ? I1 I2]; subst. cbn [kids_text fold_right]. fold (kids_text cs). fold (kids_text ds').
  rewrite !to_upper_app. f_equal; [exact (I1 _ R)|exact (IHc I2 _ F')].
Qed.

(** the children of a rule *)
Lemma subs_alike n t t' : alike t t' -> Forall2 (fun a b => alike a b /\ is_rule n a = true) (subs n t) (subs n t').
Proof.
  intro H. apply alike_kids in H. unfold subs. induction H as [|c d cs ds (_ & A & _) _ IH]; [constructor|].
  cbn [map filter]. rewrite <- (alike_rule _ _ n A). destruct (is_rule n (snd c)) eqn:E; [|exact IH]. constructor; [split; assumption|exact IH].
Qed.
Lemma subs_own n t t' : alike t t' -> own n = true -> subs n t = subs n t'.
Proof.
  intros H O. apply (subs_alike n) in H. induction H as [|a b l l' [A E] _ IH]; [reflexivity|]. rewrite (alike_own _ _ _ A O E), IH. reflexivity.
Qed.
Lemma sub_own n t t' : alike t t' -> own n = true -> sub n t = sub n t'.
Proof. intros H O. unfold sub. rewrite (subs_own _ _ _ H O). reflexivity. Qed.
Lemma subs_part n r t t' : alike t t' -> is_rule r t = true -> (forall l x, is_rule n x = true -> own_part r l x = true) -> subs n t = subs n t'.
Proof.
  intros H R P. apply alike_kids in H. 
  assert (Q0 : root t = r) by (destruct t; [discriminate|]; apply String.eqb_eq; exact R). rewrite Q0 in H.
  unfold subs. induction H as [|c d cs ds (_ & A & Q) _ IH]; [reflexivity|]. cbn [map filter]. rewrite <- (alike_rule _ _ n A), IH.
  destruct (is_rule n (snd c)) eqn:E; [|reflexivity]. rewrite (Q (P _ _ E)). reflexivity.
Qed.
Inductive oalike (n : string) : option tree -> option tree -> Prop :=
| oalike_none : oalike n None None
| oalike_some a b : alike a b -> is_rule n a = true -> oalike n (Some a) (Some b).
Lemma sub_alike n t t' : alike t t' -> oalike n (sub n t) (sub n t').
Proof. intro H. apply (subs_alike n) in H. unfold sub. destruct H as [|a b l l' [A E] _]; constructor; assumption. Qed.
Lemma present_alike n t t' : alike t t' -> present (sub n t) = present (sub n t').
Proof. intro H. destruct (sub_alike n _ _ H); reflexivity. Qed.
Lemma tok_alike k t t' : alike t t' -> has_tok k t = has_tok k t'.
Proof.
  intro H. apply alike_kids in H. unfold has_tok. induction H as [|c d cs ds (_ & A & _) _ IH]; [reflexivity|].
  cbn [map existsb]. rewrite (alike_tok _ _ k A), IH. reflexivity.
Qed.
(** the children with a label *)
Lemma labelled_alike l t t' : alike t t' -> Forall2 alike (labelled l t) (labelled l t').
Proof.
  intro H. apply alike_kids in H. unfold labelled. induction H as [|c d cs ds (L & A & _) _ IH]; [constructor|].
  cbn [filter]. rewrite L. destruct (String.eqb (fst d) l); [|exact IH]. cbn [map]. constructor; assumption.
Qed.
Lemma labelled_own l t t' : alike t t' -> existsb (String.eqb l) own_labels = true -> labelled l t = labelled l t'.
Proof.
  intros H O. apply alike_kids in H. unfold labelled. induction H as [|c d cs ds (L & A & Q) _ IH]; [reflexivity|].
  cbn [filter]. rewrite <- L. destruct (String.eqb (fst c) l) eqn:E; [|exact IH]. cbn [map]. rewrite IH, Q; [reflexivity|].
  unfold own_part. apply String.eqb_eq in E. rewrite E, O. reflexivity.
Qed.
Lemma lab_own l t t' : alike t t' -> existsb (String.eqb l) own_labels = true -> lab l t = lab l t'.
Proof. intros H O. unfold lab. rewrite (labelled_own _ _ _ H O). reflexivity. Qed.
Inductive lalike : option tree -> option tree -> Prop :=
| lalike_none : lalike None None
| lalike_some a b : alike a b -> lalike (Some a) (Some b).
Lemma lab_alike l t t' : alike t t' -> lalike (lab l t) (lab l t').
Proof. intro H. apply (labelled_alike l) in H. unfold lab. destruct H; constructor; assumption. Qed.

Lemma collect_same {A B} (P : A -> A -> Prop) (f g : A -> result B) l l' : Forall2 P l l' -> (forall a b, P a b -> f a = g b) -> collect f l = collect g l'.
Proof. intros H F. induction H as [|a b l l' R _ IH]; [reflexivity|]. cbn [collect]. rewrite (F _ _ R), IH. reflexivity. Qed.
Lemma concat_map_same {A B} (P : A -> A -> Prop) (f g : A -> list B) l l' : Forall2 P l l' -> (forall a b, P a b -> f a = g b) -> concat (map f l) = concat (map g l').
Proof. intros H F. induction H as [|a b l l' R _ IH]; [reflexivity|]. cbn [map concat]. rewrite (F _ _ R), IH. reflexivity. Qed.

(** rewrites everything that is the same in two trees that are alike *)
Ltac alike_step H :=
  match type of H with
  | alike ?t ?t' =>
      repeat match goal with
        | |- context [sub ?n t] => rewrite (sub_own n t t' H eq_refl)
        | |- context [subs ?n t] => rewrite (subs_own n t t' H eq_refl)
        | |- context [lab ?l t] => rewrite (lab_own l t t' H eq_refl)
        | |- context [present (sub ?n t)] => rewrite (present_alike n t t' H)
        | |- context [has_tok ?n t] => rewrite (tok_alike n t t' H)
        end
  end.
Ltac by_sub H := match type of H with
  | alike ?t ?t' => match goal with
      | |- context [sub ?n t] => let a := fresh "a" in let b := fresh "b" in let A := fresh "A" in let E := fresh "E" in
          destruct (sub_alike n t t' H) as [|a b A E]
      | |- context [lab ?n t] => let a := fresh "a" in let b := fresh "b" in let A := fresh "A" in
          destruct (lab_alike n t t' H) as [|a b A]
      end
  end.

Lemma operator_alike t t' : alike t t' -> v_operator t = v_operator t'.
Proof. intro H. unfold v_operator. alike_step H. reflexivity. Qed.
Lemma cmp_alike t t' : alike t t' -> v_cmp t = v_cmp t'.
Proof. intro H. unfold v_cmp. alike_step H. rewrite (operator_alike _ _ H). reflexivity. Qed.
Lemma pair_alike mk t t' : alike t t' -> v_pair mk t = v_pair mk t'.
Proof.
  intro H. unfold v_pair. by_sub H; cbn [need rbind]; [reflexivity|]. rewrite (cmp_alike _ _ A). destruct (v_cmp b); try reflexivity. cbn [rbind].
  by_sub H; cbn [need rbind]; [reflexivity|]. rewrite (cmp_alike _ _ A0). reflexivity.
Qed.
Lemma expr_alike t t' : alike t t' -> v_expr t = v_expr t'.
Proof.
  intro H. unfold v_expr. by_sub H; [|exact (pair_alike _ _ _ A)]. by_sub H; [|exact (pair_alike _ _ _ A)].
  by_sub H; [reflexivity|exact (cmp_alike _ _ A)].
Qed.
Lemma where_alike l t t' : alike t t' -> v_where (lab l t) = v_where (lab l t').
Proof. intro H. destruct (lab_alike l _ _ H) as [|a b A]; [reflexivity|]. exact (expr_alike _ _ A). Qed.

Section Types.
  Context (entries : list (dtype * string)).
  Lemma column_alike t t' : alike t t' -> v_column entries t = v_column entries t'.
  Proof. intro H. unfold v_column. alike_step H. by_sub H; [reflexivity|]. alike_step A. reflexivity. Qed.
  Lemma indexed_alike t t' : alike t t' -> v_indexed_column entries t = v_indexed_column entries t'.
  Proof. intro H. unfold v_indexed_column. alike_step H. reflexivity. Qed.
  Lemma index_defs_alike t t' : alike t t' -> v_index_defs t = v_index_defs t'.
  Proof. intro H. unfold v_index_defs. alike_step H. by_sub H; [reflexivity|]. alike_step A. reflexivity. Qed.
  Lemma filter_alike {B} n f (x : B) t t' : alike t t' -> (forall a b, alike a b -> f a = f b) ->
    map (fun _ => x) (filter f (subs n t)) = map (fun _ => x) (filter f (subs n t')).
  Proof.
    intros H F. apply (subs_alike n) in H. induction H as [|a b l l' [A _] _ IH]; [reflexivity|]. cbn [filter]. rewrite (F _ _ A).
    destruct (f b); [|exact IH]. cbn [map]. rewrite IH. reflexivity.
  Qed.
  Lemma column_def_alike acc t t' : alike t t' -> v_column_def entries acc t = v_column_def entries acc t'.
  Proof.
    intro H. unfold v_column_def. destruct acc as [cols idxs]. rewrite (column_alike _ _ H), (index_defs_alike _ _ H). alike_step H.
    destruct (v_column entries t') as [[col|]| |]; try reflexivity. cbn [rbind].
    rewrite (filter_alike "column_constraint" _ (primary_index [col]) _ _ H); [reflexivity|]. intros a b A. exact (present_alike _ _ _ A).
  Qed.
  Lemma column_defs_alike : forall l l', Forall2 (fun a b => alike a b /\ is_rule "column_def" a = true) l l' -> forall acc, v_column_defs entries acc l = v_column_defs entries acc l'.
  Proof.
    intros l l' H. induction H as [|a b l l' [A _] _ IH]; intro acc; [reflexivity|]. cbn [v_column_defs]. rewrite (column_def_alike _ _ _ A).
    destruct (v_column_def entries acc b); try reflexivity. cbn [rbind]. apply IH.
  Qed.
  Lemma constraint_alike t t' : alike t t' -> v_table_constraint entries t = v_table_constraint entries t'.
  Proof.
    intro H. unfold v_table_constraint. by_sub H; [reflexivity|].
    rewrite (collect_same _ _ (v_indexed_column entries) _ _ (subs_alike "indexed_column" _ _ A)); [reflexivity|]. intros x y [X _]. exact (indexed_alike _ _ X).
  Qed.
  Lemma table_schema_alike t t' : alike t t' -> v_table_schema entries t = v_table_schema entries t'.
  Proof.
    intro H. unfold v_table_schema. alike_step H. rewrite (column_defs_alike _ _ (subs_alike "column_def" _ _ H)).
    rewrite (collect_same _ _ (v_table_constraint entries) _ _ (subs_alike "table_constraint" _ _ H)); [reflexivity|]. intros x y [X _]. exact (constraint_alike _ _ X).
  Qed.
  Lemma index_schema_alike t t' : alike t t' -> v_index_schema t = v_index_schema t'.
  Proof.
    intro H. unfold v_index_schema. alike_step H.
    rewrite (collect_same _ _ (fun c => let* n := name_of (sub "column_name" c) in Ok (new_column n)) _ _ (subs_alike "indexed_column" _ _ H)); [reflexivity|].
    intros x y [X _]. alike_step X. reflexivity.
  Qed.
  Lemma add_index_alike t t' : alike t t' -> v_add_index t = v_add_index t'.
  Proof.
    intro H. unfold v_add_index. alike_step H. by_sub H; [reflexivity|]. alike_step A. by_sub A; [reflexivity|]. alike_step A0. reflexivity.
  Qed.
  Lemma alter_table_alike t t' : alike t t' -> v_alter_table entries t = v_alter_table entries t'.
  Proof.
    intro H. unfold v_alter_table. alike_step H.
    assert (E1 : match sub "rename_table_to" t with
                 | Some r => let* n := name_of (sub "table_name" r) in Ok (Some (new_table n))
                 | None => Ok None end =
                 match sub "rename_table_to" t' with
                 | Some r => let* n := name_of (sub "table_name" r) in Ok (Some (new_table n))
                 | None => Ok None end).
    { by_sub H; [reflexivity|]. alike_step A. reflexivity. }
    rewrite E1. clear E1.
    assert (E1 : match sub "rename_table_colum" t with
                 | Some r => let* f := text_of (lab "old_column_name" r) in
                             let* n := text_of (lab "new_column_name" r) in Ok (Some (new_column f, new_column n))
                 | None => Ok None end =
                 match sub "rename_table_colum" t' with
                 | Some r => let* f := text_of (lab "old_column_name" r) in
                             let* n := text_of (lab "new_column_name" r) in Ok (Some (new_column f, new_column n))
                 | None => Ok None end).
    { by_sub H; [reflexivity|]. alike_step A. reflexivity. }
    rewrite E1. clear E1.
    assert (E1 : match sub "add_table_column" t with
                 | Some r => let* d := need (sub "column_def" r) in v_column entries d
                 | None => Ok None end =
                 match sub "add_table_column" t' with
                 | Some r => let* d := need (sub "column_def" r) in v_column entries d
                 | None => Ok None end).
    { by_sub H; [reflexivity|]. by_sub A; [reflexivity|]. exact (column_alike _ _ A0). }
    rewrite E1. clear E1.
    assert (E1 : match sub "add_table_index" t with
                 | Some r => let* i := v_add_index r in Ok (Some i)
                 | None => Ok None end =
                 match sub "add_table_index" t' with
                 | Some r => let* i := v_add_index r in Ok (Some i)
                 | None => Ok None end).
    { by_sub H; [reflexivity|]. rewrite (add_index_alike _ _ A). reflexivity. }
    rewrite E1. reflexivity.
  Qed.
  Lemma row_alike : forall es es', Forall2 (fun a b => alike a b /\ is_rule "expr" a = true) es es' -> forall names, v_row names es = v_row names es'.
  Proof.
    intros es es' H. induction H as [|a b es es' [A _] _ IH]; intro names; [reflexivity|]. cbn [v_row]. alike_step A.
    by_sub A.
    - destruct (match sub "literal_value" b with Some l => _ | None => _ end) as [l|]; [|apply IH]. destruct names as [|n ns]; [apply IH|]. rewrite IH. reflexivity.
    - alike_step A0. rewrite IH. reflexivity.
  Qed.
  Lemma insert_alike t t' : alike t t' -> v_insert t = v_insert t'.
  Proof.
    intro H. unfold v_insert. alike_step H. destruct (name_of (sub "table_name" t')); try reflexivity. cbn [rbind].
    by_sub H; [reflexivity|]. cbn [need rbind].
    rewrite (collect_same _ _ (fun row => v_row (map text (subs "column_name" t')) (subs "expr" row)) _ _ (subs_alike "value_row" _ _ A)); [reflexivity|].
    intros x y [X _]. apply row_alike. exact (subs_alike _ _ _ X).
  Qed.
  Lemma set_alike t t' : alike t t' -> v_set t = v_set t'.
  Proof.
    intro H. unfold v_set. alike_step H. destruct (text_of (sub "column_name" t')); try reflexivity. cbn [rbind].
    by_sub H; [reflexivity|]. cbn [need rbind]. alike_step A. reflexivity.
  Qed.
  Lemma update_alike t t' : alike t t' -> v_update t = v_update t'.
  Proof.
    intro H. unfold v_update. rewrite (lab_own "table" _ _ H eq_refl), (where_alike "whereExpr" _ _ H).
    rewrite (collect_same _ _ v_set _ _ (subs_alike "update_column_set" _ _ H)); [reflexivity|]. intros x y [X _]. exact (set_alike _ _ X).
  Qed.
  Lemma delete_alike t t' : alike t t' -> v_delete t = v_delete t'.
  Proof. intro H. unfold v_delete. rewrite (lab_own "table" _ _ H eq_refl), (where_alike "whereExpr" _ _ H). reflexivity. Qed.
  Lemma order_alike t t' : alike t t' -> is_rule "ordering_term" t = true -> v_order t = v_order t'.
  Proof.
    intros H R. unfold v_order.
    assert (E : sub "expr" t = sub "expr" t').
    { unfold sub. rewrite (subs_part "expr" "ordering_term" t t' H R); [reflexivity|]. intros l x X. unfold own_part. rewrite X. apply Bool.orb_true_r. }
    rewrite E. by_sub H; [reflexivity|]. unfold new_order_type. rewrite (alike_up _ _ A). reflexivity.
  Qed.
  Lemma limit_alike t t' : alike t t' -> v_limit (sub "limit_stmt" t) = v_limit (sub "limit_stmt" t').
  Proof.
    intro H. by_sub H; [reflexivity|]. cbn [v_limit].
    rewrite (subs_part "expr" "limit_stmt" _ _ A E); [reflexivity|]. intros l x X. unfold own_part. rewrite X. apply Bool.orb_true_r.
  Qed.
  Lemma from_alike t t' : alike t t' -> v_from t = v_from t'.
  Proof. intro H. unfold v_from. alike_step H. reflexivity. Qed.
  Lemma select_alike t t' : alike t t' -> v_select t = v_select t'.
  Proof.
    intro H. unfold v_select. cbv zeta. rewrite (limit_alike _ _ H).
    assert (O : match sub "order_by_stmt" t with
                | Some o => let* l := collect v_order (subs "ordering_term" o) in Ok (concat l)
                | None => Ok [] end =
                match sub "order_by_stmt" t' with
                | Some o => let* l := collect v_order (subs "ordering_term" o) in Ok (concat l)
                | None => Ok [] end).
    { by_sub H; [reflexivity|]. rewrite (collect_same _ _ v_order _ _ (subs_alike "ordering_term" _ _ A)); [reflexivity|]. intros x y [X Q]. exact (order_alike _ _ X Q). }
    rewrite O. clear O. by_sub H; [reflexivity|].
    rewrite (subs_own "result_column" _ _ A eq_refl), (labelled_own "groupByExpr" _ _ A eq_refl), (where_alike "whereExpr" _ _ A).
    rewrite (concat_map_same _ _ v_from _ _ (subs_alike "from" _ _ A)); [reflexivity|]. intros x y [X _]. exact (from_alike _ _ X).
  Qed.
  Lemma copy_alike t t' : alike t t' -> v_copy t = v_copy t'.
  Proof.
    intro H. unfold v_copy. rewrite (lab_own "table" _ _ H eq_refl), (sub_own "source_name" _ _ H eq_refl).
    assert (C : match sub "copy_column_list" t with
                | Some l => map (fun c => new_column (unescape_string (text c))) (subs "column_name" l)
                | None => [] end =
                match sub "copy_column_list" t' with
                | Some l => map (fun c => new_column (unescape_string (text c))) (subs "column_name" l)
                | None => [] end).
    { by_sub H; [reflexivity|]. alike_step A. reflexivity. }
    rewrite C. clear C. by_sub H; [reflexivity|]. by_sub A; [reflexivity|]. cbn [text_of need rbind].
    unfold set_copy_format. rewrite (alike_up _ _ A0). reflexivity.
  Qed.
  Lemma statement_alike t t' : alike t t' -> v_statement entries t = v_statement entries t'.
  Proof.
    intro H. unfold v_statement. cbv zeta.
    by_sub H; [|alike_step A; reflexivity].
    by_sub H; [|alike_step A; rewrite (table_schema_alike _ _ A); reflexivity].
    by_sub H; [|alike_step A; rewrite (index_schema_alike _ _ A); reflexivity].
    by_sub H; [|alike_step A; reflexivity].
    by_sub H; [|alike_step A; reflexivity].
    by_sub H; [|alike_step A; reflexivity].
    by_sub H; [|alike_step A; destruct (text_of (sub "database_name" b)); try reflexivity; cbn [rbind]; by_sub A; [reflexivity|]; alike_step A0; reflexivity].
    by_sub H; [|rewrite (alter_table_alike _ _ A); reflexivity].
    by_sub H; [|rewrite (insert_alike _ _ A); reflexivity].
    by_sub H; [|rewrite (update_alike _ _ A); reflexivity].
    by_sub H; [|rewrite (select_alike _ _ A); reflexivity].
    by_sub H; [|rewrite (delete_alike _ _ A); reflexivity].
    by_sub H; [|reflexivity].
    by_sub H; [|reflexivity].
    by_sub H; [|reflexivity].
    by_sub H; [|alike_step A; reflexivity].
    by_sub H; [|rewrite (copy_alike _ _ A); reflexivity].
    by_sub H; [|alike_step A; reflexivity].
    by_sub H; [reflexivity|alike_step A; reflexivity].
  Qed.
  Lemma parse_alike t t' : alike t t' -> v_parse entries t = v_parse entries t'.
  Proof.
    intro H. unfold v_parse.
    assert (F : Forall2 alike (concat (map (subs "sql_stmt") (subs "sql_stmt_list" t))) (concat (map (subs "sql_stmt") (subs "sql_stmt_list" t')))).
    { apply (subs_alike "sql_stmt_list") in H. induction H as [|a b l l' [A _] _ IH]; [constructor|]. cbn [map concat]. apply Forall2_app; [|exact IH].
      apply (subs_alike "sql_stmt") in A. clear - A. induction A as [|x y m m' [X _] _ IH]; constructor; assumption. }
    rewrite (collect_same _ _ (v_statement entries) _ _ F statement_alike). reflexivity.
  Qed.

  (** ** Texts *)

  Lemma same_empty q q' x : plain_byte x -> same_letters q q' -> String.eqb q (String x "") = String.eqb q' (String x "").
  Proof.
    intros P E. assert (W : forall s, String.eqb s (String x "") = String.eqb (to_upper s) (String x "")).
    { intros [|c [|d s]]; try reflexivity; cbn [to_upper smap String.eqb]; rewrite up_eqb by exact P; [reflexivity|]. destruct (Ascii.eqb c x); reflexivity. }
    rewrite (W q), (W q'), E. reflexivity.
  Qed.
  Lemma same_nil q q' : same_letters q q' -> String.eqb q "" = String.eqb q' "".
  Proof. intro E. destruct q, q'; try reflexivity; discriminate E. Qed.
  Lemma keywords q q' t t' : same_letters q q' ->
    parse_tree (token_stream q) = Found [(""%string, t)] -> parse_tree (token_stream q') = Found [(""%string, t')] ->
    own_words t = own_words t' -> parse entries q = parse entries q'.
  Proof.
    intros E T T' W. destruct (same_tree _ _ _ E T) as (t2 & T2 & R). rewrite T' in T2. injection T2 as <-.
    unfold parse, parse_string. rewrite (same_nil _ _ E), (same_empty _ _ ";"%char eq_refl E), T, T'.
    rewrite (parse_alike _ _ (words_alike _ _ R W)). reflexivity.
  Qed.
  Lemma respelt_below path : forall t t', respelt t t' -> forall x, below path t x -> exists x', below path t' x' /\ respelt x x'.
  Proof.
    induction path as [|n path IH]; intros t t' R x B; inversion B as [|? ? n' cs l ds x0 I0 B0]; subst.
    - exists t'. split; [constructor|exact R].
    - inversion R as [|? ? ds' F]; subst.
      assert (X : exists l d, In (l, d) ds' /\ respelt (Node n ds) d).
      { clear - F I0. induction F as [|c d cs ds' [L Q] _ IHF]; [contradiction|]. destruct I0 as [->|I].
        - destruct d as [l' d]. exists l', d. split; [left; reflexivity|exact Q].
        - destruct (IHF I) as (l' & d' & I' & Q'). exists l', d'. split; [right; exact I'|exact Q']. }
      destruct X as (l' & d & I & Q). destruct (IH _ _ Q _ B0) as (x' & B' & Q'). exists x'. split; [|exact Q'].
      inversion Q; subst. eapply below_down; eassumption.
  Qed.
  Lemma respelt_sym t : forall t', respelt t t' -> respelt t' t.
  Proof.
    induction t as [k|r cs IH] using tree_ind2; intros t' H; inversion H as [a b K X|r' cs' ds F]; subst.
    - constructor; [congruence|]. unfold same_letters in *. congruence.
    - constructor. clear H. revert ds F. induction cs as [|c cs IHc]; intros ds F; inversion F as [|? d ? ds' [L R] F']; subst; [constructor|].
      inversion IH as [|? ? I1 I2]; subst. constructor; [split; [congruence|exact (I1 _ R)]|exact (IHc I2 _ F')].
  Qed.
  Lemma without_like r t t' : respelt t t' -> without r t -> without r t'.
  Proof. intros R W x B. destruct (respelt_below _ _ _ (respelt_sym _ _ R) _ B) as (x' & B' & _). exact (W x' B'). Qed.
  Lemma unreadable_like t t' : respelt t t' -> unreadable t -> unreadable t'.
  Proof.
    intros R [(x & B & W)|[(x & B & W)|(x & B & W)]].
    - destruct (respelt_below _ _ _ R _ B) as (x' & B' & Q). left. exists x'. split; [exact B'|exact (without_like _ _ _ Q W)].
    - right. left. destruct B as [B|B]; destruct (respelt_below _ _ _ R _ B) as (x' & B' & Q); exists x'; (split; [|exact (without_like _ _ _ Q W)]); [left|right]; exact B'.
    - destruct (respelt_below _ _ _ R _ B) as (x' & B' & Q). right. right. exists x'. split; [exact B'|exact (without_like _ _ _ Q W)].
  Qed.
  Lemma verdict q q' : same_letters q q' ->
    (forall e, parse entries q = Err e <-> parse entries q' = Err e) /\ (parse entries q = Panic <-> parse entries q' = Panic) /\
    ((exists ss, parse entries q = Ok ss) <-> exists ss, parse entries q' = Ok ss).
  Proof.
    assert (P : forall q q', same_letters q q' -> parse entries q = Panic -> parse entries q' = Panic).
    { clear. intros q q' E H. apply panics in H. apply panics. destruct H as (N & d & T & U). split.
      - intro Q. apply N. pose proof (same_nil _ _ E) as A. pose proof (same_empty _ _ ";"%char eq_refl E) as B. destruct Q as [->| ->].
        + left. cbn in A. apply String.eqb_eq. exact A.
        + right. apply String.eqb_eq. rewrite B. reflexivity.
      - destruct (same_tree _ _ _ E T) as (t' & T' & R). inversion R as [|? ? ds F]; subst. exists ds. split; [exact T'|exact (unreadable_like _ _ R U)]. }
    assert (X : forall q q' e, same_letters q q' -> parse entries q = Err e -> parse entries q' = Err e).
    { clear. intros q q' e E. unfold parse, parse_string. rewrite (same_nil _ _ E), (same_empty _ _ ";"%char eq_refl E).
      destruct (String.eqb q' "" || String.eqb q' ";"); [auto|].
      pose proof (parse_tree_like _ _ (stream_same _ _ E)) as L. destruct L as [cs ds C| |]; [|auto|auto].
      destruct C as [|[l t] [l' t'] cs ds [_ R] C]; [auto|]. destruct C as [|[? ?] [? ?] ? ? _ _]; [|auto]. cbn [fst].
      intro H. exfalso. exact (ne_parse entries t e H). }
    intro E. assert (E' : same_letters q' q) by (unfold same_letters in *; congruence).
    split; [intro e; split; apply X; assumption|]. split; [split; apply P; assumption|]. split; intros (ss & H).
    - destruct (parse entries q') as [ss'|e|] eqn:Q; [eexists; reflexivity| |].
      + apply (X _ _ _ E') in Q. congruence.
      + apply (P _ _ E') in Q. congruence.
    - destruct (parse entries q) as [ss'|e|] eqn:Q; [eexists; reflexivity| |].
      + apply (X _ _ _ E) in Q. congruence.
      + apply (P _ _ E) in Q. congruence.
  Qed.
End Types.
