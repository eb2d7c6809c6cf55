(** The text of a condition and its meaning. *)
From Coq Require Import Lia Permutation.
From Verif Require Import GoBase ModelUtil ModelNum ModelFn ModelQuery ModelEbnf ModelGrammar ModelLex ModelVisitor
  SpecFn SpecQuery SpecParse SpecRound SpecBatch SpecWhere FactsBase ProofEbnf ProofMachine ProofFn ProofNum ProofQuery ProofParse ProofLex ProofRound ProofRound2 ProofRound3
  ProofRound4 ProofRound8 ProofRound12 ProofRound13.

Lemma supported_parse entries s : Permutation entries data_type_strings -> supported s -> exists q, stmt_string s = Ok q /\ parse entries q = Ok [s].
Proof.
  intros P S. destruct (supported_back entries s P S) as (ps & E & G & H & T & Rd & V). exists (glue ps). split; [exact E|].
  apply reads_parse. split; [exact G|]. split; [exact H|]. exists T. split; assumption.
Qed.
Lemma supported_inj s s' : supported s -> supported s' -> stmt_string s = stmt_string s' -> s = s'.
Proof.
  intros S S' E. destruct (supported_parse _ s (Permutation_refl _) S) as (q & Q & H). destruct (supported_parse _ s' (Permutation_refl _) S') as (q' & Q' & H').
  rewrite Q, Q' in E. injection E as <-. rewrite H in H'. congruence.
Qed.
Lemma name_any x : name x -> any_name x.
Proof. left. left. assumption. Qed.
Lemma cmp_inj a b : comparison_ok a -> comparison_ok b -> expr_string a = expr_string b -> a = b.
Proof.
  intros A B E. assert (N : name "t").
  { split; [exists "t"%char, ""%string; split; [reflexivity|]; split; [right; left; cbn; lia|intros c []]|].
    intros (k & H). vm_compute in H. repeat destruct H as [H|H]; try discriminate; contradiction. }
  assert (Sa : supported (SDelete (new_table "t") (Some a))) by (constructor; [constructor; exact (name_any _ N)|constructor; exact A]).
  assert (Sb : supported (SDelete (new_table "t") (Some b))) by (constructor; [constructor; exact (name_any _ N)|constructor; exact B]).
  assert (X : SDelete (new_table "t") (Some a) = SDelete (new_table "t") (Some b)); [|congruence].
  apply supported_inj; [exact Sa|exact Sb|]. unfold stmt_string, where_strings. cbn [has_conditions condition_string]. rewrite E. reflexivity.
Qed.

(** ** The text is that of the groups *)

Definition group_text (g : list expr) : string := join " AND " (map expr_string g).
Definition groups_text (gs : list (list expr)) : string := join " OR " (map group_text gs).
Definition full (gs : list (list expr)) : Prop := gs <> [] /\ Forall (fun g => g <> []) gs.
Lemma join_app sep a b : a <> [] -> b <> [] -> join sep (a ++ b) = (join sep a ++ sep ++ join sep b)%string.
Proof.
  intros A B. induction a as [|x a IH]; [contradiction|]. destruct a as [|y a].
  - cbn [app]. destruct b as [|z b]; [contradiction|]. rewrite join_cons. reflexivity.
  - change ((x :: y :: a) ++ b) with (x :: y :: (a ++ b)). rewrite !join_cons, !sapp_assoc. change (y :: a ++ b) with ((y :: a) ++ b). rewrite IH by discriminate. reflexivity.
Qed.
Lemma join_groups_full a b : full a -> full b -> full (join_groups a b).
Proof.
  intros [A Fa] [B Fb]. induction a as [|g a IH]; [contradiction|]. destruct a as [|h a].
  - cbn [join_groups]. destruct b as [|k b]; [contradiction|]. split; [discriminate|]. inversion Fb; subst. constructor; [|assumption].
    inversion Fa as [|? ? G _]; subst. destruct g; [contradiction|discriminate].
  - change (join_groups (g :: h :: a) b) with (g :: join_groups (h :: a) b). inversion Fa; subst. destruct (IH ltac:(discriminate) ltac:(assumption)) as [_ X].
    split; [discriminate|constructor; assumption].
Qed.
Lemma groups_full e : full (groups e).
Proof.
  induction e as [op c l|a IHa b IHb|a IHa b IHb]; cbn [groups].
  - split; [discriminate|repeat constructor; discriminate].
  - apply join_groups_full; assumption.
  - destruct IHa, IHb. split; [|apply Forall_app; split; assumption]. destruct (groups a); [contradiction|discriminate].
Qed.
Lemma join_groups_text a b : full a -> full b -> groups_text (join_groups a b) = (groups_text a ++ " AND " ++ groups_text b)%string.
Proof.
  intros [A Fa] [B Fb]. unfold groups_text. induction a as [|g a IH]; [contradiction|]. destruct a as [|h a].
  - destruct b as [|k b]; [contradiction|]. cbn [join_groups map]. unfold group_text at 1. rewrite map_app.
    inversion Fa as [|? ? G _]; subst. inversion Fb as [|? ? K _]; subst.
    rewrite join_app by (destruct g, k; try contradiction; discriminate). fold (group_text g) (group_text k).
    destruct b as [|m b]; [reflexivity|]. cbn [map]. rewrite !join_cons, !sapp_assoc. reflexivity.
  - change (join_groups (g :: h :: a) b) with (g :: join_groups (h :: a) b). inversion Fa; subst.
    destruct (join_groups_full (h :: a) b) as [N _]; [split; [discriminate|assumption]|split; assumption|].
    destruct (join_groups (h :: a) b) as [|m r] eqn:E; [contradiction|]. cbn [map] in *. rewrite !join_cons, IH by (discriminate || assumption). rewrite !sapp_assoc. reflexivity.
Qed.
Lemma expr_text e : expr_string e = groups_text (groups e).
Proof.
  induction e as [op c l|a IHa b IHb|a IHa b IHb]; cbn [groups].
  - reflexivity.
  - cbn [expr_string]. rewrite join_groups_text by apply groups_full. rewrite IHa, IHb. reflexivity.
  - cbn [expr_string]. unfold groups_text. rewrite map_app, join_app. { rewrite IHa, IHb. reflexivity. }
    all: match goal with |- map _ (groups ?x) <> [] => destruct (groups_full x); destruct (groups x); [contradiction|discriminate] end.
Qed.

(** ** The text determines the groups *)

Definition cmp_p (e : expr) : list piece := match e with ECmp op c (Some l) => cmp_pieces op (c_name c) l | _ => [] end.
Definition cmp_t (e : expr) : list token := match e with ECmp op c (Some l) => cmp_toks (cmp_of op (c_name c) l) | _ => [] end.
Definition conn (t : token) : bool := String.eqb (tk t) "AND_" || String.eqb (tk t) "OR_".
Definition tok_text (ts : list token) : string :=
  match ts with a :: b :: r => (tx a ++ " " ++ tx b ++ " " ++ fold_right (fun t s => tx t ++ s) "" r)%string | _ => ""%string end.
Lemma cmp_facts a : comparison_ok a ->
  good (cmp_p a) /\ glue (cmp_p a) = expr_string a /\ shown (cmp_p a) = cmp_t a /\ forallb (fun t => negb (conn t)) (cmp_t a) = true
  /\ tok_text (cmp_t a) = expr_string a.
Proof.
  intro A. destruct (comparison_parts a A) as (op & c & l & -> & O & P & L). cbn [cmp_p cmp_t c_name new_column].
  split; [apply good_cmp; assumption|]. split; [apply glue_cmp; assumption|]. split; [apply shown_cmp; assumption|].
  destruct (literal_pieces l L) as (_ & G & S). destruct (literal_lit l L) as [K _].
  split.
  - unfold cmp_toks, cmp_of. cbn [cm_col cm_op cm_lit forallb]. apply andb_true_intro. split; [reflexivity|]. apply andb_true_intro.
    split; [each_basic O; reflexivity|]. destruct (lit_of l) as [n|n|b|k w]; try reflexivity. cbn [lit_ok] in K. unfold lit_words in K. cbn [In] in K.
    repeat (destruct K as [<-|K]; [reflexivity|]). contradiction.
  - assert (X : fold_right (fun t s => (tx t ++ s)%string) ""%string (lit_toks (lit_of l)) = literal_string l).
    { rewrite <- G. destruct (lit_of l); reflexivity. }
    unfold cmp_toks, cmp_of. cbn [cm_col cm_op cm_lit tok_text]. rewrite X. each_basic O; reflexivity.
Qed.
Lemma cmp_t_inj a b : comparison_ok a -> comparison_ok b -> cmp_t a = cmp_t b -> a = b.
Proof. intros A B E. apply cmp_inj; [exact A|exact B|]. rewrite <- (proj2 (proj2 (proj2 (proj2 (cmp_facts a A))))), E. apply cmp_facts. exact B. Qed.

(** the comparisons one after the other: [true] for AND *)
Definition seq_rest (gs : list (list expr)) : list (bool * expr) :=
  flat_map (fun g => match g with [] => [] | b :: h => (false, b) :: map (pair true) h end) gs.
Fixpoint regroup (a : expr) (l : list (bool * expr)) : list (list expr) :=
  match l with
  | [] => [[a]]
  | (true, b) :: r => match regroup b r with g :: gs => (a :: g) :: gs | [] => [] end
  | (false, b) :: r => [a] :: regroup b r
  end.
Lemma regroup_seq gs : Forall (fun g => g <> []) gs -> forall g a, regroup a (map (pair true) g ++ seq_rest gs) = (a :: g) :: gs.
Proof.
  intro F. induction F as [|h gs N F IH]; intro g.
  - induction g as [|b g IHg]; intro a; [reflexivity|]. cbn [map app regroup]. rewrite IHg. reflexivity.
  - induction g as [|b g IHg]; intro a.
    + destruct h as [|b h]; [contradiction|]. cbn [map app seq_rest flat_map regroup]. fold (seq_rest gs). rewrite IH. reflexivity.
    + cbn [map app regroup]. rewrite IHg. reflexivity.
Qed.

Definition conn_word (b : bool) : string := if b then "AND" else "OR".
Definition conn_tok (b : bool) : token := mkTok (if b then "AND_" else "OR_") (conn_word b).
Definition seq_blocks (a : expr) (l : list (bool * expr)) : list (list piece) :=
  cmp_p a :: flat_map (fun p => [kw [conn_word (fst p)]; cmp_p (snd p)]) l.
Definition seq_toks (a : expr) (l : list (bool * expr)) : list token :=
  cmp_t a ++ flat_map (fun p => conn_tok (fst p) :: cmp_t (snd p)) l.
Lemma sep_inj (a b : list token) s t u v : forallb (fun t => negb (conn t)) a = true -> forallb (fun t => negb (conn t)) b = true ->
  conn s = true -> conn t = true -> a ++ s :: u = b ++ t :: v -> a = b /\ s = t /\ u = v.
Proof.
  revert b. induction a as [|x a IH]; intros [|y b] A B S T E; cbn [app forallb] in *.
  - injection E as -> ->. auto.
  - injection E as -> _. apply andb_prop in B. destruct B as [B _]. rewrite S in B. discriminate.
  - injection E as <- _. apply andb_prop in A. destruct A as [A _]. rewrite T in A. discriminate.
  - injection E as <- E. apply andb_prop in A, B. destruct (IH b (proj2 A) (proj2 B) S T E) as (-> & -> & ->). auto.
Qed.
Lemma no_sep (a : list token) s u b : forallb (fun t => negb (conn t)) b = true -> conn s = true -> a ++ s :: u <> b.
Proof.
  intros B S <-. rewrite forallb_app in B. cbn [forallb] in B. rewrite S in B. cbn in B. rewrite andb_false_r in B. discriminate.
Qed.
Lemma seq_inj l : forall a b m, comparison_ok a -> comparison_ok b -> Forall (fun p => comparison_ok (snd p)) l -> Forall (fun p => comparison_ok (snd p)) m ->
  seq_toks a l = seq_toks b m -> a = b /\ l = m.
Proof.
  induction l as [|[c x] l IH]; intros a b [|[d y] m] A B L M E; unfold seq_toks in E; cbn [flat_map fst snd app] in E.
  - rewrite !app_nil_r in E. split; [apply cmp_t_inj; assumption|reflexivity].
  - exfalso. rewrite app_nil_r in E. symmetry in E. revert E. apply no_sep; [apply cmp_facts; exact A|destruct d; reflexivity].
  - exfalso. rewrite app_nil_r in E. revert E. apply no_sep; [apply cmp_facts; exact B|destruct c; reflexivity].
  - inversion L; subst. inversion M; subst. cbn [snd] in *.
    apply sep_inj in E; [|apply cmp_facts; assumption|apply cmp_facts; assumption|destruct c; reflexivity|destruct d; reflexivity].
    destruct E as (E1 & E2 & E3). apply cmp_t_inj in E1; [|assumption..]. subst b. assert (c = d) as -> by (destruct c, d; try reflexivity; discriminate).
    destruct (IH x y m) as [-> ->]; [assumption..|exact E3|]. auto.
Qed.
Lemma seq_pieces a l : comparison_ok a -> Forall (fun p => comparison_ok (snd p)) l ->
  good (spaced (seq_blocks a l)) /\ shown (spaced (seq_blocks a l)) = seq_toks a l.
Proof.
  intros A L. split.
  - apply good_spaced. unfold seq_blocks. constructor; [apply cmp_facts; exact A|]. induction L as [|[c x] l X L IH]; [constructor|].
    cbn [flat_map fst snd app]. constructor; [destruct c; goods|]. constructor; [apply cmp_facts; exact X|exact IH].
  - rewrite shown_spaced. unfold seq_blocks, seq_toks. cbn [flat_map]. rewrite (proj1 (proj2 (proj2 (cmp_facts a A)))). f_equal.
    induction L as [|[c x] l X L IH]; [reflexivity|]. cbn [flat_map fst snd app] in *. cbn [snd] in X. rewrite (proj1 (proj2 (proj2 (cmp_facts x X)))), IH.
    destruct c; reflexivity.
Qed.
Lemma seq_text a l : comparison_ok a -> Forall (fun p => comparison_ok (snd p)) l ->
  glue (spaced (seq_blocks a l)) = (expr_string a ++ fold_right (fun p s => " " ++ conn_word (fst p) ++ " " ++ expr_string (snd p) ++ s) "" l)%string.
Proof.
  intros A L. rewrite glue_spaced. unfold seq_blocks. cbn [map]. rewrite (proj1 (proj2 (cmp_facts a A))).
  revert A. generalize a as b. induction L as [|[c x] l X L IH]; intros b B; [cbn [flat_map map join fold_right]; rewrite append_nil_r; reflexivity|].
  cbn [flat_map fst snd app map fold_right] in *. rewrite !join_cons, (proj1 (proj2 (cmp_facts x X))), (IH x X). destruct c; reflexivity.
Qed.

Definition all_cmp (gs : list (list expr)) : Prop := Forall (Forall comparison_ok) gs.
Lemma join_groups_all a b : all_cmp a -> all_cmp b -> all_cmp (join_groups a b).
Proof.
  intros A B. induction A as [|g a G A IH]; [exact B|]. destruct a as [|h a].
  - cbn [join_groups]. destruct b as [|k b]; [repeat constructor; exact G|]. inversion B; subst. constructor; [apply Forall_app; split; assumption|assumption].
  - change (join_groups (g :: h :: a) b) with (g :: join_groups (h :: a) b). constructor; assumption.
Qed.
Lemma groups_all e : plain_expr e -> all_cmp (groups e).
Proof.
  induction 1 as [a A|a b _ IHa _ IHb|a b _ IHa _ IHb]; cbn [groups].
  - destruct A as [op c l O N L]. constructor; [|constructor]. constructor; [constructor; assumption|constructor].
  - apply join_groups_all; assumption.
  - apply Forall_app. split; assumption.
Qed.
Lemma seq_cmps g gs : Forall comparison_ok g -> all_cmp gs -> Forall (fun p : bool * expr => comparison_ok (snd p)) (map (pair true) g ++ seq_rest gs).
Proof.
  intros G F. apply Forall_app. split; [apply Forall_map; exact G|]. induction F as [|h gs H F IH]; [constructor|]. cbn [seq_rest flat_map]. fold (seq_rest gs).
  apply Forall_app. split; [|exact IH]. destruct H as [|b h B H]; [constructor|]. constructor; [exact B|]. apply Forall_map. exact H.
Qed.
Lemma group_seq_text a g : group_text (a :: g) = (expr_string a ++ fold_right (fun p s => " " ++ conn_word (fst p) ++ " " ++ expr_string (snd p) ++ s) "" (map (pair true) g))%string.
Proof.
  unfold group_text. revert a. induction g as [|b g IH]; intro a; [cbn [map join fold_right]; rewrite append_nil_r; reflexivity|].
  cbn [map fold_right fst snd] in *. rewrite join_cons, IH. cbn [conn_word]. rewrite ?sapp_assoc. reflexivity.
Qed.
Definition rest_text (l : list (bool * expr)) (t : string) : string := fold_right (fun p s => " " ++ conn_word (fst p) ++ " " ++ expr_string (snd p) ++ s)%string t l.
Lemma rest_text_app l m : rest_text (l ++ m) "" = (rest_text l "" ++ rest_text m "")%string.
Proof. unfold rest_text. induction l as [|p l IH]; [reflexivity|]. cbn [app fold_right]. rewrite IH, !sapp_assoc. reflexivity. Qed.
Lemma groups_seq_text gs : Forall (fun g => g <> []) gs -> forall a g,
  groups_text ((a :: g) :: gs) = (expr_string a ++ rest_text (map (pair true) g ++ seq_rest gs) "")%string.
Proof.
  intro F. induction F as [|h gs N F IH]; intros a g.
  - unfold groups_text. cbn [map join seq_rest flat_map]. rewrite app_nil_r. apply group_seq_text.
  - destruct h as [|b h]; [contradiction|]. unfold groups_text in *. cbn [map] in *. rewrite join_cons, IH, group_seq_text. fold (rest_text (map (pair true) g) "").
    cbn [seq_rest flat_map]. fold (seq_rest gs). rewrite !rest_text_app.
    cbn [rest_text fold_right fst snd conn_word]. rewrite !sapp_assoc. reflexivity.
Qed.

Lemma groups_inj gs hs : full gs -> full hs -> all_cmp gs -> all_cmp hs -> groups_text gs = groups_text hs -> gs = hs.
Proof.
  intros [G0 G] [H0 H] Ga Ha E. destruct gs as [|[|a g] gs]; [contradiction|inversion G; contradiction|]. destruct hs as [|[|b h] hs]; [contradiction|inversion H; contradiction|].
  inversion G as [|? ? _ G']; subst. inversion H as [|? ? _ H']; subst. inversion Ga as [|? ? Ga1 Ga2]; subst. inversion Ha as [|? ? Ha1 Ha2]; subst.
  inversion Ga1 as [|? ? A Ga3]; subst. inversion Ha1 as [|? ? B Ha3]; subst.
  rewrite !groups_seq_text in E by assumption.
  set (l := map (pair true) g ++ seq_rest gs) in *. set (m := map (pair true) h ++ seq_rest hs) in *.
  assert (L : Forall (fun p : bool * expr => comparison_ok (snd p)) l) by (apply seq_cmps; assumption).
  assert (M : Forall (fun p : bool * expr => comparison_ok (snd p)) m) by (apply seq_cmps; assumption).
  unfold rest_text in E. rewrite <- (seq_text a l A L), <- (seq_text b m B M) in E.
  destruct (seq_pieces a l A L) as [[Ok1 [Ch1 _]] S1]. destruct (seq_pieces b m B M) as [[Ok2 [Ch2 _]] S2].
  pose proof (stream_pieces _ Ok1 Ch1) as T1. pose proof (stream_pieces _ Ok2 Ch2) as T2. rewrite E, T2 in T1. apply app_inj_tail in T1. destruct T1 as [T1 _].
  rewrite S1, S2 in T1. symmetry in T1. destruct (seq_inj l a b m A B L M T1) as [<- X].
  rewrite <- (regroup_seq gs G' g a), <- (regroup_seq hs H' h a). fold l m. rewrite X. reflexivity.
Qed.

Theorem where_text c d : plain_expr c -> plain_expr d -> (expr_string c = expr_string d <-> groups c = groups d).
Proof.
  intros C D. rewrite !expr_text. split; [|intros ->; reflexivity]. apply groups_inj; try apply groups_full; apply groups_all; assumption.
Qed.

(** ** The meaning *)

Lemma no_or_one e : no_or e -> exists g, groups e = [g].
Proof.
  induction e as [op c l|a IHa b IHb|a IHa b IHb]; cbn [no_or groups]; [eauto| |contradiction].
  intros [A B]. destruct (IHa A) as [g ->]. destruct (IHb B) as [h ->]. cbn. eauto.
Qed.
Lemma no_or_holds v e : no_or e -> text_holds v (groups e) = holds v e.
Proof.
  induction e as [op c l|a IHa b IHb|a IHa b IHb]; cbn [no_or groups holds]; [|intros [A B]|contradiction].
  - cbn. rewrite andb_true_r, orb_false_r. reflexivity.
  - rewrite <- IHa, <- IHb by assumption. destruct (no_or_one a A) as [g ->]. destruct (no_or_one b B) as [h ->]. cbn. rewrite !orb_false_r. apply forallb_app.
Qed.
Theorem text_meaning v e : or_of_ands e -> text_holds v (groups e) = holds v e.
Proof.
  induction e as [op c l|a IHa b IHb|a IHa b IHb]; intro H.
  - apply no_or_holds. exact I.
  - apply no_or_holds. exact H.
  - destruct H as [A B]. cbn [groups holds]. unfold text_holds in *. rewrite existsb_app, IHa, IHb by assumption. reflexivity.
Qed.

(** a name, checked *)
Definition name_check (x : string) : bool := is_word x && negb (existsb (fun p => String.eqb (snd p) (to_upper x)) literal_tokens).
Lemma start_letter c : ident_start c = true -> letter c.
Proof.
  unfold ident_start, is_upper_letter, letter. intro H. apply orb_prop in H. destruct H as [H|H]; [|right; right; apply Ascii.eqb_eq; exact H].
  destruct c as [[] [] [] [] [] [] [] []]; vm_compute in H; try discriminate H; vm_compute; lia.
Qed.
Lemma name_checked x : name_check x = true -> name x.
Proof.
  intro H. apply andb_prop in H. destruct H as [W R]. split.
  - destruct x as [|c r]; [discriminate|]. exists c, r. split; [reflexivity|]. unfold is_word in W. apply andb_prop in W. destruct W as [S A].
    split; [apply start_letter; exact S|]. intros d D. unfold all_chars in A. rewrite forallb_forall in A. specialize (A d D). unfold ident_char in A.
    apply orb_prop in A. destruct A as [A|A]; [left; apply start_letter; exact A|right].
    unfold is_digit_b in A. apply andb_prop in A. destruct A as [A B]. apply Nat.leb_le in A, B. split; assumption.
  - intros (k & I). apply negb_true_iff in R. assert (X : existsb (fun p => String.eqb (snd p) (to_upper x)) literal_tokens = true); [|congruence].
    apply existsb_exists. exists (k, to_upper x). split; [exact I|apply String.eqb_refl].
Qed.
Lemma any_checked x : name_check x = true -> any_name x.
Proof. intros H. apply name_any, name_checked, H. Qed.
Lemma bare_checked x : name_check x = true -> bare_name x.
Proof. intros H. left. apply name_checked, H. Qed.
