(** Reading back printed statements: what the visitor finds in a tree, and how a printed statement is
    cut into pieces. *)
From Coq Require Import Lia.
From Verif Require Import GoBase ModelUtil ModelNum ModelFn ModelQuery ModelEbnf ModelGrammar ModelLex ModelVisitor
  SpecQuery SpecParse SpecRound FactsBase ProofEbnf ProofMachine ProofFn ProofNum ProofQuery ProofParse ProofLex ProofRound ProofRound2.

(** ** Trees *)

Definition texts (cs : children) : string := fold_right (fun c s => (text (snd c) ++ s)%string) ""%string cs.
Lemma text_node n cs : text (Node n cs) = texts cs.
Proof. cbn [text]. induction cs as [|[l c] cs IH]; [reflexivity|]. cbn [texts fold_right snd]. rewrite IH. reflexivity. Qed.
Lemma text_leaf t : text (Leaf t) = tx t.
Proof. reflexivity. Qed.
Lemma text_one n l c : text (Node n [(l, c)]) = text c.
Proof. rewrite text_node. apply append_nil_r. Qed.
Lemma text_ident n x : text (Node n (ident x)) = x.
Proof. unfold ident. rewrite !text_one. reflexivity. Qed.

Definition named (name : string) (cs : children) : list tree := filter (is_rule name) (map snd cs).
Lemma subs_node name r cs : subs name (Node r cs) = named name cs.
Proof. reflexivity. Qed.
Lemma named_app name a b : named name (a ++ b) = named name a ++ named name b.
Proof. unfold named. rewrite map_app, filter_app. reflexivity. Qed.
Lemma named_cons name l t cs : named name ((l, t) :: cs) = if is_rule name t then t :: named name cs else named name cs.
Proof. reflexivity. Qed.
(** a list with commas *)
Lemma named_ctree {A} name (c : A -> children) xs : named name (ctree c xs) = flat_map (fun x => named name (c x)) xs.
Proof.
  unfold ctree. induction xs as [|x xs IH]; [reflexivity|]. cbn [flat_map app]. rewrite named_cons, named_app, IH. reflexivity.
Qed.
Definition tokened (kind : string) (cs : children) : bool := existsb (is_tok kind) (map snd cs).
Lemma tokened_app kind a b : tokened kind (a ++ b) = tokened kind a || tokened kind b.
Proof. unfold tokened. rewrite map_app, existsb_app. reflexivity. Qed.
Definition marked (l : string) (cs : children) : list tree := map snd (filter (fun c => String.eqb (fst c) l) cs).
Lemma marked_app l a b : marked l (a ++ b) = marked l a ++ marked l b.
Proof. unfold marked. rewrite filter_app, map_app. reflexivity. Qed.
Lemma marked_ctree {A} l (c : A -> children) xs : l <> ""%string -> marked l (ctree c xs) = flat_map (fun x => marked l (c x)) xs.
Proof.
  intro N. unfold ctree. induction xs as [|x xs IH]; [reflexivity|]. cbn [flat_map app].
  change ((""%string, Leaf comma) :: c x ++ flat_map (fun x0 => (""%string, Leaf comma) :: c x0) xs)
    with ([(""%string, Leaf comma)] ++ c x ++ flat_map (fun x0 => (""%string, Leaf comma) :: c x0) xs).
  rewrite !marked_app, IH. unfold marked at 1. cbn [filter fst].
  destruct l; [contradiction|]. reflexivity.
Qed.
Lemma flat_map_one {A B} (f : A -> B) xs : flat_map (fun x => [f x]) xs = map f xs.
Proof. induction xs as [|x xs IH]; [reflexivity|]. cbn [flat_map map app]. rewrite IH. reflexivity. Qed.
Lemma flat_map_none {A B} (xs : list A) : flat_map (fun _ => @nil B) xs = [].
Proof. induction xs; [reflexivity|assumption]. Qed.

Lemma collect_map {A B C} (f : B -> result C) (g : A -> B) (h : A -> C) xs :
  (forall x, In x xs -> f (g x) = Ok (h x)) -> collect f (map g xs) = Ok (map h xs).
Proof.
  induction xs as [|x xs IH]; intro H; [reflexivity|]. cbn [map collect]. rewrite (H x (or_introl eq_refl)). cbn [rbind].
  rewrite IH by (intros y Iy; apply H; right; exact Iy). reflexivity.
Qed.

(** ** Names and literals *)

(** a name in quotes, or a word that is no keyword *)
Definition plain (x : string) : Prop := is_name x = true /\ kind_of_word x = "IDENTIFIER"%string.
(** a name that keeps its quotes *)
Definition bare (x : string) : Prop := plain x /\ unescape_name_string x = x.
(** a name without quotes *)
Definition solid (x : string) : Prop := is_word x = true /\ kind_of_word x = "IDENTIFIER"%string.
Lemma solid_plain x : solid x -> plain x.
Proof. intros [W K]. split; [unfold is_name; rewrite W; reflexivity|exact K]. Qed.
Lemma bare_plain x : bare x -> plain x. Proof. intros [P _]. exact P. Qed.
Lemma bares_plain l : Forall bare l -> Forall plain l. Proof. apply Forall_impl. exact bare_plain. Qed.
Lemma solids_plain l : Forall solid l -> Forall plain l. Proof. apply Forall_impl. exact solid_plain. Qed.

Lemma all_chars_in p s c : all_chars p s = true -> smem c s = true -> p c = true.
Proof.
  unfold all_chars, smem. induction s as [|d s IH]; cbn [list_ascii_of_string forallb sexists]; [discriminate|].
  intros A M. apply andb_prop in A. destruct A as [A B]. apply orb_prop in M. destruct M as [M|M]; [|apply IH; assumption].
  apply Ascii.eqb_eq in M. subst d. exact A.
Qed.
Lemma word_chars x : is_word x = true -> all_chars ident_char x = true.
Proof.
  destruct x as [|c x]; [discriminate|]. cbn [is_word]. intro H. apply andb_prop in H. destruct H as [A B].
  unfold all_chars in *. cbn [list_ascii_of_string forallb]. rewrite B. unfold ident_char. rewrite A. reflexivity.
Qed.
Lemma smem_srev c s : smem c (srev s) = smem c s.
Proof.
  assert (H : forall a d, smem c (a ++ String d "") = smem c a || Ascii.eqb c d).
  { unfold smem. induction a as [|e a IH]; intro d; cbn [append sexists]; [rewrite orb_false_r; reflexivity|]. rewrite IH, orb_assoc. reflexivity. }
  induction s as [|d s IH]; [reflexivity|]. rewrite srev_cons, H, IH. unfold smem. cbn [sexists]. apply orb_comm.
Qed.
Lemma trim_left_free cut s : (forall c, smem c cut = true -> smem c s = false) -> trim_left cut s = s.
Proof.
  destruct s as [|c s]; [reflexivity|]. intro H. cbn [trim_left]. destruct (smem c cut) eqn:M; [|reflexivity].
  specialize (H c M). unfold smem in H. cbn [sexists] in H. rewrite Ascii.eqb_refl in H. discriminate.
Qed.
Lemma trim_free cut s : (forall c, smem c cut = true -> smem c s = false) -> trim cut s = s.
Proof.
  intro H. unfold trim. rewrite (trim_left_free cut s H). rewrite trim_left_free; [apply srev_involutive|].
  intros c M. rewrite smem_srev. exact (H c M).
Qed.
Lemma word_no_quote x c : is_word x = true -> ident_char c = false -> smem c x = false.
Proof.
  intros W N. destruct (smem c x) eqn:M; [|reflexivity]. rewrite (all_chars_in _ _ _ (word_chars _ W) M) in N. discriminate.
Qed.
Lemma cut_chars cut : forallb (fun c => negb (ident_char c)) (list_ascii_of_string cut) = true -> forall c, smem c cut = true -> ident_char c = false.
Proof.
  unfold smem. induction cut as [|d cut IH]; cbn [list_ascii_of_string forallb sexists]; intros H c M; [discriminate|].
  apply andb_prop in H. destruct H as [A B]. apply orb_prop in M. destruct M as [M|M]; [|apply IH; assumption].
  apply Ascii.eqb_eq in M. subst d. apply negb_true_iff in A. exact A.
Qed.
Lemma unescape_name_word x : is_word x = true -> unescape_name_string x = x.
Proof.
  intro W. apply trim_free. intros c M. apply word_no_quote; [exact W|].
  revert c M. apply cut_chars. vm_compute. reflexivity.
Qed.
Lemma unescape_word x : is_word x = true -> unescape_string x = x.
Proof.
  intro W. apply trim_free. intros c M. apply word_no_quote; [exact W|].
  revert c M. apply cut_chars. vm_compute. reflexivity.
Qed.

(** the literal a literal_value is read as *)
Definition lit_of (l : literal) : lit :=
  match l_type l with
  | StringLiteral => LText (show_value (l_value l))
  | UnknownLiteral =>
      let w := show_value (l_value l) in
      if is_word w then LWord (kind_of_word w) w
      else match w with String "-" n => LNeg n | _ => LNum w end
  end.

(** *** What the specification says, as tests *)

Lemma chars_all (P : ascii -> Prop) p s : (forall c, P c -> p c = true) -> chars P s -> all_chars p s = true.
Proof. intros H C. unfold all_chars. apply forallb_forall. intros c I. apply H. apply C. exact I. Qed.
Lemma letter_start c : letter c -> ident_start c = true.
Proof.
  intro L. unfold letter in L.
  destruct c as [[] [] [] [] [] [] [] []]; try reflexivity; exfalso; vm_compute in L; destruct L as [[L1 L2]|[[L1 L2]|L]]; try discriminate L; lia.
Qed.
Lemma digit_b c : digit c -> is_digit_b c = true.
Proof.
  intro L. unfold digit in L. destruct c as [[] [] [] [] [] [] [] []]; try reflexivity; exfalso; vm_compute in L; lia.
Qed.
Lemma word_is x : word x -> is_word x = true.
Proof.
  intros (c & r & -> & L & C). cbn [is_word]. rewrite (letter_start _ L). cbn [andb]. revert C. apply chars_all.
  intros d [D|D]; unfold ident_char; [rewrite (letter_start _ D); reflexivity|rewrite (digit_b _ D), orb_true_r; reflexivity].
Qed.
Lemma name_solid x : name x -> solid x.
Proof.
  intros [W N]. split; [apply word_is; exact W|]. unfold kind_of_word.
  destruct (find (fun p => String.eqb (snd p) (to_upper x)) literal_tokens) as [[k l]|] eqn:F; [|reflexivity].
  apply find_some in F. destruct F as [I E]. cbn [snd] in E. apply String.eqb_eq in E. subst l. exfalso. apply N. exists k. exact I.
Qed.
Lemma name_plain x : name x -> plain x. Proof. intro N. apply solid_plain, name_solid, N. Qed.
Lemma name_bare x : name x -> bare x.
Proof. intro N. split; [apply name_plain, N|]. apply unescape_name_word, name_solid, N. Qed.
Lemma doubled_closed q : forall b, doubled q b -> closed q (b ++ String q "") = true.
Proof.
  intros b D. induction D as [|r D IH|c r N D IH]; cbn [append closed].
  - rewrite Ascii.eqb_refl. reflexivity.
  - rewrite Ascii.eqb_refl. exact IH.
  - destruct (Ascii.eqb c q) eqn:E; [apply Ascii.eqb_eq in E; contradiction|exact IH].
Qed.
Lemma bracket_ok : forall b, chars (fun c => c <> "]"%char) b -> bracket_closed (b ++ "]") = true.
Proof.
  induction b as [|c b IH]; intro C; [reflexivity|]. cbn [append bracket_closed].
  destruct (Ascii.eqb c "]") eqn:E; [apply Ascii.eqb_eq in E; destruct (C c (or_introl eq_refl) E)|].
  apply IH. intros d D. apply C. right. exact D.
Qed.
Lemma trim_left_head cut c s : smem c cut = false -> trim_left cut (String c s) = String c s.
Proof. intro H. cbn [trim_left]. rewrite H. reflexivity. Qed.
Lemma trim_between cut a b d : smem a cut = false -> smem d cut = false -> trim cut (String a (b ++ String d "")) = String a (b ++ String d "").
Proof.
  intros A D. unfold trim. rewrite (trim_left_head cut a _ A).
  change (String a (b ++ String d "")) with (String a b ++ String d "")%string. rewrite srev_append. change (srev (String d "")) with (String d ""). cbn [append].
  rewrite (trim_left_head cut d _ D). change (String d (srev (String a b))) with (String d "" ++ srev (String a b))%string.
  rewrite srev_append, srev_involutive. reflexivity.
Qed.
Lemma quoted_plain x : is_quoted x = true -> plain x.
Proof. intro Q. split; [unfold is_name; rewrite Q; apply orb_true_r|apply quoted_kind, Q]. Qed.
Lemma in_quotes_bare x : in_quotes x -> bare x.
Proof.
  intros [b D|b C].
  - split; [apply quoted_plain; exact (doubled_closed _ _ D)|apply trim_between; reflexivity].
  - split; [apply quoted_plain; exact (bracket_ok b C)|apply (trim_between _ "[" b "]"); reflexivity].
Qed.
Lemma bare_is x : bare_name x -> bare x.
Proof. intros [N|Q]; [apply name_bare, N|apply in_quotes_bare, Q]. Qed.
Lemma any_is x : any_name x -> plain x.
Proof. intros [B|[b D]]; [apply bare_plain, bare_is, B|]. apply quoted_plain. exact (doubled_closed _ _ D). Qed.
Lemma digits_is n : digits n -> is_digits n = true.
Proof. intros [N C]. unfold is_digits. destruct n; [contradiction|]. revert C. apply chars_all. exact digit_b. Qed.
Lemma digits_num : forall n, is_digits n = true -> is_num n = true.
Proof.
  unfold is_digits, all_chars. induction n as [|c n IH]; [discriminate|]. cbn [list_ascii_of_string forallb is_num]. intro H.
  apply andb_prop in H. destruct H as [A B]. rewrite A. cbn [andb]. destruct n as [|d n]; [reflexivity|].
  assert (Ascii.eqb d "." = false) as ->.
  { cbn [list_ascii_of_string forallb] in B. apply andb_prop in B. destruct B as [B _].
    destruct d as [[] [] [] [] [] [] [] []]; try discriminate B; reflexivity. }
  apply IH. exact B.
Qed.
Lemma fraction_num : forall a b, is_digits a = true -> is_digits b = true -> is_num (a ++ "." ++ b) = true.
Proof.
  induction a as [|c a IH]; intros b A B; [discriminate|]. unfold is_digits, all_chars in A. cbn [list_ascii_of_string forallb] in A.
  apply andb_prop in A. destruct A as [C A]. cbn [append is_num]. rewrite C. cbn [andb].
  destruct a as [|d a]; [exact B|]. cbn [append].
  assert (Ascii.eqb d "." = false) as ->.
  { cbn [list_ascii_of_string forallb] in A. apply andb_prop in A. destruct A as [A _].
    destruct d as [[] [] [] [] [] [] [] []]; try discriminate A; reflexivity. }
  exact (IH b A B).
Qed.
Lemma number_is n : number n -> is_num n = true.
Proof.
  intros [D|(a & b & -> & A & B)]; [apply digits_num, digits_is; exact D|apply fraction_num; apply digits_is; assumption].
Qed.
Lemma num_not_word n : is_num n = true -> is_word n = false.
Proof. intro H. destruct (num_head n H) as (c & r & -> & D & _). cbn [is_word]. destruct c as [[] [] [] [] [] [] [] []]; try discriminate D; reflexivity. Qed.
Lemma literal_word_kind w : literal_word w -> is_word w = true /\ In (kind_of_word w) lit_words.
Proof.
  intro L. unfold literal_word in L. split.
  - assert (H : forall s u, to_upper s = u -> is_word u = true -> is_word s = true).
    { intros [|c s] u <- H; [discriminate|]. cbn [to_upper smap is_word] in *. rewrite ident_start_upper in H. apply andb_prop in H. destruct H as [A B].
      rewrite A. cbn [andb]. clear A. unfold all_chars in *. revert B. induction s as [|d s IH]; [reflexivity|].
      cbn [smap list_ascii_of_string forallb]. rewrite ident_char_upper. intro B. apply andb_prop in B. destruct B as [B C]. rewrite B. exact (IH C). }
    cbn [In] in L. repeat (destruct L as [L|L]; [apply (H w _ (eq_sym L)); vm_compute; reflexivity|]). contradiction.
  - unfold kind_of_word. cbn [In] in L. repeat (destruct L as [L|L]; [rewrite <- L; vm_compute; tauto|]). contradiction.
Qed.


Lemma paired_pairs t : paired t -> pairs t = true.
Proof.
  intro P. induction P as [|r P IH|c r N P IH]; [reflexivity|exact IH|]. cbn [pairs]. apply Ascii.eqb_neq in N. rewrite N. exact IH.
Qed.
Lemma quote_cut c : In c (list_ascii_of_string (squote ++ dquote)) -> quote_char c.
Proof. intros [<-|[<-|[]]]; [left|right]; reflexivity. Qed.
Lemma unescape_text t : plain_text t -> unescape_string ("'" ++ t ++ "'") = t.
Proof.
  intros (_ & S & E). apply (trim_quoted (squote ++ dquote) "'"%char t eq_refl). split.
  - intros (c & r & -> & I). exact (S c r eq_refl (quote_cut c I)).
  - intros (c & r & -> & I). exact (E c r eq_refl (quote_cut c I)).
Qed.
(** a text without quotes *)
Lemma quoteless_plain t : (forall c, In c (list_ascii_of_string t) -> c <> "'"%char /\ c <> dquote_char) -> plain_text t.
Proof.
  intro A. split; [|split].
  - induction t as [|c t IH]; [constructor|]. apply pa_char; [apply (A c); left; reflexivity|]. apply IH. intros d I. apply A. right. exact I.
  - intros c r -> [Q|Q]; [apply (proj1 (A c (or_introl eq_refl)) Q)|apply (proj2 (A c (or_introl eq_refl)) Q)].
  - intros c r -> Q. assert (I : In c (list_ascii_of_string (r ++ String c ""))) by (clear; induction r as [|d r IH]; [left; reflexivity|right; exact IH]).
    destruct (A c I) as [N M]. destruct Q as [Q|Q]; contradiction.
Qed.

(** the literals of the specification are literals of the grammar *)
Lemma literal_lit l : literal_ok l ->
  lit_ok (lit_of l) /\ v_literal (Some (lit_tree (lit_of l))) = Some l.
Proof.
  intros [t P|n N|n N|w W]; unfold lit_of; cbn [l_type l_value show_value].
  - split; [exact I|]. unfold v_literal. unfold lit_tree. cbn [lit_toks leafs map].
    unfold sub, subs. cbn [kids map snd filter is_rule String.eqb Ascii.eqb Bool.eqb hd_error]. rewrite text_one, text_leaf. cbn [tx].
    rewrite unescape_text by exact P. reflexivity.
  - apply number_is in N. rewrite (num_not_word _ N). destruct (num_head _ N) as (c & r & -> & D & _).
    assert (E : match String c r with String "-" n => LNeg n | _ => LNum (String c r) end = LNum (String c r))
      by (destruct c as [[] [] [] [] [] [] [] []]; try discriminate D; reflexivity).
    rewrite E. split; [exact I|]. unfold v_literal. unfold lit_tree. cbn [lit_toks leafs map].
    unfold sub, subs. cbn [kids map snd filter is_rule String.eqb Ascii.eqb Bool.eqb hd_error]. rewrite !text_one, text_leaf. reflexivity.
  - change ("-" ++ n)%string with (String "-" n). cbn [is_word]. change (ident_start "-") with false. cbn [andb]. split; [exact I|].
    unfold v_literal. unfold lit_tree. cbn [lit_toks leafs map].
    unfold sub, subs. cbn [kids map snd filter is_rule String.eqb Ascii.eqb Bool.eqb hd_error]. rewrite text_one, text_node.
    cbn [texts fold_right snd text tx append]. rewrite append_nil_r. reflexivity.
  - destruct (literal_word_kind w W) as [A B]. rewrite A. split; [exact B|]. unfold v_literal. unfold lit_tree. cbn [lit_toks leafs map].
    unfold sub, subs. cbn [kids map snd filter is_rule hd_error]. rewrite text_one, text_leaf. reflexivity.
Qed.

(** ** Pieces *)

Definition sp : piece := PSym "SPACES" " ".
Definition cm : piece := PSym "COMMA" ",".
Definition lp : piece := PSym "OPEN_PAR" "(".
Definition rp : piece := PSym "CLOSE_PAR" ")".
Definition sc : piece := PSym "SCOL" ";".

(** the last piece is not an operator *)
Fixpoint soft (ps : list piece) : bool :=
  match ps with
  | [] => true
  | [PSym k _] => tight k
  | _ :: r => soft r
  end.
Definition good (ps : list piece) : Prop := forallb ok_piece ps = true /\ chain ps = true /\ soft ps = true.
Lemma good_nil : good [].
Proof. repeat split. Qed.

Lemma soft_next p q ps : soft [p] = true -> (exists k t, q = PSym k t /\ tight k = true) -> chain (p :: q :: ps) = chain (q :: ps).
Proof.
  intros S (k & t & -> & T). cbn [chain]. assert (next_ok p (PSym k t) = true) as ->; [|reflexivity].
  destruct p as [w|n|b|k0 t0]; cbn [next_ok].
  - reflexivity.
  - destruct (String.eqb k "DOT") eqn:E; [|reflexivity]. apply String.eqb_eq in E. subst k. discriminate T.
  - reflexivity.
  - cbn [soft] in S. rewrite S. reflexivity.
Qed.
Lemma soft_app a p b : soft (a ++ p :: b) = soft (p :: b).
Proof.
  induction a as [|q a IH]; [reflexivity|]. cbn [app]. rewrite <- IH. destruct a as [|r a]; cbn [app soft]; destruct q; reflexivity.
Qed.
(** pieces before and after a space, a comma or a parenthesis *)
Lemma good_app a k t b : good a -> tight k = true -> good (PSym k t :: b) -> good (a ++ PSym k t :: b).
Proof.
  intros (O1 & C1 & S1) T (O2 & C2 & S2). split; [|split].
  - rewrite forallb_app, O1. exact O2.
  - clear O1 O2 S2. induction a as [|p a IH]; [exact C2|]. destruct a as [|q a].
    + cbn [app]. rewrite soft_next; [exact C2|exact S1|exists k, t; split; [reflexivity|exact T]].
    + cbn [app] in *. cbn [chain] in C1 |- *. apply andb_prop in C1. destruct C1 as [N C1]. rewrite N. cbn [andb]. apply IH; [exact C1|].
      destruct p; exact S1.
  - rewrite soft_app. exact S2.
Qed.
Lemma good_tight k t a : ok_piece (PSym k t) = true -> tight k = true -> good a -> good (PSym k t :: a).
Proof.
  intros O T (O2 & C2 & S2). split; [|split].
  - cbn [forallb]. rewrite O, O2. reflexivity.
  - destruct a as [|q a]; [reflexivity|]. cbn [chain]. cbn [chain] in C2. rewrite C2. unfold next_ok. rewrite T. reflexivity.
  - destruct a as [|q a]; [exact T|exact S2].
Qed.
Lemma good_sp a : good a -> good (sp :: a). Proof. apply good_tight; reflexivity. Qed.
Lemma good_cm a : good a -> good (cm :: a). Proof. apply good_tight; reflexivity. Qed.
Lemma good_lp a : good a -> good (lp :: a). Proof. apply good_tight; reflexivity. Qed.
Lemma good_rp a : good a -> good (rp :: a). Proof. apply good_tight; reflexivity. Qed.
Lemma good_sc a : good a -> good (sc :: a). Proof. apply good_tight; reflexivity. Qed.
Lemma good_app_sp a b : good a -> good b -> good (a ++ sp :: b). Proof. intros A B. apply good_app; [exact A|reflexivity|apply good_sp; exact B]. Qed.
Lemma good_app_cm a b : good a -> good b -> good (a ++ cm :: b). Proof. intros A B. apply good_app; [exact A|reflexivity|apply good_cm; exact B]. Qed.
Lemma good_app_lp a b : good a -> good b -> good (a ++ lp :: b). Proof. intros A B. apply good_app; [exact A|reflexivity|apply good_lp; exact B]. Qed.
Lemma good_app_rp a b : good a -> good b -> good (a ++ rp :: b). Proof. intros A B. apply good_app; [exact A|reflexivity|apply good_rp; exact B]. Qed.
Lemma good_any w : is_name w = true -> good [PWord w].
Proof. intro W. split; [cbn [forallb ok_piece]; rewrite W; reflexivity|split; reflexivity]. Qed.
Lemma good_word w : is_word w = true -> good [PWord w].
Proof. intro W. apply good_any. unfold is_name. rewrite W. reflexivity. Qed.
Lemma good_num n : is_num n = true -> good [PNum n].
Proof. intro W. split; [cbn [forallb ok_piece]; rewrite W; reflexivity|split; reflexivity]. Qed.
Lemma good_op k t a : ok_piece (PSym k t) = true -> good a -> good (PSym k t :: sp :: a).
Proof.
  intros O A. pose proof (good_sp a A) as (O2 & C2 & S2). split; [|split].
  - cbn [forallb] in *. rewrite O. exact O2.
  - cbn [chain next_ok sp String.eqb Ascii.eqb Bool.eqb]. rewrite orb_true_r. exact C2.
  - exact S2.
Qed.

(** blocks with spaces between them *)
Fixpoint spaced (bs : list (list piece)) : list piece :=
  match bs with [] => [] | [b] => b | b :: r => b ++ sp :: spaced r end.
Lemma good_spaced bs : Forall good bs -> good (spaced bs).
Proof.
  induction bs as [|b bs IH]; intro F; [apply good_nil|]. inversion F as [|? ? G Gs]; subst.
  destruct bs as [|c bs]; [exact G|]. cbn [spaced]. apply good_app_sp; [exact G|apply IH; exact Gs].
Qed.
Lemma glue_app a b : glue (a ++ b) = (glue a ++ glue b)%string.
Proof. unfold glue. induction a as [|p a IH]; [reflexivity|]. cbn [app fold_right]. rewrite IH, sapp_assoc. reflexivity. Qed.
Lemma glue_cons' p a : glue (p :: a) = (ptext p ++ glue a)%string.
Proof. reflexivity. Qed.
Lemma glue_one p : glue [p] = ptext p.
Proof. cbn. apply append_nil_r. Qed.
Lemma shown_app a b : shown (a ++ b) = shown a ++ shown b.
Proof. unfold shown. rewrite filter_app, map_app. reflexivity. Qed.
Lemma glue_spaced bs : glue (spaced bs) = join " " (map glue bs).
Proof.
  induction bs as [|b bs IH]; [reflexivity|]. destruct bs as [|c bs]; [reflexivity|].
  change (spaced (b :: c :: bs)) with (b ++ sp :: spaced (c :: bs)). rewrite glue_app, glue_cons'. rewrite IH. reflexivity.
Qed.
Lemma shown_spaced bs : shown (spaced bs) = flat_map shown bs.
Proof.
  induction bs as [|b bs IH]; [reflexivity|]. destruct bs as [|c bs]; [cbn [spaced flat_map]; rewrite app_nil_r; reflexivity|].
  change (spaced (b :: c :: bs)) with (b ++ [sp] ++ spaced (c :: bs)). rewrite !shown_app, IH. reflexivity.
Qed.

(** lists with commas *)
Definition listed {A} (f : A -> list piece) (xs : list A) : list piece := flat_map (fun x => cm :: sp :: f x) xs.
Lemma good_listed {A} (f : A -> list piece) xs : Forall (fun x => good (f x)) xs -> good (listed f xs).
Proof.
  intro F. induction F as [|x xs G Gs IH]; [apply good_nil|]. cbn [listed flat_map app].
  change (good (cm :: sp :: f x ++ listed f xs)). apply good_cm, good_sp.
  destruct xs as [|y xs]; [cbn [listed flat_map]; rewrite app_nil_r; exact G|].
  cbn [listed flat_map app] in *. apply good_app; [exact G|reflexivity|exact IH].
Qed.
Lemma good_then_listed {A} a (f : A -> list piece) xs : good a -> Forall (fun x => good (f x)) xs -> good (a ++ listed f xs).
Proof.
  intros G F. pose proof (good_listed f xs F) as L. destruct xs as [|x xs]; [cbn [listed flat_map]; rewrite app_nil_r; exact G|].
  cbn [listed flat_map app] in *. apply good_app; [exact G|reflexivity|exact L].
Qed.
Lemma join_cons sep x y r : join sep (x :: y :: r) = (x ++ sep ++ join sep (y :: r))%string.
Proof. reflexivity. Qed.
Lemma glue_listed {A} (f : A -> list piece) x xs : glue (f x ++ listed f xs) = join_with_comma (map (fun x => glue (f x)) (x :: xs)).
Proof.
  unfold join_with_comma. revert x. induction xs as [|y xs IH]; intro x.
  - cbn [listed flat_map map]. rewrite app_nil_r. reflexivity.
  - rewrite glue_app. cbn [map]. rewrite join_cons. specialize (IH y). cbn [map] in IH. rewrite <- IH. reflexivity.
Qed.
Lemma shown_listed {A} (f : A -> list piece) xs : shown (listed f xs) = clist (fun x => shown (f x)) xs.
Proof.
  induction xs as [|x xs IH]; [reflexivity|]. cbn [listed clist flat_map].
  change (cm :: sp :: f x) with ([cm; sp] ++ f x). change (flat_map (fun x0 => cm :: sp :: f x0) xs) with (listed f xs). rewrite !shown_app, IH. reflexivity.
Qed.

(** names *)
Lemma shown_word x : shown [PWord x] = [mkTok (kind_of_word x) x].
Proof. reflexivity. Qed.
Lemma shown_name x : plain x -> shown [PWord x] = id1 x.
Proof. intros [_ K]. rewrite shown_word, K. reflexivity. Qed.
(** literals *)
Definition lit_pieces (l : lit) : list piece :=
  match l with
  | LNum n => [PNum n]
  | LNeg n => [PSym "MINUS" "-"; PNum n]
  | LText b => [PText b]
  | LWord _ w => [PWord w]
  end.
Lemma literal_pieces l : literal_ok l ->
  good (lit_pieces (lit_of l)) /\ glue (lit_pieces (lit_of l)) = literal_string l /\ shown (lit_pieces (lit_of l)) = lit_toks (lit_of l).
Proof.
  intros [t P|n N|n N|w W]; unfold lit_of, literal_string; cbn [l_type l_value show_value].
  - cbn [lit_pieces]. split; [|split].
    + split; [|split; reflexivity]. cbn [forallb ok_piece]. rewrite andb_true_r. apply paired_pairs, P.
    + apply glue_one.
    + reflexivity.
  - apply number_is in N. rewrite (num_not_word _ N). destruct (num_head _ N) as (c & r & -> & D & _).
    assert (E : match String c r with String "-" n => LNeg n | _ => LNum (String c r) end = LNum (String c r))
      by (destruct c as [[] [] [] [] [] [] [] []]; try discriminate D; reflexivity).
    rewrite E. cbn [lit_pieces]. split; [apply good_num; exact N|]. split; [apply glue_one|reflexivity].
  - change ("-" ++ n)%string with (String "-" n). cbn [is_word]. change (ident_start "-") with false. cbn [andb].
    apply number_is in N. cbn [lit_pieces]. split; [|split].
    + split; [cbn [forallb ok_piece]; rewrite N; reflexivity|split; reflexivity].
    + cbn [glue fold_right ptext append]. rewrite append_nil_r. reflexivity.
    + reflexivity.
  - destruct (literal_word_kind w W) as [A B]. rewrite A. cbn [lit_pieces]. split; [apply good_word; exact A|]. split; [apply glue_one|reflexivity].
Qed.
