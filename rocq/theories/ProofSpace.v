(** Lexing a text part by part. *)
From Coq Require Import Lia.
From Verif Require Import GoBase ModelEbnf ModelLex FactsBase ProofFn ProofQuery ProofLex SpecSpace.

Lemma rule_le s k m : In (k, m) lex_rules -> m s <= snd (next_token s).
Proof. intro I. exact (proj2 (longest_bounds lex_rules s (""%string, 0)) k m I). Qed.
Lemma longest_hit rules s best : snd best < snd (longest rules s best) ->
  exists m, In (fst (longest rules s best), m) rules /\ m s = snd (longest rules s best).
Proof.
  intro P. destruct (longest_from rules s best) as [H|(bf & k & m & af & -> & H & L & _)].
  - rewrite H in P. lia.
  - rewrite H. cbn [fst snd]. exists m. split; [apply in_or_app; right; left; reflexivity|reflexivity].
Qed.
Lemma hit_pos c r : snd (""%string, 0) < snd (longest lex_rules (String c r) (""%string, 0)).
Proof.
  apply (proj2 (longest_bounds lex_rules (String c r) (""%string, 0)) "UNEXPECTED_CHAR"%string m_any).
  unfold lex_rules. apply in_or_app. right. cbn [In]. do 10 right. left. reflexivity.
Qed.
Lemma rule_hit c r : exists m, In (fst (next_token (String c r)), m) lex_rules /\ m (String c r) = snd (next_token (String c r)).
Proof. exact (longest_hit lex_rules (String c r) (""%string, 0) (hit_pos c r)). Qed.
Lemma longest_ext rules s s' : (forall k m, In (k, m) rules -> m s = m s') -> forall best, longest rules s best = longest rules s' best.
Proof.
  induction rules as [|(k, m) rules IH]; intros H best; [reflexivity|]. cbn [longest].
  rewrite (H k m (or_introl eq_refl)). apply IH. intros k' m' I. apply (H k'). right. exact I.
Qed.

(** the rules that are not just a literal *)
Definition open_rules : list (string * (string -> nat)) :=
  [("IDENTIFIER", m_identifier); ("NUMERIC_LITERAL", m_numeric); ("SYSTEM_VARIABLE", m_system_variable);
   ("USER_VARIABLE", m_user_variable); ("BIND_PARAMETER", m_bind); ("STRING_LITERAL", m_string);
   ("BLOB_LITERAL", m_blob); ("SINGLE_LINE_COMMENT", m_line_comment); ("MULTILINE_COMMENT", m_comment);
   ("SPACES", m_space); ("UNEXPECTED_CHAR", m_any)]%string.
Lemma rules_split k m : In (k, m) lex_rules -> (exists l, In (k, l) literal_tokens /\ m = m_literal l) \/ In (k, m) open_rules.
Proof.
  intro I. unfold lex_rules in I. apply in_app_or in I. destruct I as [I|I]; [left|right; exact I].
  apply in_map_iff in I. destruct I as ((k', l) & E & I). injection E as <- <-. exists l. split; [exact I|reflexivity].
Qed.
Lemma open_in k m : In (k, m) open_rules -> In (k, m) lex_rules.
Proof. intro I. unfold lex_rules. apply in_or_app. right. exact I. Qed.

(** literals: their first character, and that they have no white space in them *)
Definition head_is (p : ascii -> bool) (s : string) : bool := match s with String c _ => p c | EmptyString => false end.
Lemma literal_head k l c r : In (k, l) literal_tokens -> m_literal l (String c r) <> 0 -> head_is (Ascii.eqb (upper_ascii c)) l = true.
Proof.
  intros I H. unfold m_literal, to_upper in H. cbn [smap] in H. destruct l as [|d l].
  - exfalso. apply H. destruct (has_prefix _ _); reflexivity.
  - cbn [has_prefix] in H. cbn [head_is]. destruct (Ascii.eqb d (upper_ascii c)) eqn:E; [|cbn in H; congruence].
    apply Ascii.eqb_eq in E. subst d. apply Ascii.eqb_refl.
Qed.
Lemma no_literal c r k l : forallb (fun p => negb (head_is (Ascii.eqb (upper_ascii c)) (snd p))) literal_tokens = true ->
  In (k, l) literal_tokens -> m_literal l (String c r) = 0.
Proof.
  intros F I. destruct (Nat.eq_dec (m_literal l (String c r)) 0) as [E|E]; [exact E|exfalso].
  pose proof (literal_head _ _ _ _ I E) as H. rewrite forallb_forall in F. specialize (F _ I). cbn [snd] in F. rewrite H in F. discriminate.
Qed.

(** ** Quotes *)

Lemma close_quote_end q : forall r n r', close_quote q r = Some n -> sdrop n r = String q r' -> close_quote q r' = None.
Proof.
  induction r as [r IH] using string_ind_len. intros n r' H D. destruct r as [|c r]; [discriminate|]. cbn [close_quote] in H.
  destruct (Ascii.eqb c q) eqn:E.
  - destruct r as [|d r2]; [injection H as <-; discriminate D|]. destruct (Ascii.eqb d q) eqn:Ed.
    + destruct (close_quote q r2) as [m|] eqn:C.
      * injection H as <-. cbn [sdrop] in D. apply (IH r2) with m; [cbn; lia|exact C|exact D].
      * injection H as <-. cbn [sdrop] in D. injection D as _ <-. exact C.
    + injection H as <-. cbn [sdrop] in D. injection D as -> <-. rewrite Ascii.eqb_refl in Ed. discriminate.
  - destruct (close_quote q r) as [m|] eqn:C; [|discriminate]. injection H as <-. cbn [sdrop] in D.
    apply (IH r) with m; [cbn; lia|exact C|exact D].
Qed.
Lemma close_quote_pos q : forall r n, close_quote q r = Some n -> 1 <= n <= String.length r.
Proof.
  induction r as [r IH] using string_ind_len. intros n H. destruct r as [|c r]; [discriminate|]. cbn [close_quote] in H.
  destruct (Ascii.eqb c q).
  - destruct r as [|d r2]; [injection H as <-; cbn; lia|]. destruct (Ascii.eqb d q).
    + destruct (close_quote q r2) as [m|] eqn:C; injection H as <-; [|cbn; lia].
      specialize (IH r2 ltac:(cbn; lia) _ C). cbn [String.length]. lia.
    + injection H as <-. cbn. lia.
  - destruct (close_quote q r) as [m|] eqn:C; [|discriminate]. injection H as <-. specialize (IH r ltac:(cbn; lia) _ C). cbn [String.length]. lia.
Qed.
(** what follows a closed text does not start with the quote *)
Definition clear (q : ascii) (s : string) : Prop := forall r, s <> String q r.
Lemma close_quote_app q e : clear q e -> forall r n, close_quote q r = Some n -> clear q (sdrop n r) ->
  close_quote q (r ++ e) = Some n.
Proof.
  intros Ce. induction r as [r IH] using string_ind_len. intros n H D. destruct r as [|c r]; [discriminate|].
  cbn [close_quote append] in *. destruct (Ascii.eqb c q) eqn:E.
  - destruct r as [|d r2]; cbn [append].
    + injection H as <-. destruct e as [|d e]; [reflexivity|]. destruct (Ascii.eqb d q) eqn:Ed; [|reflexivity].
      apply Ascii.eqb_eq in Ed. subst d. exfalso. exact (Ce _ eq_refl).
    + destruct (Ascii.eqb d q) eqn:Ed; [|exact H]. destruct (close_quote q r2) as [m|] eqn:C.
      * injection H as <-. cbn [sdrop] in D. rewrite (IH r2) with m; [reflexivity|cbn; lia|exact C|exact D].
      * injection H as <-. cbn [sdrop] in D. apply Ascii.eqb_eq in Ed. subst d. exfalso. exact (D _ eq_refl).
  - destruct (close_quote q r) as [m|] eqn:C; [|discriminate]. injection H as <-. cbn [sdrop] in D.
    rewrite (IH r) with m; [reflexivity|cbn; lia|exact C|exact D].
Qed.

(** ** What a text that starts with a quote is read as *)

Definition quote_char (q : ascii) : Prop := q = dq \/ q = "`"%char \/ q = "'"%char.
Lemma quote_no_literal q : quote_char q -> forallb (fun p => negb (head_is (Ascii.eqb (upper_ascii q)) (snd p))) literal_tokens = true.
Proof. intros [-> | [-> | ->]]; vm_compute; reflexivity. Qed.
Ltac each I := cbn [In open_rules] in I; repeat destruct I as [I|I]; try contradiction; injection I as <- <-.
(** the rule does not match at all *)
Ltac none P := try (exfalso; match type of P with 1 <= ?x => change x with 0 in P end; lia).

Lemma quote_first q r : quote_char q -> fst (next_token (String q r)) <> "UNEXPECTED_CHAR"%string ->
  1 <= quoted q (String q r) /\ snd (next_token (String q r)) = quoted q (String q r).
Proof.
  intros Q N. destruct (rule_hit q r) as (m & I & E). pose proof (next_token_pos q r) as P.
  destruct (next_token (String q r)) as [k n]. cbn [fst snd] in *. subst n.
  apply rules_split in I. destruct I as [(l & I & ->)|I].
  - rewrite (no_literal q r k l (quote_no_literal q Q) I) in P. lia.
  - each I; try congruence; destruct Q as [-> | [-> | ->]]; none P.
    + assert (E : m_identifier (String dq r) = quoted dq (String dq r)) by (unfold m_identifier; cbn -[quoted Nat.max]; apply Nat.max_0_r).
      rewrite E in P |- *. split; [exact P|reflexivity].
    + assert (E : m_identifier (String "`" r) = quoted "`" (String "`" r)) by (unfold m_identifier; cbn -[Nat.max]; apply Nat.max_0_r).
      rewrite E in P |- *. split; [exact P|reflexivity].
    + split; [exact P|reflexivity].
Qed.
Lemma bracket_first r : fst (next_token (String "[" r)) <> "UNEXPECTED_CHAR"%string -> 1 <= bracketed (String "[" r).
Proof.
  intro N. destruct (rule_hit "[" r) as (m & I & E). pose proof (next_token_pos "[" r) as P.
  destruct (next_token (String "[" r)) as [k n]. cbn [fst snd] in *. subst n.
  apply rules_split in I. destruct I as [(l & I & ->)|I].
  - rewrite (no_literal "[" r k l) in P; [lia|vm_compute; reflexivity|exact I].
  - each I; try congruence; none P.
    assert (E : m_identifier (String "[" r) = bracketed (String "[" r)) by (unfold m_identifier; cbn -[bracketed Nat.max]; apply Nat.max_0_r).
    rewrite E in P. exact P.
Qed.

(** the token of a text with one character before a quote: that character, or all of the quoted text too *)
Definition prefix_char (p : ascii) : Prop := p = "@"%char \/ p = ":"%char \/ p = "$"%char \/ p = "X"%char \/ p = "x"%char.
Lemma prefix_literal p k l r : prefix_char p -> In (k, l) literal_tokens -> m_literal l (String p r) <= 1.
Proof.
  intros Q I. destruct (Nat.eq_dec (m_literal l (String p r)) 0) as [E|E]; [lia|].
  pose proof (literal_head _ _ _ _ I E) as H.
  assert (F : forallb (fun x => negb (head_is (Ascii.eqb (upper_ascii p)) (snd x)) || (String.length (snd x) <=? 1)) literal_tokens = true)
    by (destruct Q as [-> | [-> | [-> | [-> | ->]]]]; vm_compute; reflexivity).
  rewrite forallb_forall in F. specialize (F _ I). cbn [snd] in F. rewrite H in F. cbn in F. apply Nat.leb_le in F.
  unfold m_literal. destruct (has_prefix l _); lia.
Qed.
Lemma ident_quote q r : quote_char q -> m_identifier (String q r) = quoted q (String q r) \/ m_identifier (String q r) = 0.
Proof.
  intros [-> | [-> | ->]]; [left|left|right; reflexivity]; unfold m_identifier; cbn -[quoted Nat.max]; apply Nat.max_0_r.
Qed.
Lemma after_le p m s : after p m s = 0 \/ exists c r, s = String c r /\ after p m s = S (m r) /\ 1 <= m r.
Proof.
  unfold after. destruct s as [|c r]; [left; reflexivity|]. destruct (p c); [|left; reflexivity].
  destruct (m r) as [|n] eqn:E; [left; reflexivity|]. right. exists c, r. rewrite E. split; [reflexivity|]. split; [reflexivity|lia].
Qed.
Lemma prefix_first p q r : prefix_char p -> quote_char q ->
  snd (next_token (String p (String q r))) = 1
  \/ snd (next_token (String p (String q r))) = S (quoted q (String q r)) /\ 1 <= quoted q (String q r).
Proof.
  intros Hp Hq. destruct (rule_hit p (String q r)) as (m & I & E). pose proof (next_token_pos p (String q r)) as P.
  destruct (next_token (String p (String q r))) as [k n]. cbn [fst snd] in *. subst n.
  apply rules_split in I. destruct I as [(l & I & ->)|I].
  - left. pose proof (prefix_literal p k l (String q r) Hp I). lia.
  - assert (A : forall f m0, (m0 = m_identifier \/ m0 = m_string) -> 1 <= after f m0 (String p (String q r)) ->
                after f m0 (String p (String q r)) = S (quoted q (String q r)) /\ 1 <= quoted q (String q r)).
    { intros f m0 M L. destruct (after_le f m0 (String p (String q r))) as [Z|(c' & r' & Z & Z' & Z'')]; [lia|].
      injection Z as <- <-. rewrite Z'.
      assert (Y : m0 (String q r) = quoted q (String q r)).
      { destruct M as [-> | ->].
        - destruct (ident_quote q r Hq) as [Y|Y]; [exact Y|lia].
        - destruct Hq as [-> | [-> | ->]]; [none Z''|none Z''|reflexivity]. }
      rewrite Y in *. split; [reflexivity|exact Z'']. }
    each I.
    + left. destruct Hp as [-> | [-> | [-> | [-> | ->]]]]; none P; destruct Hq as [-> | [-> | ->]]; reflexivity.
    + left. destruct Hp as [-> | [-> | [-> | [-> | ->]]]]; none P.
    + left. destruct Hp as [-> | [-> | [-> | [-> | ->]]]]; none P; destruct Hq as [-> | [-> | ->]]; none P.
    + right. exact (A _ _ (or_introl eq_refl) P).
    + unfold m_bind in P |- *. set (x := after _ _ _) in *. 
      assert (Y : match String p (String q r) with String c r0 => if Ascii.eqb c "?" || Ascii.eqb c "$" then S (span is_digit_b r0) else 0 | EmptyString => 0 end <= 1).
      { destruct Hp as [-> | [-> | [-> | [-> | ->]]]]; try apply Nat.le_0_l. destruct Hq as [-> | [-> | ->]]; apply le_n. }
      set (y := match String p (String q r) with String c r0 => _ | EmptyString => 0 end) in *.
      destruct (Nat.eq_dec x 0) as [X|X]; [left; rewrite X in *; lia|]. right.
      assert (L : 1 <= x) by lia. destruct (A _ _ (or_introl eq_refl) L) as [X1 X2]. change (x = S (quoted q (String q r))) in X1. lia.
    + left. destruct Hp as [-> | [-> | [-> | [-> | ->]]]]; none P.
    + right. exact (A _ _ (or_intror eq_refl) P).
    + left. destruct Hp as [-> | [-> | [-> | [-> | ->]]]]; none P.
    + left. destruct Hp as [-> | [-> | [-> | [-> | ->]]]]; none P.
    + left. destruct Hp as [-> | [-> | [-> | [-> | ->]]]]; none P.
    + left. reflexivity.
Qed.
Lemma ident_bracket r : m_identifier (String "[" r) = bracketed (String "[" r).
Proof. unfold m_identifier; cbn -[bracketed Nat.max]; apply Nat.max_0_r. Qed.
Lemma prefix_bracket p r : prefix_char p -> bracketed (String "[" r) = 0 -> snd (next_token (String p (String "[" r))) = 1.
Proof.
  intros Hp B. destruct (rule_hit p (String "[" r)) as (m & I & E). pose proof (next_token_pos p (String "[" r)) as P.
  destruct (next_token (String p (String "[" r))) as [k n]. cbn [fst snd] in *. subst n.
  apply rules_split in I. destruct I as [(l & I & ->)|I].
  - pose proof (prefix_literal p k l (String "[" r) Hp I). lia.
  - assert (A : forall f, after f m_identifier (String p (String "[" r)) = 0).
    { intros f. destruct (after_le f m_identifier (String p (String "[" r))) as [Z|(c' & r' & Z & _ & Z'')]; [exact Z|exfalso].
      injection Z as <- <-. rewrite ident_bracket, B in Z''. lia. }
    each I.
    + destruct Hp as [-> | [-> | [-> | [-> | ->]]]]; none P; reflexivity.
    + destruct Hp as [-> | [-> | [-> | [-> | ->]]]]; none P.
    + destruct Hp as [-> | [-> | [-> | [-> | ->]]]]; none P.
    + unfold m_user_variable in P |- *. rewrite A in P. lia.
    + unfold m_bind in P |- *. rewrite A in P |- *. destruct Hp as [-> | [-> | [-> | [-> | ->]]]]; none P; reflexivity.
    + destruct Hp as [-> | [-> | [-> | [-> | ->]]]]; none P.
    + destruct Hp as [-> | [-> | [-> | [-> | ->]]]]; none P.
    + destruct Hp as [-> | [-> | [-> | [-> | ->]]]]; none P.
    + destruct Hp as [-> | [-> | [-> | [-> | ->]]]]; none P.
    + destruct Hp as [-> | [-> | [-> | [-> | ->]]]]; none P.
    + reflexivity.
Qed.
(** and with two at signs before it *)
Lemma double_first r : snd (next_token (String "@" (String "@" r))) = 1
  \/ snd (next_token (String "@" (String "@" r))) = S (S (m_identifier r)) /\ 1 <= m_identifier r.
Proof.
  destruct (rule_hit "@" (String "@" r)) as (m & I & E). pose proof (next_token_pos "@" (String "@" r)) as P.
  destruct (next_token (String "@" (String "@" r))) as [k n]. cbn [fst snd] in *. subst n.
  apply rules_split in I. destruct I as [(l & I & ->)|I].
  - left. pose proof (prefix_literal "@" k l (String "@" r) (or_introl eq_refl) I). lia.
  - each I; none P; try (left; reflexivity). right. unfold m_system_variable in P |- *.
    destruct (after_le (Ascii.eqb "@") m_user_variable (String "@" (String "@" r))) as [Z|(c & r' & Z & Z' & Z'')]; [lia|].
    injection Z as <- <-. rewrite Z'. unfold m_user_variable in Z'' |- *.
    destruct (after_le (Ascii.eqb "@") m_identifier (String "@" r)) as [Y|(c & r' & Y & Y' & Y'')]; [lia|].
    injection Y as <- <-. rewrite Y'. split; [reflexivity|exact Y''].
Qed.

(** ** Parts *)

Definition fine (s : string) : Prop :=
  forall t, In t (lex s) -> ~ In (tk t) ["UNEXPECTED_CHAR"; "SINGLE_LINE_COMMENT"; "MULTILINE_COMMENT"]%string.
Lemma lex_first c r k n : next_token (String c r) = (k, n) ->
  lex (String c r) = mkTok k (stake n (String c r)) :: lex (sdrop n (String c r)).
Proof. intro E. rewrite lex_step, E. reflexivity. Qed.
Lemma fine_first c r : fine (String c r) -> ~ In (fst (next_token (String c r))) ["UNEXPECTED_CHAR"; "SINGLE_LINE_COMMENT"; "MULTILINE_COMMENT"]%string.
Proof.
  intro F. destruct (next_token (String c r)) as [k n] eqn:E. apply lex_first in E. unfold fine in F. rewrite E in F.
  exact (F _ (or_introl eq_refl)).
Qed.
Lemma fine_rest c r n : fine (String c r) -> snd (next_token (String c r)) = n -> fine (sdrop n (String c r)).
Proof.
  intros F N. destruct (next_token (String c r)) as [k n'] eqn:E. apply lex_first in E. unfold fine in F. rewrite E in F.
  cbn [snd] in N. subst n'. intros t I. exact (F t (or_intror I)).
Qed.
Lemma fine_ok c r : fine (String c r) -> fst (next_token (String c r)) <> "UNEXPECTED_CHAR"%string.
Proof. intros F E. apply (fine_first _ _ F). rewrite E. left. reflexivity. Qed.

(** a text that starts with a quote is a quoted text, not followed by another quote *)
Definition closed (s : string) : Prop :=
  (forall q r, quote_char q -> s = String q r -> exists n, close_quote q r = Some n /\ clear q (sdrop n r))
  /\ (forall r, s = String "[" r -> 1 <= bracketed s).
Lemma clear_after q r n : quote_char q -> close_quote q r = Some n -> fine (sdrop n r) -> clear q (sdrop n r).
Proof.
  intros Q C F r' E. pose proof (close_quote_end q r n r' C E) as N. rewrite E in F.
  destruct (quote_first q r' Q (fine_ok _ _ F)) as [P _]. unfold quoted in P. rewrite Ascii.eqb_refl, N in P. lia.
Qed.
Lemma quoted_close q r : 1 <= quoted q (String q r) -> exists n, close_quote q r = Some n /\ quoted q (String q r) = S n.
Proof. unfold quoted. rewrite Ascii.eqb_refl. destruct (close_quote q r) as [n|]; [|lia]. intros _. exists n. auto. Qed.
Lemma fine_closed s : fine s -> closed s.
Proof.
  intro F. split.
  - intros q r Q ->. destruct (quote_first q r Q (fine_ok _ _ F)) as [P E]. destruct (quoted_close q r P) as (n & C & E').
    exists n. split; [exact C|]. apply (clear_after q r n Q C).
    rewrite E' in E. exact (fine_rest _ _ _ F E).
  - intros r ->. exact (bracket_first r (fine_ok _ _ F)).
Qed.
Lemma fine_closed_after p r : prefix_char p -> fine (String p r) -> closed r.
Proof.
  intros Hp F. split.
  - intros q r1 Q ->. destruct (prefix_first p q r1 Hp Q) as [E|[E P]].
    + exact (proj1 (fine_closed _ (fine_rest _ _ _ F E)) q r1 Q eq_refl).
    + destruct (quoted_close q r1 P) as (n & C & E'). exists n. split; [exact C|]. apply (clear_after q r1 n Q C).
      rewrite E' in E. exact (fine_rest _ _ _ F E).
  - intros r1 ->. destruct (Nat.eq_dec (bracketed (String "[" r1)) 0) as [Z|Z]; [|lia].
    pose proof (prefix_bracket p r1 Hp Z) as E. exact (proj2 (fine_closed _ (fine_rest _ _ _ F E)) r1 eq_refl).
Qed.
Lemma fine_closed_double r : fine (String "@" (String "@" r)) -> closed r.
Proof.
  intro F. destruct (double_first r) as [E|[E P]].
  - apply (fine_closed_after "@" r); [left; reflexivity|]. exact (fine_rest _ _ _ F E).
  - split.
    + intros q r1 Q ->. destruct (ident_quote q r1 Q) as [Y|Y]; [|lia]. rewrite Y in *.
      destruct (quoted_close q r1 P) as (n & C & E'). exists n. split; [exact C|]. apply (clear_after q r1 n Q C).
      rewrite E' in E. exact (fine_rest _ _ _ F E).
    + intros r1 ->. rewrite ident_bracket in P. exact P.
Qed.

(** ** Adding white space and more to a text *)

Lemma white_cases c : white c = true -> c = " "%char \/ c = ascii_of_nat 9 \/ c = ascii_of_nat 11 \/ c = ascii_of_nat 10 \/ c = ascii_of_nat 13.
Proof. destruct c as [[] [] [] [] [] [] [] []]; intro H; try discriminate H; auto 6. Qed.
Lemma sep_cases c : sep c = true -> white c = true \/ c = "("%char \/ c = ")"%char \/ c = ","%char \/ c = ";"%char.
Proof.
  intro H. unfold sep in H. apply orb_prop in H. destruct H as [H|H]; [left; exact H|right].
  apply existsb_exists in H. destruct H as (d & I & E). apply Ascii.eqb_eq in E. subst d. cbn [In] in I. intuition.
Qed.
Lemma white_sep c : white c = true -> sep c = true. Proof. unfold sep. intros ->. reflexivity. Qed.

Section More.
  Context (sp : ascii) (more : string) (W : sep sp = true).
  Let e : string := String sp more.
  Ltac spaces := destruct (sep_cases sp W) as [Ww | [-> | [-> | [-> | ->]]]];
    [destruct (white_cases sp Ww) as [-> | [-> | [-> | [-> | ->]]]]; clear Ww| | | |].

  Lemma span_more p s : p sp = false -> span p (s ++ e) = span p s.
  Proof.
    intro N. induction s as [|c s IH]; cbn [append span]; [unfold e; cbn [span]; rewrite N; reflexivity|]. rewrite IH. reflexivity.
  Qed.
  Lemma digit_sp : is_digit_b sp = false. Proof. spaces; reflexivity. Qed.
  Lemma ident_sp : ident_char sp = false. Proof. spaces; reflexivity. Qed.
  Lemma hex_sp : is_hex sp = false. Proof. spaces; reflexivity. Qed.
  Lemma upper_sp : upper_ascii sp = sp. Proof. spaces; reflexivity. Qed.
  Lemma quote_sp q : quote_char q -> Ascii.eqb sp q = false. Proof. intros [-> | [-> | ->]]; spaces; reflexivity. Qed.
  Lemma clear_sp q : quote_char q -> clear q e.
  Proof. intros Q r E. injection E as E _. pose proof (quote_sp q Q) as N. rewrite E, Ascii.eqb_refl in N. discriminate. Qed.

  Lemma prefix_more l : forall s, all_chars (fun c => negb (sep c)) l = true -> has_prefix l (to_upper (s ++ e)) = has_prefix l (to_upper s).
  Proof.
    unfold all_chars, to_upper. induction l as [|a l IH]; intros [|c s] A; try reflexivity;
      cbn [list_ascii_of_string forallb] in A; apply andb_prop in A; destruct A as [A A']; cbn [append smap has_prefix].
    - unfold e. cbn [smap has_prefix]. rewrite upper_sp. destruct (Ascii.eqb a sp) eqn:E; [|reflexivity].
      apply Ascii.eqb_eq in E. subst a. rewrite W in A. discriminate.
    - rewrite IH by exact A'. reflexivity.
  Qed.
  Lemma literal_more k l c s : In (k, l) literal_tokens -> m_literal l (String c s ++ e) = m_literal l (String c s).
  Proof.
    intro I. unfold m_literal.
    assert (F : forallb (fun x => all_chars (fun c => negb (sep c)) (snd x) || (String.length (snd x) =? 1)) literal_tokens = true) by (vm_compute; reflexivity).
    rewrite forallb_forall in F. specialize (F _ I). cbn [snd] in F. apply orb_prop in F. destruct F as [F|F]; [rewrite prefix_more by exact F; reflexivity|].
    apply Nat.eqb_eq in F. destruct l as [|d [|d' l]]; try discriminate F. reflexivity.
  Qed.

  Lemma word_more s : word (s ++ e) = word s.
  Proof.
    destruct s as [|c s]; cbn [append word].
    - unfold e, word. replace (ident_start sp) with false; [reflexivity|spaces; reflexivity].
    - rewrite span_more by exact ident_sp. reflexivity.
  Qed.
  Lemma exponent_more s : m_exponent (s ++ e) = m_exponent s.
  Proof.
    destruct s as [|c s]; cbn [append].
    - unfold e, m_exponent. rewrite upper_sp. replace (Ascii.eqb sp "E") with false; [reflexivity|spaces; reflexivity].
    - unfold m_exponent. destruct (Ascii.eqb (upper_ascii c) "E"); [|reflexivity].
      destruct s as [|d s]; cbn [append].
      + unfold e. replace (Ascii.eqb sp "+" || Ascii.eqb sp "-") with false by (spaces; reflexivity). cbn [span]. rewrite digit_sp. reflexivity.
      + rewrite (span_more is_digit_b s digit_sp). change (String d (s ++ e)) with (String d s ++ e)%string.
        rewrite (span_more is_digit_b (String d s) digit_sp). reflexivity.
  Qed.
  Lemma span_le p s : span p s <= String.length s.
  Proof. induction s as [|c s IH]; cbn; [lia|]. destruct (p c); lia. Qed.
  Lemma sdrop_more n : forall s, n <= String.length s -> sdrop n (s ++ e) = (sdrop n s ++ e)%string.
  Proof. induction n; intros [|c s] L; try reflexivity; cbn [String.length] in L; [lia|]. cbn [append sdrop]. apply IHn. lia. Qed.
  Lemma stake_more n : forall s, n <= String.length s -> stake n (s ++ e) = stake n s.
  Proof. induction n; intros [|c s] L; try reflexivity; cbn [String.length] in L; [lia|]. cbn [append stake]. rewrite IHn by lia. reflexivity. Qed.

  (** a text that starts with a dot *)
  Definition dot {A} (f : string -> A) (d : A) (s : string) : A := match s with String c r => if Ascii.eqb c "." then f r else d | EmptyString => d end.
  Lemma dot_eq {A} (f : string -> A) (d : A) s : match s with String "." r => f r | _ => d end = dot f d s.
  Proof. destruct s as [|c r]; [reflexivity|]. destruct c as [[] [] [] [] [] [] [] []]; reflexivity. Qed.
  Lemma dot_more {A} (f : string -> A) d s : (forall r, f (r ++ e)%string = f r) -> dot f d (s ++ e) = dot f d s.
  Proof.
    intro F. destruct s as [|c s]; cbn [append].
    - unfold e, dot. replace (Ascii.eqb sp ".") with false by (spaces; reflexivity). reflexivity.
    - unfold dot. destruct (Ascii.eqb c "."); [apply F|reflexivity].
  Qed.
  Lemma mantissa_eq s : m_mantissa s = match span is_digit_b s with
    | 0 => dot (fun r => match span is_digit_b r with 0 => 0 | n => S n end) 0 s
    | n => dot (fun r => n + S (span is_digit_b r)) n (sdrop n s)
    end.
  Proof. unfold m_mantissa. destruct (span is_digit_b s); rewrite <- dot_eq; reflexivity. Qed.
  Lemma mantissa_more s : m_mantissa (s ++ e) = m_mantissa s.
  Proof.
    rewrite !mantissa_eq, (span_more _ s digit_sp). pose proof (span_le is_digit_b s) as L.
    destruct (span is_digit_b s) as [|n].
    - apply dot_more. intro r. rewrite (span_more _ r digit_sp). reflexivity.
    - cbv zeta. rewrite sdrop_more by exact L. apply dot_more. intro r. rewrite (span_more _ r digit_sp). reflexivity.
  Qed.
  Lemma mantissa_le s : m_mantissa s <= String.length s.
  Proof.
    rewrite mantissa_eq. pose proof (span_le is_digit_b s) as L. destruct (span is_digit_b s) as [|n] eqn:E.
    - unfold dot. destruct s as [|c r]; [lia|]. destruct (Ascii.eqb c "."); [|lia]. cbn [String.length].
      pose proof (span_le is_digit_b r). destruct (span is_digit_b r); lia.
    - cbv zeta. pose proof (sdrop_length (S n) s) as D. unfold dot. destruct (sdrop (S n) s) as [|c r]; [exact L|].
      destruct (Ascii.eqb c "."); [|exact L]. cbn [String.length] in D. pose proof (span_le is_digit_b r). lia.
  Qed.
  Lemma hex_eq s : m_hex s = match s with
    | String z (String x r) => if Ascii.eqb z "0" && Ascii.eqb (upper_ascii x) "X" then match span is_hex r with 0 => 0 | n => S (S n) end else 0
    | _ => 0
    end.
  Proof. destruct s as [|z [|x r]]; [reflexivity|destruct z as [[] [] [] [] [] [] [] []]; reflexivity|destruct z as [[] [] [] [] [] [] [] []]; reflexivity]. Qed.
  Lemma hex_more s : m_hex (s ++ e) = m_hex s.
  Proof.
    rewrite !hex_eq. destruct s as [|z [|x r]]; cbn [append].
    - unfold e. destruct more as [|x r]; [reflexivity|]. replace (Ascii.eqb sp "0") with false by (spaces; reflexivity). reflexivity.
    - unfold e. rewrite upper_sp. replace (Ascii.eqb sp "X") with false by (spaces; reflexivity). rewrite andb_false_r. reflexivity.
    - rewrite (span_more _ r hex_sp). reflexivity.
  Qed.
  Lemma numeric_more s : m_numeric (s ++ e) = m_numeric s.
  Proof.
    unfold m_numeric. rewrite mantissa_more, hex_more. pose proof (mantissa_le s) as L.
    destruct (m_mantissa s) as [|n]; [reflexivity|]. rewrite sdrop_more by exact L. rewrite exponent_more. reflexivity.
  Qed.

  Lemma quoted_more q s : quote_char q -> closed s -> quoted q (s ++ e) = quoted q s.
  Proof.
    intros Q C. destruct s as [|c s]; cbn [append].
    - unfold e, quoted. rewrite (quote_sp q Q). reflexivity.
    - unfold quoted. destruct (Ascii.eqb c q) eqn:E; [|reflexivity]. apply Ascii.eqb_eq in E. subst c.
      destruct (proj1 C q s Q eq_refl) as (n & H & N). rewrite H, (close_quote_app q e (clear_sp q Q) s n H N). reflexivity.
  Qed.
  Lemma bracketed_eq s : bracketed s = match s with
    | String c r => if Ascii.eqb c "[" then let n := span (fun c => negb (Ascii.eqb c "]")) r in if n <? String.length r then S (S n) else 0 else 0
    | EmptyString => 0
    end.
  Proof. destruct s as [|c r]; [reflexivity|]. destruct c as [[] [] [] [] [] [] [] []]; reflexivity. Qed.
  Lemma span_inside p : forall s, span p s < String.length s -> span p (s ++ e) = span p s.
  Proof.
    induction s as [|c s IH]; cbn [String.length append span]; intro L; [lia|]. destruct (p c); [|reflexivity]. rewrite IH by lia. reflexivity.
  Qed.
  Lemma length_more s : String.length s < String.length (s ++ e).
  Proof. induction s; cbn [append String.length]; [unfold e; cbn; lia|lia]. Qed.
  Lemma bracketed_more s : closed s -> bracketed (s ++ e) = bracketed s.
  Proof.
    intros [_ C]. destruct s as [|c s]; cbn [append].
    - rewrite !bracketed_eq. unfold e. replace (Ascii.eqb sp "[") with false by (spaces; reflexivity). reflexivity.
    - destruct (Ascii.eqb c "[") eqn:E; [|rewrite !bracketed_eq, E; reflexivity].
      apply Ascii.eqb_eq in E. subst c. specialize (C s eq_refl). rewrite bracketed_eq in C |- *. rewrite (bracketed_eq (String "[" s)).
      cbn [Ascii.eqb Bool.eqb] in *. cbv zeta in *.
      destruct (span (fun c => negb (Ascii.eqb c "]")) s <? String.length s) eqn:L; [|lia]. apply Nat.ltb_lt in L.
      rewrite span_inside by exact L. pose proof (length_more s) as L'.
      rewrite (proj2 (Nat.ltb_lt _ (String.length (s ++ e)))) by lia. reflexivity.
  Qed.
  Lemma identifier_more s : closed s -> m_identifier (s ++ e) = m_identifier s.
  Proof.
    intro C. unfold m_identifier. rewrite !quoted_more, bracketed_more, word_more; auto; unfold quote_char; auto.
  Qed.
  Lemma string_more s : closed s -> m_string (s ++ e) = m_string s.
  Proof. intro C. unfold m_string. apply quoted_more; [unfold quote_char; auto|exact C]. Qed.
  Lemma after_more f m s : (forall r c, s = String c r -> f c = true -> m (r ++ e)%string = m r) -> f sp = false ->
    after f m (s ++ e) = after f m s.
  Proof.
    intros H N. destruct s as [|c s]; cbn [append].
    - unfold e, after. rewrite N. reflexivity.
    - unfold after. destruct (f c) eqn:F; [|reflexivity]. rewrite (H s c eq_refl F). reflexivity.
  Qed.
  Lemma user_more s : fine s -> m_user_variable (s ++ e) = m_user_variable s.
  Proof.
    intro F. unfold m_user_variable. apply after_more; [|spaces; reflexivity]. intros r c -> E.
    apply Ascii.eqb_eq in E. subst c. apply identifier_more, (fine_closed_after "@"); [left; reflexivity|exact F].
  Qed.
  Lemma system_more s : fine s -> m_system_variable (s ++ e) = m_system_variable s.
  Proof.
    intro F. unfold m_system_variable. apply after_more; [|spaces; reflexivity]. intros r c -> E.
    apply Ascii.eqb_eq in E. subst c. unfold m_user_variable. apply after_more; [|spaces; reflexivity]. intros r' c -> E.
    apply Ascii.eqb_eq in E. subst c. apply identifier_more, fine_closed_double. exact F.
  Qed.
  Lemma bind_more s : fine s -> m_bind (s ++ e) = m_bind s.
  Proof.
    intro F. unfold m_bind. f_equal.
    - destruct s as [|c s]; cbn [append]; [|rewrite (span_more _ s digit_sp); reflexivity].
      unfold e. replace (Ascii.eqb sp "?" || Ascii.eqb sp "$") with false by (spaces; reflexivity). reflexivity.
    - apply after_more; [|spaces; reflexivity]. intros r c -> E. apply identifier_more, (fine_closed_after c); [|exact F].
      apply orb_prop in E. destruct E as [E|E]; [apply orb_prop in E; destruct E as [E|E]|]; apply Ascii.eqb_eq in E; subst c; unfold prefix_char; auto.
  Qed.
  Lemma blob_more s : fine s -> m_blob (s ++ e) = m_blob s.
  Proof.
    intro F. unfold m_blob. apply after_more; [|spaces; reflexivity]. intros r c -> E. apply string_more, (fine_closed_after c); [|exact F].
    apply Ascii.eqb_eq in E. destruct c as [[] [] [] [] [] [] [] []]; try discriminate E; unfold prefix_char; auto 6.
  Qed.

  (** comments *)
  Lemma line_zero s : (forall r, s <> String "-" (String "-" r)) -> m_line_comment s = 0.
  Proof.
    intro N. destruct s as [|c [|d r]]; try reflexivity.
    - destruct c as [[] [] [] [] [] [] [] []]; reflexivity.
    - destruct (Ascii.eqb c "-") eqn:E; [apply Ascii.eqb_eq in E; subst c|].
      + destruct (Ascii.eqb d "-") eqn:E; [apply Ascii.eqb_eq in E; subst d; destruct (N r eq_refl)|].
        destruct d as [[] [] [] [] [] [] [] []]; try reflexivity; discriminate E.
      + destruct c as [[] [] [] [] [] [] [] []]; try reflexivity; discriminate E.
  Qed.
  Lemma comment_zero s : (forall r, s <> String "/" (String "*" r)) -> m_comment s = 0.
  Proof.
    intro N. destruct s as [|c [|d r]]; try reflexivity.
    - destruct c as [[] [] [] [] [] [] [] []]; reflexivity.
    - destruct (Ascii.eqb c "/") eqn:E; [apply Ascii.eqb_eq in E; subst c|].
      + destruct (Ascii.eqb d "*") eqn:E; [apply Ascii.eqb_eq in E; subst d; destruct (N r eq_refl)|].
        destruct d as [[] [] [] [] [] [] [] []]; try reflexivity; discriminate E.
      + destruct c as [[] [] [] [] [] [] [] []]; try reflexivity; discriminate E.
  Qed.
  Lemma part_tail c r k n : part (String c r) -> next_token (String c r) = (k, n) -> part (sdrop n (String c r)).
  Proof.
    intros [F N] E. pose proof (lex_first _ _ _ _ E) as L. split.
    - intros t I. apply F. rewrite L. right. exact I.
    - rewrite L in N. cbn [no_comment_start] in N. destruct (lex (sdrop n (String c r))) as [|u us]; [exact Logic.I|].
      exact (proj2 (proj2 N)).
  Qed.
  (** a comment does not start within a part *)
  Lemma two_first a b r : ((a = "-" /\ b = "-") \/ (a = "/" /\ b = "*"))%char ->
    ~ In (fst (next_token (String a (String b r)))) ["UNEXPECTED_CHAR"; "SINGLE_LINE_COMMENT"; "MULTILINE_COMMENT"]%string ->
    snd (next_token (String a (String b r))) = 1.
  Proof.
    intros H K. destruct (rule_hit a (String b r)) as (m & I & E). pose proof (next_token_pos a (String b r)) as P.
    destruct (next_token (String a (String b r))) as [k n]. cbn [fst snd] in *. subst n.
    apply rules_split in I. destruct I as [(l & I & ->)|I].
    - assert (Q : forallb (fun x => negb (head_is (Ascii.eqb (upper_ascii a)) (snd x)) || (String.length (snd x) <=? 1)) literal_tokens = true)
        by (destruct H as [[-> ->]|[-> ->]]; vm_compute; reflexivity).
      rewrite forallb_forall in Q. specialize (Q _ I). cbn [snd] in Q.
      assert (Z : m_literal l (String a (String b r)) <> 0) by lia. rewrite (literal_head _ _ _ _ I Z) in Q.
      cbn [negb orb] in Q. apply Nat.leb_le in Q. unfold m_literal in P |- *. destruct (has_prefix l _); lia.
    - destruct H as [[-> ->]|[-> ->]]; each I; try (exfalso; apply K; cbn [In]; auto; fail); none P; reflexivity.
  Qed.
  Lemma lex_one c s : snd (next_token (String c s)) = 1 -> exists k, lex (String c s) = mkTok k (String c "") :: lex s.
  Proof. destruct (next_token (String c s)) as [k n] eqn:T. apply lex_first in T. cbn [snd]. intros ->. exists k. exact T. Qed.
  Lemma lex_some c s : exists k x us, lex (String c s) = mkTok k (String c x) :: us.
  Proof.
    pose proof (next_token_pos c s) as P. destruct (next_token (String c s)) as [k n] eqn:T. apply lex_first in T. cbn [snd] in P.
    destruct n as [|n]; [lia|]. exists k, (stake n s), (lex (sdrop n s)). exact T.
  Qed.
  Lemma two_chars a b r : ((a = "-" /\ b = "-") \/ (a = "/" /\ b = "*"))%char -> ~ part (String a (String b r)).
  Proof.
    intros H [F N]. destruct (lex_one _ _ (two_first a b r H (fine_first _ _ F))) as (k & E). rewrite E in N.
    destruct (lex_some b r) as (k' & x & us & E'). rewrite E' in N. clear E E' F. cbn [no_comment_start tx] in N.
    destruct N as (N1 & N2 & _). destruct H as [[-> ->]|[-> ->]]; [apply N1|apply N2]; split; reflexivity.
  Qed.
  Lemma app_second c s a b r : (String c s ++ e)%string = String a (String b r) -> sep b = false -> exists r', String c s = String a (String b r').
  Proof.
    intros H B. destruct s as [|d s]; cbn [append] in H; unfold e in H; injection H as -> E _.
    - rewrite <- E, W in B. discriminate.
    - rewrite E. exists s. reflexivity.
  Qed.
  Lemma line_more c s : part (String c s) -> m_line_comment (String c s ++ e) = m_line_comment (String c s).
  Proof.
    intro F. assert (N : forall r, String c s <> String "-" (String "-" r)) by (intros r E; rewrite E in F; exact (two_chars _ _ _ (or_introl (conj eq_refl eq_refl)) F)).
    rewrite (line_zero _ N). apply line_zero. intros r E. destruct (app_second _ _ _ _ _ E eq_refl) as [r' E']. exact (N r' E').
  Qed.
  Lemma comment_more c s : part (String c s) -> m_comment (String c s ++ e) = m_comment (String c s).
  Proof.
    intro F. assert (N : forall r, String c s <> String "/" (String "*" r)) by (intros r E; rewrite E in F; exact (two_chars _ _ _ (or_intror (conj eq_refl eq_refl)) F)).
    rewrite (comment_zero _ N). apply comment_zero. intros r E. destruct (app_second _ _ _ _ _ E eq_refl) as [r' E']. exact (N r' E').
  Qed.

  Lemma rule_more c s k m : part (String c s) -> In (k, m) lex_rules -> m (String c s ++ e)%string = m (String c s).
  Proof.
    intros F I. pose proof (proj1 F : fine (String c s)) as F'. apply rules_split in I. destruct I as [(l & I & ->)|I].
    - exact (literal_more k l _ _ I).
    - each I.
      + apply identifier_more, fine_closed, F'.
      + apply numeric_more.
      + apply system_more, F'.
      + apply user_more, F'.
      + apply bind_more, F'.
      + apply string_more, fine_closed, F'.
      + apply blob_more, F'.
      + apply line_more, F.
      + apply comment_more, F.
      + reflexivity.
      + reflexivity.
  Qed.
  (** no rule reaches beyond the text *)
  Lemma quoted_le q s : quoted q s <= String.length s.
  Proof.
    destruct s as [|c r]; [cbn; lia|]. unfold quoted. destruct (Ascii.eqb c q); [|lia].
    destruct (close_quote q r) as [n|] eqn:E; [|lia]. pose proof (close_quote_pos q r n E). cbn [String.length]. lia.
  Qed.
  Lemma bracketed_le s : bracketed s <= String.length s.
  Proof.
    rewrite bracketed_eq. destruct s as [|c r]; [lia|]. destruct (Ascii.eqb c "["); [|lia]. cbv zeta.
    destruct (_ <? _) eqn:E; [|lia]. apply Nat.ltb_lt in E. cbn [String.length]. lia.
  Qed.
  Lemma word_le s : word s <= String.length s.
  Proof. destruct s as [|c r]; [cbn; lia|]. unfold word. pose proof (span_le ident_char r). destruct (ident_start c); cbn [String.length]; lia. Qed.
  Lemma identifier_le s : m_identifier s <= String.length s.
  Proof.
    unfold m_identifier. pose proof (quoted_le dq s). pose proof (quoted_le "`" s). pose proof (bracketed_le s). pose proof (word_le s). lia.
  Qed.
  Lemma exponent_le s : m_exponent s <= String.length s.
  Proof.
    destruct s as [|c s]; [cbn; lia|]. unfold m_exponent. destruct (Ascii.eqb (upper_ascii c) "E"); [|lia].
    destruct s as [|d s]; [lia|]. destruct (Ascii.eqb d "+" || Ascii.eqb d "-").
    - pose proof (span_le is_digit_b s). cbn [String.length]. destruct (span is_digit_b s); lia.
    - pose proof (span_le is_digit_b (String d s)) as L. cbn [String.length] in *. destruct (span is_digit_b (String d s)); lia.
  Qed.
  Lemma numeric_le s : m_numeric s <= String.length s.
  Proof.
    unfold m_numeric. pose proof (mantissa_le s) as L. assert (H : m_hex s <= String.length s).
    { rewrite hex_eq. destruct s as [|z [|x r]]; try lia. destruct (Ascii.eqb z "0" && Ascii.eqb (upper_ascii x) "X"); [|lia].
      pose proof (span_le is_hex r). cbn [String.length]. destruct (span is_hex r); lia. }
    destruct (m_mantissa s) as [|n]; [lia|]. pose proof (exponent_le (sdrop (S n) s)) as E. rewrite sdrop_length in E. lia.
  Qed.
  Lemma after_bound f m s : (forall r, m r <= String.length r) -> after f m s <= String.length s.
  Proof.
    intro H. destruct (after_le f m s) as [E|(c & r & -> & E & _)]; [lia|]. rewrite E. specialize (H r). cbn [String.length]. lia.
  Qed.
  Lemma rule_bound c s k m : part (String c s) -> In (k, m) lex_rules -> m (String c s) <= String.length (String c s).
  Proof.
    intros F I. apply rules_split in I. destruct I as [(l & I & ->)|I].
    - unfold m_literal. destruct (has_prefix l _) eqn:E; [|lia]. apply has_prefix_length in E. rewrite to_upper_length in E. lia.
    - each I.
      + apply identifier_le.
      + apply numeric_le.
      + apply after_bound. intro r. apply after_bound, identifier_le.
      + apply after_bound, identifier_le.
      + unfold m_bind. apply Nat.max_lub; [|apply after_bound, identifier_le].
        destruct (Ascii.eqb c "?" || Ascii.eqb c "$"); [|lia]. pose proof (span_le is_digit_b s). cbn [String.length]. lia.
      + apply quoted_le.
      + apply after_bound. intro r. apply quoted_le.
      + rewrite line_zero; [lia|]. intros r E. rewrite E in F. exact (two_chars _ _ _ (or_introl (conj eq_refl eq_refl)) F).
      + rewrite comment_zero; [lia|]. intros r E. rewrite E in F. exact (two_chars _ _ _ (or_intror (conj eq_refl eq_refl)) F).
      + unfold m_space. destruct (existsb _ _); cbn [String.length]; lia.
      + cbn. lia.
  Qed.
  Lemma token_more c s : part (String c s) -> next_token (String c s ++ e) = next_token (String c s).
  Proof. intro F. exact (longest_ext lex_rules _ _ (fun k m I => rule_more c s k m F I) (""%string, 0)). Qed.
  Lemma lex_more : forall s, part s -> lex (s ++ e) = lex s ++ lex e.
  Proof.
    induction s as [s IH] using string_ind_len. intro F. destruct s as [|c s]; [assert (lex "" = []) as -> by reflexivity; cbn [append app]; exact (eq_refl _)|].
    pose proof (next_token_pos c s) as P. destruct (next_token (String c s)) as [k n] eqn:T. cbn [snd] in P.
    pose proof (token_more c s F) as T'. rewrite T in T'. cbn [append] in T'.
    assert (L : n <= String.length (String c s)).
    { destruct (rule_hit c s) as (m & I & E). rewrite T in I, E. cbn [fst snd] in I, E. rewrite <- E. exact (rule_bound c s k m F I). }
    cbn [append]. rewrite (lex_first _ _ _ _ T), (lex_first _ _ _ _ T'). change (String c (s ++ e)) with (String c s ++ e)%string.
    rewrite stake_more, sdrop_more by exact L. cbn [app]. f_equal. apply IH.
    - rewrite sdrop_length. cbn [String.length] in *. lia.
    - exact (part_tail _ _ _ _ F T).
  Qed.

  Lemma sep_rule k m : In (k, m) lex_rules -> m e = m (String sp "").
  Proof.
    intro I. unfold e. apply rules_split in I. destruct I as [(l & I & ->)|I].
    - assert (F : forallb (fun x => negb (head_is (Ascii.eqb (upper_ascii sp)) (snd x)) || (String.length (snd x) =? 1)) literal_tokens = true) by (spaces; vm_compute; reflexivity).
      rewrite forallb_forall in F. specialize (F _ I). cbn [snd] in F. destruct (Nat.eq_dec (m_literal l (String sp more)) 0) as [Z|Z].
      + rewrite Z. destruct (Nat.eq_dec (m_literal l (String sp "")) 0) as [Y|Y]; [congruence|].
        rewrite (literal_head _ _ _ _ I Y) in F. cbn [negb orb] in F. apply Nat.eqb_eq in F. destruct l as [|d [|d' l]]; try discriminate F. exfalso. exact (Y Z).
      + rewrite (literal_head _ _ _ _ I Z) in F. cbn [negb orb] in F. apply Nat.eqb_eq in F. destruct l as [|d [|d' l]]; try discriminate F. reflexivity.
    - each I; spaces; destruct more; reflexivity.
  Qed.
  Lemma sep_token : next_token e = next_token (String sp "").
  Proof. exact (longest_ext lex_rules _ _ sep_rule (""%string, 0)). Qed.
End More.

Lemma sep_one c more : sep c = true -> exists k, lex (String c more) = mkTok k (String c "") :: lex more /\ lex (String c "") = [mkTok k (String c "")]
  /\ hidden k = white c.
Proof.
  intro W. assert (T : exists k, next_token (String c "") = (k, 1) /\ hidden k = white c).
  { destruct (sep_cases c W) as [Ww | [-> | [-> | [-> | ->]]]];
      [destruct (white_cases c Ww) as [-> | [-> | [-> | [-> | ->]]]]| | | |]; eexists; split; vm_compute; reflexivity. }
  destruct T as (k & T & H). exists k. split; [apply (lex_first c more k 1); rewrite (sep_token c more W); exact T|].
  split; [exact (lex_first c "" k 1 T)|exact H].
Qed.
Lemma lex_white c more : white c = true -> exists k, lex (String c more) = mkTok k (String c "") :: lex more /\ hidden k = true.
Proof. intro W. destruct (sep_one c more (white_sep c W)) as (k & E & _ & H). exists k. rewrite W in H. auto. Qed.

Lemma visible_app a b : visible (a ++ b) = visible a ++ visible b.
Proof. apply filter_app. Qed.
Lemma lex_run w s : (forall c, In c (list_ascii_of_string w) -> white c = true) -> visible (lex (w ++ s)) = visible (lex s).
Proof.
  induction w as [|c w IH]; intro H; [reflexivity|]. cbn [append]. destruct (lex_white c (w ++ s)%string (H c (or_introl eq_refl))) as (k & -> & K).
  cbn [visible filter tk]. rewrite K. cbn [negb]. apply IH. intros d I. apply H. right. exact I.
Qed.
Lemma lex_gap x w s : part x -> white_run w -> visible (lex (x ++ w ++ s)) = visible (lex x) ++ visible (lex s).
Proof.
  intros F [N W]. destruct w as [|c w]; [congruence|]. cbn [append].
  rewrite (lex_more c (w ++ s) (white_sep c (W c (or_introl eq_refl))) x F), visible_app. f_equal. exact (lex_run (String c w) s W).
Qed.
Lemma lex_weave : forall rest x, part x -> Forall (fun p => white_run (fst p) /\ part (snd p)) rest ->
  visible (lex (weave x rest)) = visible (lex x) ++ concat (map (fun p => visible (lex (snd p))) rest).
Proof.
  induction rest as [|(w, y) rest IH]; intros x F A; cbn [weave map concat snd]; [rewrite app_nil_r; reflexivity|].
  inversion A as [|? ? [Wr Fy] A']; subst. rewrite (lex_gap x w _ F Wr). f_equal. exact (IH y Fy A').
Qed.
