(** Lexing: nothing is lost, and what words, numbers, strings and punctuation are read as. *)
From Coq Require Import Lia.
From Verif Require Import GoBase ModelEbnf ModelLex FactsBase ProofFn ProofQuery.

(** ** The longest match *)

Lemma longest_keeps : forall rules s best, (forall k m, In (k, m) rules -> m s <= snd best) -> longest rules s best = best.
Proof.
  induction rules as [|(k, m) rules IH]; intros s best H; [reflexivity|]. cbn [longest].
  assert (L : m s <= snd best) by (apply (H k); left; reflexivity).
  apply Nat.ltb_ge in L. rewrite L. apply IH. intros k' m' I. apply (H k'). right. exact I.
Qed.
Lemma longest_pick : forall before s best k m after,
  snd best < m s -> (forall k' m', In (k', m') before -> m' s < m s) -> (forall k' m', In (k', m') after -> m' s <= m s) ->
  longest (before ++ (k, m) :: after) s best = (k, m s).
Proof.
  induction before as [|(k1, m1) before IH]; intros s best k m after B Hb Ha; cbn [app longest].
  - apply Nat.ltb_lt in B. rewrite B. apply longest_keeps. exact Ha.
  - apply IH; [|intros k' m' I; apply (Hb k'); right; exact I|exact Ha].
    destruct (snd best <? m1 s); [|exact B]. cbn [snd]. apply (Hb k1). left. reflexivity.
Qed.
Lemma longest_bounds : forall rules s best, snd best <= snd (longest rules s best)
  /\ forall k m, In (k, m) rules -> m s <= snd (longest rules s best).
Proof.
  induction rules as [|(k, m) rules IH]; intros s best; cbn [longest]; [split; [lia|contradiction]|].
  destruct (IH s (if snd best <? m s then (k, m s) else best)) as [A B].
  destruct (snd best <? m s) eqn:E; [apply Nat.ltb_lt in E|apply Nat.ltb_ge in E]; cbn [snd] in A; (split; [lia|]);
    intros k' m' [I|I]; try (apply (B k'); exact I); injection I as <- <-; lia.
Qed.
Lemma longest_from : forall rules s best, longest rules s best = best
  \/ exists before k m after, rules = before ++ (k, m) :: after /\ longest rules s best = (k, m s) /\ snd best < m s
     /\ forall k' m', In (k', m') before -> m' s < m s.
Proof.
  induction rules as [|(k, m) rules IH]; intros s best; cbn [longest]; [left; reflexivity|].
  destruct (snd best <? m s) eqn:E.
  - apply Nat.ltb_lt in E. right. destruct (IH s (k, m s)) as [H|(bf & k1 & m1 & af & -> & H & L & B)].
    + exists [], k, m, rules. repeat split; try assumption. contradiction.
    + exists ((k, m) :: bf), k1, m1, af. cbn [snd] in L. repeat split; try assumption; [lia|].
      intros k' m' [I|I]; [injection I as <- <-; exact L|exact (B _ _ I)].
  - apply Nat.ltb_ge in E. destruct (IH s best) as [H|(bf & k1 & m1 & af & -> & H & L & B)]; [left; exact H|right].
    exists ((k, m) :: bf), k1, m1, af. repeat split; try assumption.
    intros k' m' [I|I]; [injection I as <- <-; lia|exact (B _ _ I)].
Qed.

Lemma next_token_pos c s : 1 <= snd (next_token (String c s)).
Proof.
  unfold next_token. apply (proj2 (longest_bounds lex_rules (String c s) (""%string, 0)) "UNEXPECTED_CHAR"%string m_any).
  unfold lex_rules. apply in_or_app. right. cbn [In]. do 10 right. left. reflexivity.
Qed.

(** ** Nothing is lost *)

Lemma stake_sdrop : forall n s, (stake n s ++ sdrop n s)%string = s.
Proof. induction n; intros [|c s]; cbn [stake sdrop append]; try reflexivity. rewrite IHn. reflexivity. Qed.
Lemma sdrop_length : forall n s, String.length (sdrop n s) = String.length s - n.
Proof. induction n; intros [|c s]; cbn [sdrop String.length]; try reflexivity. rewrite IHn. reflexivity. Qed.
Lemma stake_app n s t : String.length s = n -> stake n (s ++ t) = s.
Proof. intros <-. induction s as [|c s IH]; cbn [stake append String.length]; [reflexivity|]. rewrite IH. reflexivity. Qed.
Lemma sdrop_app n s t : String.length s = n -> sdrop n (s ++ t) = t.
Proof. intros <-. induction s as [|c s IH]; cbn [sdrop append String.length]; [reflexivity|]. exact IH. Qed.

Lemma lex_cons n c s : lex_from (S n) (String c s) =
  mkTok (fst (next_token (String c s))) (stake (snd (next_token (String c s))) (String c s))
  :: lex_from n (sdrop (snd (next_token (String c s))) (String c s)).
Proof. cbn [lex_from]. destruct (next_token (String c s)). reflexivity. Qed.

Lemma lex_from_ext : forall n m s, String.length s <= n -> String.length s <= m -> lex_from n s = lex_from m s.
Proof.
  induction n as [|n IH]; intros m [|c s] Ln Lm; try (destruct m; reflexivity); cbn [String.length] in Ln; [lia|].
  destruct m as [|m]; cbn [String.length] in Lm; [lia|]. rewrite !lex_cons. f_equal.
  pose proof (next_token_pos c s) as P. apply IH; rewrite sdrop_length; cbn [String.length]; lia.
Qed.
Lemma lex_step c s : lex (String c s) =
  mkTok (fst (next_token (String c s))) (stake (snd (next_token (String c s))) (String c s))
  :: lex (sdrop (snd (next_token (String c s))) (String c s)).
Proof.
  unfold lex at 1. cbn [String.length]. rewrite lex_cons. f_equal.
  pose proof (next_token_pos c s) as P. apply lex_from_ext; rewrite sdrop_length; cbn [String.length]; lia.
Qed.

Lemma string_ind_len (P : string -> Prop) : (forall s, (forall t, String.length t < String.length s -> P t) -> P s) -> forall s, P s.
Proof.
  intros H s. remember (String.length s) as n eqn:E. revert s E. induction n as [n IH] using lt_wf_ind. intros s ->.
  apply H. intros t L. exact (IH _ L t eq_refl).
Qed.

Lemma lex_concat s : String.concat "" (map tx (lex s)) = s.
Proof.
  induction s as [s IH] using string_ind_len. destruct s as [|c s]; [reflexivity|]. rewrite lex_step.
  pose proof (next_token_pos c s) as P. destruct (next_token (String c s)) as [k n]. cbn [fst snd] in *. cbn [map tx].
  transitivity (stake n (String c s) ++ String.concat "" (map tx (lex (sdrop n (String c s)))))%string.
  - destruct (map tx (lex (sdrop n (String c s)))); cbn [String.concat]; [rewrite append_nil_r|]; reflexivity.
  - rewrite IH by (rewrite sdrop_length; cbn [String.length]; lia). apply stake_sdrop.
Qed.
Lemma lex_nonempty s : Forall (fun t => tx t <> ""%string) (lex s).
Proof.
  induction s as [s IH] using string_ind_len. destruct s as [|c s]; [constructor|]. rewrite lex_step.
  pose proof (next_token_pos c s) as P. destruct (next_token (String c s)) as [k n]. cbn [fst snd] in *. constructor.
  - cbn [tx]. destruct n; [lia|discriminate].
  - apply IH. rewrite sdrop_length; cbn [String.length]; lia.
Qed.

(** ** Pieces of text that are read as one token whatever follows *)

(** what may follow *)
Definition head_ok (p : ascii -> bool) (s : string) : bool := match s with EmptyString => true | String c _ => p c end.

Lemma lex_one t s : tx t <> ""%string -> next_token (tx t ++ s) = (tk t, String.length (tx t)) -> lex (tx t ++ s) = t :: lex s.
Proof.
  intros N H. destruct t as [k [|c x]]; [contradiction|]. cbn [tx tk] in *. cbn [append] in *. rewrite lex_step, H. cbn [fst snd].
  rewrite (stake_app _ (String c x) s) by reflexivity. rewrite (sdrop_app _ (String c x) s) by reflexivity. reflexivity.
Qed.

(** *** Words *)

Definition all_chars (p : ascii -> bool) (s : string) : bool := forallb p (list_ascii_of_string s).
Definition is_word (s : string) : bool :=
  match s with String c r => ident_start c && all_chars ident_char r | EmptyString => false end.
(** the token a word is: its keyword or an identifier *)
Definition kind_of_word (s : string) : string :=
  match find (fun p => String.eqb (snd p) (to_upper s)) literal_tokens with Some p => fst p | None => "IDENTIFIER"%string end.

Lemma ident_char_upper c : ident_char (upper_ascii c) = ident_char c.
Proof. destruct c as [[] [] [] [] [] [] [] []]; reflexivity. Qed.
Lemma ident_start_upper c : ident_start (upper_ascii c) = ident_start c.
Proof. destruct c as [[] [] [] [] [] [] [] []]; reflexivity. Qed.

Lemma span_app p : forall r s, all_chars p r = true -> head_ok (fun c => negb (p c)) s = true -> span p (r ++ s) = String.length r.
Proof.
  unfold all_chars. induction r as [|c r IH]; intros s A H; cbn [append String.length list_ascii_of_string forallb] in *.
  - destruct s as [|d s]; [reflexivity|]. cbn [head_ok] in H. apply negb_true_iff in H. cbn [span]. rewrite H. reflexivity.
  - apply andb_prop in A. destruct A as [A B]. cbn [span]. rewrite A, IH by assumption. reflexivity.
Qed.

Lemma has_prefix_within p : forall l a b, all_chars p l = true -> head_ok (fun c => negb (p c)) b = true ->
  has_prefix l (a ++ b) = true -> has_prefix l a = true.
Proof.
  unfold all_chars. induction l as [|c l IH]; intros [|d a] b A H P; try reflexivity; cbn [append has_prefix list_ascii_of_string forallb] in *.
  - apply andb_prop in A. destruct A as [A _]. destruct b as [|e b]; [discriminate|]. cbn [has_prefix head_ok] in *.
    apply andb_prop in P. destruct P as [P _]. apply Ascii.eqb_eq in P. subst e. rewrite A in H. discriminate.
  - apply andb_prop in A. destruct A as [_ A]. apply andb_prop in P. destruct P as [P Q]. rewrite P. apply (IH a b A H Q).
Qed.
Lemma has_prefix_length : forall l a, has_prefix l a = true -> String.length l <= String.length a /\ (String.length l = String.length a -> l = a).
Proof.
  induction l as [|c l IH]; intros [|d a] H; cbn [has_prefix String.length] in *; try discriminate.
  - split; [lia|reflexivity].
  - split; [lia|discriminate].
  - apply andb_prop in H. destruct H as [E H]. apply Ascii.eqb_eq in E. subst d. destruct (IH a H) as [L Q].
    split; [lia|]. intro X. rewrite Q by lia. reflexivity.
Qed.

(** a literal of the lexer is a word, or does not start like one *)
Definition word_or_not (l : string) : bool :=
  match l with EmptyString => false | String c _ => all_chars ident_char l || negb (ident_start c) end.
Lemma literals_word_or_not k l : In (k, l) literal_tokens -> word_or_not l = true.
Proof.
  assert (H : forallb (fun p => word_or_not (snd p)) literal_tokens = true) by (vm_compute; reflexivity).
  rewrite forallb_forall in H. intro I. exact (H _ I).
Qed.

Definition ends_word (s : string) : bool := head_ok (fun c => negb (ident_char c) && negb (Ascii.eqb c "'")) s.
Lemma ends_word_ident s : ends_word s = true -> head_ok (fun c => negb (ident_char c)) s = true.
Proof. destruct s as [|c s]; [reflexivity|]. cbn. intro H. apply andb_prop in H. apply H. Qed.

Lemma literal_of_word k l x s : In (k, l) literal_tokens -> is_word x = true -> ends_word s = true ->
  m_literal l (x ++ s) <= String.length x /\ (l <> to_upper x -> m_literal l (x ++ s) < String.length x).
Proof.
  intros I W E. pose proof (literals_word_or_not _ _ I) as L. apply ends_word_ident in E. unfold m_literal.
  destruct x as [|c x]; [discriminate|]. cbn [is_word] in W. apply andb_prop in W. destruct W as [Wc Wx].
  destruct (has_prefix l (to_upper (String c x ++ s))) eqn:P; [|cbn [String.length]; split; [lia|intros _; lia]].
  assert (Q : has_prefix l (to_upper (String c x)) = true).
  { rewrite to_upper_app in P. destruct l as [|d l]; [discriminate|]. cbn [word_or_not] in L.
    apply orb_prop in L. destruct L as [L|L].
    - apply (has_prefix_within ident_char _ _ (to_upper s)); [exact L| |exact P].
      destruct s as [|e s]; [reflexivity|]. cbn [to_upper smap head_ok] in *. rewrite ident_char_upper. exact E.
    - cbn [to_upper smap append has_prefix] in P. apply andb_prop in P. destruct P as [P _]. apply Ascii.eqb_eq in P. subst d.
      rewrite ident_start_upper, Wc in L. discriminate. }
  destruct (has_prefix_length _ _ Q) as [A B]. rewrite to_upper_length in A, B. split; [exact A|]. intro N.
  assert (String.length l <> String.length (String c x)) by (intro Z; apply N; exact (B Z)). lia.
Qed.

Definition other_rules : list (string * (string -> nat)) :=
  [("NUMERIC_LITERAL", m_numeric); ("SYSTEM_VARIABLE", m_system_variable);
   ("USER_VARIABLE", m_user_variable); ("BIND_PARAMETER", m_bind); ("STRING_LITERAL", m_string);
   ("BLOB_LITERAL", m_blob); ("SINGLE_LINE_COMMENT", m_line_comment); ("MULTILINE_COMMENT", m_comment);
   ("SPACES", m_space); ("UNEXPECTED_CHAR", m_any)].
Lemma lex_rules_split : lex_rules = map (fun p => (fst p, m_literal (snd p))) literal_tokens ++ ("IDENTIFIER"%string, m_identifier) :: other_rules.
Proof. reflexivity. Qed.

Lemma other_rules_word c t : ident_start c = true -> head_ok (fun d => negb (Ascii.eqb d "'")) t = true ->
  forall k m, In (k, m) other_rules -> m (String c t) <= 1.
Proof.
  intros W H k m I.
  assert (B : m_blob (String c t) = 0).
  { unfold m_blob, after. destruct (Ascii.eqb (upper_ascii c) "X"); [|reflexivity].
    unfold m_string, quoted. destruct t as [|d t]; [reflexivity|]. cbn [head_ok] in H. apply negb_true_iff in H. rewrite H. reflexivity. }
  unfold other_rules in I. cbn [In] in I.
  destruct c as [[] [] [] [] [] [] [] []]; try discriminate W;
    repeat destruct I as [I|I]; try contradiction; injection I as <- <-; try rewrite B; first [apply Nat.le_0_l|apply le_n].
Qed.
Lemma identifier_word c t : ident_start c = true -> m_identifier (String c t) = S (span ident_char t).
Proof.
  intro W. unfold m_identifier, word. rewrite W.
  assert (Z : quoted dq (String c t) = 0 /\ quoted "`" (String c t) = 0 /\ bracketed (String c t) = 0)
    by (destruct c as [[] [] [] [] [] [] [] []]; try discriminate W; repeat split; reflexivity).
  destruct Z as (-> & -> & ->). reflexivity.
Qed.

Lemma find_first {A} (f : A -> bool) : forall l x, find f l = Some x ->
  exists bf af, l = bf ++ x :: af /\ f x = true /\ forall y, In y bf -> f y = false.
Proof.
  induction l as [|y l IH]; intros x H; [discriminate|]. cbn [find] in H. destruct (f y) eqn:E.
  - injection H as ->. exists [], l. split; [reflexivity|]. split; [exact E|]. contradiction.
  - destruct (IH x H) as (bf & af & -> & F & N). exists (y :: bf), af. split; [reflexivity|]. split; [exact F|].
    intros z [->|I]; [exact E|exact (N z I)].
Qed.

Lemma next_word x s : is_word x = true -> ends_word s = true -> next_token (x ++ s) = (kind_of_word x, String.length x).
Proof.
  intros W E. pose proof (ends_word_ident _ E) as E'. unfold next_token. rewrite lex_rules_split.
  assert (Wx : exists c r, x = String c r /\ ident_start c = true /\ all_chars ident_char r = true).
  { destruct x as [|c r]; [discriminate|]. cbn [is_word] in W. apply andb_prop in W. exists c, r. split; [reflexivity|exact W]. }
  destruct Wx as (c & r & -> & Wc & Wr).
  assert (ID : m_identifier (String c r ++ s) = String.length (String c r)).
  { cbn [append String.length]. rewrite identifier_word by exact Wc. rewrite span_app by assumption. reflexivity. }
  assert (OT : forall k m, In (k, m) other_rules -> m (String c r ++ s)%string <= String.length (String c r)).
  { intros k m I. cbn [append String.length]. pose proof (other_rules_word c (r ++ s) Wc) as O.
    assert (Hh : head_ok (fun d => negb (Ascii.eqb d "'")) (r ++ s) = true).
    { destruct r as [|d r]; cbn [append].
      - destruct s as [|d s]; [reflexivity|]. unfold ends_word in E. cbn [head_ok] in *. apply andb_prop in E. apply E.
      - cbn [head_ok]. unfold all_chars in Wr. cbn [list_ascii_of_string forallb] in Wr. apply andb_prop in Wr. destruct Wr as [Wd _].
        destruct d as [[] [] [] [] [] [] [] []]; try discriminate Wd; reflexivity. }
    specialize (O Hh k m I). lia. }
  unfold kind_of_word. destruct (find (fun p => String.eqb (snd p) (to_upper (String c r))) literal_tokens) as [(k, l)|] eqn:F.
  - destruct (find_first _ _ _ F) as (bf & af & Eq & Fx & Nb). cbn [fst snd] in *. apply String.eqb_eq in Fx.
    assert (In (k, l) literal_tokens) as Il by (rewrite Eq; apply in_or_app; right; left; reflexivity).
    assert (ML : m_literal l (String c r ++ s) = String.length (String c r)).
    { unfold m_literal. rewrite to_upper_app, <- Fx.
      replace (has_prefix l (l ++ to_upper s)) with true by (symmetry; apply has_prefix_iff; exists (to_upper s); reflexivity).
      rewrite Fx. apply to_upper_length. }
    rewrite Eq, map_app. cbn [map fst snd]. rewrite <- app_assoc. cbn [app].
    rewrite longest_pick; [rewrite ML; reflexivity|rewrite ML; cbn; lia| |].
    + intros k' m' I. apply in_map_iff in I. destruct I as ((k1, l1) & I1 & I2). cbn [fst snd] in I1. injection I1 as <- <-.
      rewrite ML. assert (In (k1, l1) literal_tokens) as I3 by (rewrite Eq; apply in_or_app; left; exact I2).
      apply (proj2 (literal_of_word _ _ _ _ I3 W E)). intro Z. specialize (Nb _ I2). cbn [snd] in Nb.
      rewrite Z, String.eqb_refl in Nb. discriminate.
    + intros k' m' I. rewrite ML. apply in_app_or in I. destruct I as [I|[I|I]].
      * apply in_map_iff in I. destruct I as ((k1, l1) & I1 & I2). cbn [fst snd] in I1. injection I1 as <- <-.
        assert (In (k1, l1) literal_tokens) as I3 by (rewrite Eq; apply in_or_app; right; right; exact I2).
        apply (literal_of_word _ _ _ _ I3 W E).
      * injection I as <- <-. lia.
      * exact (OT _ _ I).
  - rewrite longest_pick; [rewrite ID; reflexivity|rewrite ID; cbn; lia| |].
    + intros k' m' I. rewrite ID. apply in_map_iff in I. destruct I as ((k1, l1) & I1 & I2). cbn [fst snd] in I1. injection I1 as <- <-.
      apply (proj2 (literal_of_word _ _ _ _ I2 W E)). intro Z.
      apply (find_none _ _ F) in I2. cbn [snd] in I2. rewrite Z, String.eqb_refl in I2. discriminate.
    + intros k' m' I. rewrite ID. exact (OT _ _ I).
Qed.

(** names in quotes or brackets: what follows the first character *)
Fixpoint closed (q : ascii) (s : string) : bool :=
  match s with
  | EmptyString => false
  | String c r =>
      if Ascii.eqb c q then match r with EmptyString => true | String d r' => Ascii.eqb d q && closed q r' end else closed q r
  end.
Fixpoint bracket_closed (s : string) : bool :=
  match s with
  | EmptyString => false
  | String c r => if Ascii.eqb c "]" then match r with EmptyString => true | _ => false end else bracket_closed r
  end.
Definition is_quoted (x : string) : bool :=
  match x with
  | EmptyString => false
  | String c r => if Ascii.eqb c dq then closed dq r else if Ascii.eqb c "`" then closed "`" r else Ascii.eqb c "[" && bracket_closed r
  end.
Definition is_name (x : string) : bool := is_word x || is_quoted x.

Lemma close_closed q s : head_ok (fun c => negb (Ascii.eqb c q)) s = true ->
  forall r, closed q r = true -> close_quote q (r ++ s) = Some (String.length r).
Proof.
  intros H. induction r as [r IH] using string_ind_len. intro C. destruct r as [|c r]; [discriminate|]. cbn [closed] in C.
  cbn [append close_quote String.length]. destruct (Ascii.eqb c q) eqn:E.
  - destruct r as [|d r]; cbn [append].
    + destruct s as [|d s]; [reflexivity|]. cbn [head_ok] in H. apply negb_true_iff in H. rewrite H. reflexivity.
    + apply andb_prop in C. destruct C as [D C]. rewrite D. rewrite (IH r) by (try exact C; cbn [String.length]; lia). reflexivity.
  - rewrite (IH r) by (try exact C; cbn [String.length]; lia). reflexivity.
Qed.
Lemma closed_length q r : closed q r = true -> 1 <= String.length r.
Proof. destruct r; [discriminate|]. cbn [String.length]. lia. Qed.
Lemma bracket_length r : bracket_closed r = true -> 1 <= String.length r.
Proof. destruct r; [discriminate|]. cbn [String.length]. lia. Qed.
Lemma bracket_span s : forall r, bracket_closed r = true ->
  S (span (fun c => negb (Ascii.eqb c "]")) (r ++ s)) = String.length r /\ String.length r <= String.length (r ++ s).
Proof.
  induction r as [|c r IH]; intro C; [discriminate|]. cbn [bracket_closed] in C. cbn [append span String.length]. destruct (Ascii.eqb c "]") eqn:E; cbn [negb].
  - destruct r; [|discriminate]. cbn [append String.length]. lia.
  - destruct (IH C) as [A B]. lia.
Qed.
(** what may follow *)
Definition ends_quoted (s : string) : bool := head_ok (fun c => negb (Ascii.eqb c dq) && negb (Ascii.eqb c "`")) s.
Lemma identifier_quoted x s : is_quoted x = true -> ends_quoted s = true -> m_identifier (x ++ s) = String.length x /\ 2 <= String.length x.
Proof.
  intros Q E. destruct x as [|c r]; [discriminate|]. cbn [is_quoted] in Q. unfold ends_quoted in E.
  assert (Ed : head_ok (fun c => negb (Ascii.eqb c dq)) s = true) by (destruct s; [reflexivity|]; cbn [head_ok] in *; apply andb_prop in E; apply E).
  assert (Eb : head_ok (fun c => negb (Ascii.eqb c "`")) s = true) by (destruct s; [reflexivity|]; cbn [head_ok] in *; apply andb_prop in E; apply E).
  unfold m_identifier. cbn [append]. destruct (Ascii.eqb c dq) eqn:D; [|destruct (Ascii.eqb c "`") eqn:B; [|apply andb_prop in Q; destruct Q as [O Q]]].
  - apply Ascii.eqb_eq in D. subst c. unfold quoted at 1. rewrite Ascii.eqb_refl, (close_closed dq s Ed r Q). pose proof (closed_length _ _ Q).
    change (quoted "`" (String dq (r ++ s))) with 0. change (bracketed (String dq (r ++ s))) with 0. change (word (String dq (r ++ s))) with 0. cbn [String.length]. lia.
  - apply Ascii.eqb_eq in B. subst c. unfold quoted at 2. rewrite Ascii.eqb_refl, (close_closed _ s Eb r Q). pose proof (closed_length _ _ Q).
    change (quoted dq (String "`" (r ++ s))) with 0. change (bracketed (String "`" (r ++ s))) with 0. change (word (String "`" (r ++ s))) with 0. cbn [String.length]. lia.
  - apply Ascii.eqb_eq in O. subst c. destruct (bracket_span s r Q) as [A L]. pose proof (bracket_length _ Q).
    change (quoted dq (String "[" (r ++ s))) with 0. change (quoted "`" (String "[" (r ++ s))) with 0. change (word (String "[" (r ++ s))) with 0.
    unfold bracketed. destruct (Nat.ltb_spec (span (fun c => negb (Ascii.eqb c "]")) (r ++ s)) (String.length (r ++ s))) as [Z|Z]; cbn [String.length]; lia.
Qed.
Lemma quoted_head x : is_quoted x = true -> exists c r, x = String c r /\ In c [dq; "`"%char; "["%char].
Proof.
  destruct x as [|c r]; [discriminate|]. cbn [is_quoted]. intro H. exists c, r. split; [reflexivity|].
  destruct (Ascii.eqb c dq) eqn:D; [left; symmetry; apply Ascii.eqb_eq, D|]. destruct (Ascii.eqb c "`") eqn:B; [right; left; symmetry; apply Ascii.eqb_eq, B|].
  apply andb_prop in H. right; right; left. symmetry. apply Ascii.eqb_eq, H.
Qed.
Lemma quoted_literal c t : In c [dq; "`"%char; "["%char] -> forall k l, In (k, l) literal_tokens -> has_prefix l (to_upper (String c t)) = false.
Proof.
  intros Q k l I.
  assert (H : forallb (fun p => match snd p with String d _ => negb (Ascii.eqb d dq) && negb (Ascii.eqb d "`") && negb (Ascii.eqb d "[") | EmptyString => false end) literal_tokens = true)
    by (vm_compute; reflexivity).
  rewrite forallb_forall in H. specialize (H _ I). cbn [snd] in H. destruct l as [|d l]; [discriminate|].
  apply andb_prop in H. destruct H as [H H3]. apply andb_prop in H. destruct H as [H1 H2]. apply negb_true_iff in H1, H2, H3.
  cbn [to_upper smap has_prefix]. destruct Q as [<-|[<-|[<-|[]]]]; [change (upper_ascii dq) with dq; rewrite H1|change (upper_ascii "`") with "`"%char; rewrite H2|change (upper_ascii "[") with "["%char; rewrite H3]; reflexivity.
Qed.
Lemma quoted_kind x : is_quoted x = true -> kind_of_word x = "IDENTIFIER"%string.
Proof.
  intro Q. destruct (quoted_head x Q) as (c & r & -> & I). unfold kind_of_word.
  destruct (find (fun p => String.eqb (snd p) (to_upper (String c r))) literal_tokens) as [(k, l)|] eqn:F; [|reflexivity]. exfalso.
  apply find_some in F. destruct F as [F E]. cbn [snd] in E. apply String.eqb_eq in E. pose proof (quoted_literal c r I k l F) as H. rewrite <- E in H.
  replace (has_prefix l l) with true in H; [discriminate|]. symmetry. apply has_prefix_iff. exists ""%string. symmetry. apply append_nil_r.
Qed.
Lemma next_quoted x s : is_quoted x = true -> ends_quoted s = true -> next_token (x ++ s) = (kind_of_word x, String.length x).
Proof.
  intros Q E. rewrite (quoted_kind x Q). destruct (identifier_quoted x s Q E) as [M L]. destruct (quoted_head x Q) as (c & r & -> & I).
  unfold next_token. rewrite lex_rules_split. rewrite longest_pick; [rewrite M; reflexivity|rewrite M; cbn [snd String.length]; lia| |].
  - intros k m J. rewrite M. apply in_map_iff in J. destruct J as ((k1, l1) & J1 & J2). cbn [fst snd] in J1. injection J1 as <- <-.
    unfold m_literal. cbn [append]. rewrite (quoted_literal c (r ++ s) I k1 l1 J2). cbn [String.length]. lia.
  - intros k m J. rewrite M. cbn [append In other_rules] in *. destruct I as [<-|[<-|[<-|[]]]];
      repeat destruct J as [J|J]; try contradiction; injection J as <- <-; (eapply Nat.le_trans; [|exact L]); repeat constructor.
Qed.

(** *** Pieces *)

(** what a printed statement is made of *)
Inductive piece := PWord (w : string) | PNum (n : string) | PText (body : string) | PSym (kind txt : string).
Definition pkind (p : piece) : string :=
  match p with PWord w => kind_of_word w | PNum _ => "NUMERIC_LITERAL" | PText _ => "STRING_LITERAL" | PSym k _ => k end.
Definition ptext (p : piece) : string :=
  match p with PWord w => w | PNum n => n | PText b => ("'" ++ b ++ "'")%string | PSym _ t => t end.
Definition ptok (p : piece) : token := mkTok (pkind p) (ptext p).

(** digits, with a fraction or without *)
Definition is_digits (s : string) : bool := match s with EmptyString => false | _ => all_chars is_digit_b s end.
Fixpoint is_num (s : string) : bool :=
  match s with
  | EmptyString => false
  | String c r => is_digit_b c && match r with
                                  | EmptyString => true
                                  | String d r' => if Ascii.eqb d "." then is_digits r' else is_num r
                                  end
  end.
Definition symbols : list (string * string) :=
  [("SPACES", " "); ("SPACES", String (ascii_of_nat 9) ""); ("SPACES", String (ascii_of_nat 10) ""); ("SPACES", String (ascii_of_nat 13) ""); ("OPEN_PAR", "("); ("CLOSE_PAR", ")"); ("COMMA", ","); ("SCOL", ";"); ("STAR", "*"); ("DOT", ".");
   ("ASSIGN", "="); ("NOT_EQ1", "!="); ("LT", "<"); ("GT", ">"); ("LT_EQ", "<="); ("GT_EQ", ">="); ("EQ", "=="); ("NOT_EQ2", "<>");
   ("PLUS", "+"); ("MINUS", "-"); ("DIV", "/"); ("MOD", "%")].
(** space, tab, newline and carriage return *)
Definition blanks : list ascii := [" "%char; ascii_of_nat 9; ascii_of_nat 10; ascii_of_nat 13].
(** the single quotes come in pairs *)
Fixpoint pairs (s : string) : bool :=
  match s with
  | EmptyString => true
  | String c r =>
      if Ascii.eqb c "'" then match r with String d r' => Ascii.eqb d "'" && pairs r' | EmptyString => false end else pairs r
  end.
Definition ok_piece (p : piece) : bool :=
  match p with
  | PWord w => is_name w
  | PNum n => is_num n
  | PText b => pairs b
  | PSym k t => existsb (fun q => String.eqb (fst q) k && String.eqb (snd q) t) symbols
  end.
(** symbols that are tokens whatever follows *)
Definition tight (k : string) : bool :=
  existsb (String.eqb k) ["SPACES"; "OPEN_PAR"; "CLOSE_PAR"; "COMMA"; "SCOL"; "STAR"].
(** q may follow p *)
Definition next_ok (p q : piece) : bool :=
  match p, q with
  | PWord _, PSym _ _ => true
  | PNum _, PSym k _ => negb (String.eqb k "DOT")
  | PText _, PText _ => false
  | PText _, _ => true
  | PSym k _, _ =>
      tight k || match q with
                 | PWord _ => String.eqb k "DOT"
                 | PNum _ => String.eqb k "MINUS"
                 | PSym k' _ => String.eqb k' "SPACES"
                 | PText _ => false
                 end
  | _, _ => false
  end.
Fixpoint chain (ps : list piece) : bool :=
  match ps with p :: ((q :: _) as r) => next_ok p q && chain r | _ => true end.
Definition glue (ps : list piece) : string := fold_right (fun p s => (ptext p ++ s)%string) ""%string ps.

Lemma next_name x s : is_name x = true -> ends_word s = true -> ends_quoted s = true -> next_token (x ++ s) = (kind_of_word x, String.length x).
Proof. intros N E F. apply orb_prop in N. destruct N as [N|N]; [apply next_word|apply next_quoted]; assumption. Qed.
Lemma name_head x : is_name x = true -> exists c r, x = String c r /\ (ident_start c = true \/ In c [dq; "`"%char; "["%char]).
Proof.
  intro N. apply orb_prop in N. destruct N as [N|N].
  - destruct x as [|c r]; [discriminate|]. cbn [is_word] in N. apply andb_prop in N. exists c, r. split; [reflexivity|left; apply N].
  - destruct (quoted_head x N) as (c & r & E & I). exists c, r. split; [exact E|right; exact I].
Qed.
Lemma ptext_nonempty p : ok_piece p = true -> ptext p <> ""%string.
Proof.
  destruct p as [w|n|b|k t]; cbn [ok_piece ptext].
  - destruct w; [discriminate|discriminate].
  - destruct n; [discriminate|discriminate].
  - discriminate.
  - intro H. apply existsb_exists in H. destruct H as (q & I & E). apply andb_prop in E. destruct E as [_ E].
    apply String.eqb_eq in E. subst t. cbn [In symbols] in I. repeat destruct I as [<-|I]; try discriminate. contradiction.
Qed.

Lemma sym_head p s k t : p = PSym k t -> ok_piece p = true ->
  exists c r, (t ++ s)%string = String c r /\ ident_char c = false /\ Ascii.eqb c "'" = false /\ (k <> "DOT"%string -> Ascii.eqb c "." = false)
    /\ (k = "SPACES"%string -> In c blanks).
Proof.
  intros -> H. cbn [ok_piece] in H. apply existsb_exists in H. destruct H as (q & I & E). apply andb_prop in E. destruct E as [F E].
  apply String.eqb_eq in E, F. subst t k. cbn [In symbols] in I.
  repeat destruct I as [<-|I]; try contradiction; cbn [snd fst append]; do 2 eexists;
    (split; [reflexivity|]); repeat split; try discriminate; intro X; try reflexivity; try (exfalso; apply X; reflexivity); vm_compute; tauto.
Qed.

Lemma sym_ends_quoted k t s : ok_piece (PSym k t) = true -> ends_quoted (t ++ s) = true.
Proof.
  cbn [ok_piece]. intro H. apply existsb_exists in H. destruct H as (q & I & E). apply andb_prop in E. destruct E as [_ E].
  apply String.eqb_eq in E. subst t. cbn [In symbols] in I. repeat destruct I as [<-|I]; try contradiction; reflexivity.
Qed.
Lemma next_sym k t c : existsb (fun q => String.eqb (fst q) k && String.eqb (snd q) t) symbols = true -> In c blanks ->
  forall s, next_token (t ++ String c s) = (k, String.length t).
Proof.
  intros H B s. apply existsb_exists in H. destruct H as (q & I & E). apply andb_prop in E. destruct E as [F E].
  apply String.eqb_eq in E, F. subst t k. cbn [In symbols] in I. cbn [In blanks] in B.
  repeat destruct I as [<-|I]; try contradiction; repeat destruct B as [<-|B]; try contradiction; vm_compute; reflexivity.
Qed.
Lemma next_tight k t s : existsb (fun q => String.eqb (fst q) k && String.eqb (snd q) t) symbols = true -> tight k = true ->
  next_token (t ++ s) = (k, String.length t).
Proof.
  intros H T. apply existsb_exists in H. destruct H as (q & I & E). apply andb_prop in E. destruct E as [F E].
  apply String.eqb_eq in E, F. subst t k. cbn [In symbols] in I.
  repeat destruct I as [<-|I]; try contradiction; try discriminate T; vm_compute; reflexivity.
Qed.
Lemma next_last k t : existsb (fun q => String.eqb (fst q) k && String.eqb (snd q) t) symbols = true ->
  next_token t = (k, String.length t).
Proof.
  intros H. apply existsb_exists in H. destruct H as (q & I & E). apply andb_prop in E. destruct E as [F E].
  apply String.eqb_eq in E, F. subst t k. cbn [In symbols] in I.
  repeat destruct I as [<-|I]; try contradiction; vm_compute; reflexivity.
Qed.
Lemma sym_text k t : ok_piece (PSym k t) = true -> k <> "SPACES"%string -> forall u, mget String.eqb k symbols = Some u -> t = u.
Proof.
  intros H N u. cbn [ok_piece] in H. apply existsb_exists in H. destruct H as (q & I & E). apply andb_prop in E. destruct E as [F E].
  apply String.eqb_eq in E, F. subst t k. cbn [In symbols] in I.
  repeat destruct I as [<-|I]; try contradiction; try (destruct N; reflexivity); vm_compute; congruence.
Qed.
Lemma next_dot c s : ident_start c = true \/ In c [dq; "`"%char; "["%char] -> next_token (String "." (String c s)) = ("DOT"%string, 1).
Proof. intros [W|[<-|[<-|[<-|[]]]]]; [|vm_compute; reflexivity..]. destruct c as [[] [] [] [] [] [] [] []]; try discriminate W; vm_compute; reflexivity. Qed.
Lemma next_minus c s : is_digit_b c = true -> next_token (String "-" (String c s)) = ("MINUS"%string, 1).
Proof. intro W. destruct c as [[] [] [] [] [] [] [] []]; try discriminate W; vm_compute; reflexivity. Qed.

(** texts in quotes *)
Lemma close_quote_plain : forall b s, pairs b = true ->
  head_ok (fun c => negb (Ascii.eqb c "'")) s = true -> close_quote "'" (b ++ "'" ++ s) = Some (S (String.length b)).
Proof.
  intros b s. assert (G : forall n b, String.length b <= n -> pairs b = true ->
    head_ok (fun c => negb (Ascii.eqb c "'")) s = true -> close_quote "'" (b ++ "'" ++ s) = Some (S (String.length b))); [|exact (G _ b (le_n _))].
  clear b. induction n as [|n IH]; intros [|c b] L A H; cbn [String.length] in L; try lia.
  1, 2: cbn [append close_quote Ascii.eqb Bool.eqb String.length]; destruct s as [|d s]; [reflexivity|]; cbn [head_ok] in H; apply negb_true_iff in H; rewrite H; reflexivity.
  cbn [append] in IH. cbn [pairs] in A. cbn [append close_quote String.length]. destruct (Ascii.eqb c "'") eqn:C.
  - destruct b as [|d b]; [discriminate A|]. apply andb_prop in A. destruct A as [D A]. cbn [append]. rewrite D.
    rewrite (IH b) by (try assumption; cbn [String.length] in L; lia). reflexivity.
  - rewrite (IH b) by (try assumption; lia). reflexivity.
Qed.
Lemma quote_others t : (forall k m, In (k, m) (map (fun p => (fst p, m_literal (snd p))) literal_tokens) -> m (String "'" t) = 0)
  /\ m_identifier (String "'" t) = 0
  /\ forall k m, In (k, m) other_rules -> m = m_string \/ m (String "'" t) <= 1.
Proof.
  split; [|split; [reflexivity|]].
  - intros k m I. apply in_map_iff in I. destruct I as ((k1, l1) & I1 & I2). cbn [fst snd] in I1. injection I1 as <- <-.
    assert (H : forallb (fun p => match snd p with String c _ => negb (Ascii.eqb c "'") | EmptyString => false end) literal_tokens = true)
      by (vm_compute; reflexivity).
    rewrite forallb_forall in H. specialize (H _ I2). cbn [snd] in H. destruct l1 as [|c l1]; [discriminate|].
    apply negb_true_iff in H. unfold m_literal. cbn [to_upper smap has_prefix]. change (upper_ascii "'") with "'"%char. rewrite H. reflexivity.
  - intros k m I. cbn [In other_rules] in I. repeat destruct I as [I|I]; try contradiction; injection I as <- <-;
      try (left; reflexivity); right; try apply le_0_n; apply le_n.
Qed.
Lemma next_text b s : pairs b = true -> head_ok (fun c => negb (Ascii.eqb c "'")) s = true ->
  next_token (("'" ++ b ++ "'") ++ s) = ("STRING_LITERAL"%string, String.length ("'" ++ b ++ "'")).
Proof.
  intros A H.
  replace (("'" ++ b ++ "'") ++ s)%string with (String "'" (b ++ "'" ++ s)) by (cbn [append]; rewrite sapp_assoc; reflexivity).
  assert (M : m_string (String "'" (b ++ "'" ++ s)) = String.length ("'" ++ b ++ "'")).
  { unfold m_string, quoted. cbn [Ascii.eqb Bool.eqb]. rewrite close_quote_plain by assumption.
    cbn [append String.length]. f_equal. clear. induction b as [|c b IH]; [reflexivity|]. cbn [append String.length]. rewrite <- IH. reflexivity. }
  assert (L : 2 <= String.length ("'" ++ b ++ "'")) by (cbn [append String.length]; destruct b; cbn [append String.length]; lia).
  destruct (quote_others (b ++ "'" ++ s)) as (Q1 & Q2 & Q3).
  unfold next_token.
  replace lex_rules with ((map (fun p => (fst p, m_literal (snd p))) literal_tokens
    ++ ("IDENTIFIER"%string, m_identifier) :: firstn 4 other_rules) ++ ("STRING_LITERAL"%string, m_string) :: skipn 5 other_rules)
    by (rewrite <- app_assoc; reflexivity).
  rewrite longest_pick; [rewrite M; reflexivity|rewrite M; cbn [snd]; lia| |].
  - intros k m I. rewrite M. apply in_app_or in I. destruct I as [I|[I|I]].
    + rewrite (Q1 _ _ I). lia.
    + injection I as <- <-. rewrite Q2. lia.
    + cbn [firstn other_rules In] in I. repeat destruct I as [I|I]; try contradiction; injection I as <- <-;
        (eapply Nat.lt_le_trans; [|exact L]); repeat constructor.
  - intros k m I. rewrite M. cbn [skipn other_rules In] in I. repeat destruct I as [I|I]; try contradiction; injection I as <- <-;
      (eapply Nat.le_trans; [|exact L]); repeat constructor.
Qed.

(** numbers *)
Lemma is_num_split : forall n, is_num n = true ->
  is_digits n = true \/ exists a b, n = (a ++ "." ++ b)%string /\ is_digits a = true /\ is_digits b = true.
Proof.
  induction n as [|c n IH]; intro H; [discriminate|]. cbn [is_num] in H. apply andb_prop in H. destruct H as [C H].
  destruct n as [|d n].
  - left. unfold is_digits, all_chars. cbn. rewrite C. reflexivity.
  - destruct (Ascii.eqb d ".") eqn:E.
    + apply Ascii.eqb_eq in E. subst d. right. exists (String c ""), n. split; [reflexivity|]. split; [|exact H].
      unfold is_digits, all_chars. cbn. rewrite C. reflexivity.
    + destruct (IH H) as [D|(a & b & Eq & Da & Db)].
      * left. unfold is_digits, all_chars in *. cbn [list_ascii_of_string forallb] in *. rewrite C. exact D.
      * right. exists (String c a), b. rewrite Eq. split; [reflexivity|]. split; [|exact Db].
        unfold is_digits, all_chars in *. destruct a; [discriminate|]. cbn [list_ascii_of_string forallb] in *. rewrite C. exact Da.
Qed.

Definition ends_number (s : string) : bool := head_ok (fun c => negb (ident_char c) && negb (Ascii.eqb c ".")) s.
Lemma ends_number_digit s : ends_number s = true -> head_ok (fun c => negb (is_digit_b c)) s = true.
Proof. destruct s as [|c s]; [reflexivity|]. unfold ends_number. cbn [head_ok]. unfold ident_char. intro H. destruct (is_digit_b c); [|reflexivity]. rewrite orb_true_r in H. discriminate. Qed.
Lemma exponent_none s : head_ok (fun c => negb (ident_char c)) s = true -> m_exponent s = 0.
Proof.
  destruct s as [|c s]; [reflexivity|]. cbn [head_ok]. intro H. unfold m_exponent.
  destruct (Ascii.eqb (upper_ascii c) "E") eqn:E; [|reflexivity]. exfalso. apply Ascii.eqb_eq in E.
  rewrite <- ident_char_upper, E in H. discriminate.
Qed.
Lemma hex_none c t : head_ok (fun c => negb (Ascii.eqb (upper_ascii c) "X")) t = true -> m_hex (String c t) = 0.
Proof.
  intro H. unfold m_hex. destruct t as [|d t]; [destruct c as [[] [] [] [] [] [] [] []]; reflexivity|].
  cbn [head_ok] in H. apply negb_true_iff in H. rewrite H. destruct c as [[] [] [] [] [] [] [] []]; reflexivity.
Qed.
Lemma no_x c : ident_char c = false -> negb (Ascii.eqb (upper_ascii c) "X") = true.
Proof. intro H. destruct (Ascii.eqb (upper_ascii c) "X") eqn:E; [|reflexivity]. apply Ascii.eqb_eq in E. rewrite <- ident_char_upper, E in H. discriminate. Qed.
Lemma digit_no_x c : is_digit_b c = true -> negb (Ascii.eqb (upper_ascii c) "X") = true.
Proof. destruct c as [[] [] [] [] [] [] [] []]; try discriminate; reflexivity. Qed.

Lemma digits_cons c r : is_digits (String c r) = true -> is_digit_b c = true /\ (r = ""%string \/ is_digits r = true).
Proof.
  unfold is_digits, all_chars. cbn [list_ascii_of_string forallb]. intro H. apply andb_prop in H. destruct H as [H R].
  split; [exact H|]. destruct r; [left; reflexivity|right; exact R].
Qed.
Lemma digits_all s : is_digits s = true -> all_chars is_digit_b s = true.
Proof. destruct s; [discriminate|]. intro H; exact H. Qed.

Lemma mantissa_digits a s : is_digits a = true -> ends_number s = true -> m_mantissa (a ++ s) = String.length a.
Proof.
  intros A E. unfold m_mantissa. rewrite span_app by (try apply digits_all; try apply ends_number_digit; assumption).
  destruct a as [|c a]; [discriminate|]. cbn [String.length]. rewrite sdrop_app by reflexivity.
  destruct s as [|d s]; [reflexivity|]. unfold ends_number in E. cbn [head_ok] in E. apply andb_prop in E. destruct E as [_ E].
  destruct d as [[] [] [] [] [] [] [] []]; try reflexivity. discriminate E.
Qed.
Lemma mantissa_fraction a b s : is_digits a = true -> is_digits b = true -> ends_number s = true ->
  m_mantissa ((a ++ "." ++ b) ++ s) = String.length (a ++ "." ++ b).
Proof.
  intros A B E. rewrite !sapp_assoc. unfold m_mantissa.
  rewrite span_app; [|apply digits_all; exact A|reflexivity].
  destruct a as [|c a]; [discriminate|]. cbn [String.length]. rewrite (sdrop_app _ (String c a)) by reflexivity.
  cbn [append]. rewrite span_app by (try apply digits_all; try apply ends_number_digit; assumption).
  clear. cbn [append String.length]. f_equal. induction a as [|d a IH]; cbn [append String.length]; [reflexivity|]. rewrite <- IH. lia.
Qed.

Lemma num_head n : is_num n = true -> exists c r, n = String c r /\ is_digit_b c = true
  /\ (r = ""%string \/ exists d r', r = String d r' /\ (is_digit_b d = true \/ d = "."%char)).
Proof.
  destruct n as [|c r]; [discriminate|]. cbn [is_num]. intro H. apply andb_prop in H. destruct H as [C H].
  exists c, r. split; [reflexivity|]. split; [exact C|]. destruct r as [|d r']; [left; reflexivity|right].
  exists d, r'. split; [reflexivity|]. destruct (Ascii.eqb d ".") eqn:E; [right; apply Ascii.eqb_eq; exact E|left].
  cbn [is_num] in H. apply andb_prop in H. apply H.
Qed.

Lemma numeric_num n s : is_num n = true -> ends_number s = true -> m_numeric (n ++ s) = String.length n.
Proof.
  intros N E.
  assert (M : m_mantissa (n ++ s) = String.length n).
  { destruct (is_num_split _ N) as [D|(a & b & -> & A & B)]; [apply mantissa_digits; assumption|apply mantissa_fraction; assumption]. }
  assert (I : head_ok (fun c => negb (ident_char c)) s = true).
  { destruct s; [reflexivity|]. unfold ends_number in E. cbn [head_ok] in *. apply andb_prop in E. apply E. }
  destruct (num_head _ N) as (c & r & -> & C & Hr). unfold m_numeric. rewrite M. cbn [String.length].
  rewrite (sdrop_app _ (String c r)) by reflexivity. rewrite exponent_none by exact I.
  cbn [append]. rewrite hex_none; [lia|].
  destruct Hr as [->|(d & r' & -> & Hd)]; cbn [append].
  - destruct s as [|d s]; [reflexivity|]. cbn [head_ok] in *. apply no_x. apply negb_true_iff. exact I.
  - cbn [head_ok]. destruct Hd as [Hd| ->]; [apply digit_no_x; exact Hd|reflexivity].
Qed.

Lemma next_num n s : is_num n = true -> ends_number s = true -> next_token (n ++ s) = ("NUMERIC_LITERAL"%string, String.length n).
Proof.
  intros N E. pose proof (numeric_num _ _ N E) as M. destruct (num_head _ N) as (c & r & -> & C & _).
  unfold next_token.
  replace lex_rules with ((map (fun p => (fst p, m_literal (snd p))) literal_tokens
    ++ [("IDENTIFIER"%string, m_identifier)]) ++ ("NUMERIC_LITERAL"%string, m_numeric) :: skipn 1 other_rules)
    by (rewrite <- app_assoc; reflexivity).
  rewrite longest_pick; [rewrite M; reflexivity|rewrite M; cbn; lia| |].
  - intros k m I. rewrite M. cbn [String.length]. apply in_app_or in I. destruct I as [I|[I|[]]].
    + apply in_map_iff in I. destruct I as ((k1, l1) & I1 & I2). cbn [fst snd] in I1. injection I1 as <- <-.
      assert (H : forallb (fun p => match snd p with String d _ => negb (is_digit_b d) | EmptyString => false end) literal_tokens = true)
        by (vm_compute; reflexivity).
      rewrite forallb_forall in H. specialize (H _ I2). cbn [snd] in H. destruct l1 as [|d l1]; [discriminate|].
      unfold m_literal. cbn [append to_upper smap has_prefix].
      destruct (Ascii.eqb d (upper_ascii c)) eqn:Q; [|cbn [andb]; lia]. apply Ascii.eqb_eq in Q. subst d.
      replace (is_digit_b (upper_ascii c)) with true in H; [discriminate|].
      destruct c as [[] [] [] [] [] [] [] []]; try discriminate C; reflexivity.
    + injection I as <- <-. cbn [append].
      replace (m_identifier (String c (r ++ s))) with 0; [lia|].
      destruct c as [[] [] [] [] [] [] [] []]; try discriminate C; reflexivity.
  - intros k m I. rewrite M. cbn [append String.length]. cbn [skipn other_rules In] in I.
    apply (Nat.le_trans _ 1); [|lia].
    destruct c as [[] [] [] [] [] [] [] []]; try discriminate C; clear - I;
      repeat destruct I as [I|I]; try contradiction; injection I as <- <-; first [apply le_0_n|apply le_n].
Qed.

(** ** Printed texts *)

Lemma glue_cons p ps : glue (p :: ps) = (ptext p ++ glue ps)%string.
Proof. reflexivity. Qed.

Lemma lex_pieces : forall ps, forallb ok_piece ps = true -> chain ps = true -> lex (glue ps) = map ptok ps.
Proof.
  induction ps as [|p ps IH]; intros O C; [reflexivity|]. cbn [forallb] in O. apply andb_prop in O. destruct O as [Op Os].
  rewrite glue_cons. cbn [map].
  assert (Cs : chain ps = true).
  { cbn [chain] in C. destruct ps; [reflexivity|]. apply andb_prop in C. apply C. }
  specialize (IH Os Cs).
  assert (N : next_token (ptext p ++ glue ps) = (pkind p, String.length (ptext p))).
  { destruct ps as [|q ps].
    - change (glue []) with ""%string. rewrite append_nil_r. destruct p as [w|n|b|k t]; cbn [ptext pkind ok_piece] in *.
      + rewrite <- (append_nil_r w) at 1. apply next_name; [exact Op|reflexivity|reflexivity].
      + rewrite <- (append_nil_r n) at 1. apply next_num; [exact Op|reflexivity].
      + rewrite <- (append_nil_r ("'" ++ b ++ "'")) at 1. apply next_text; [exact Op|reflexivity].
      + apply next_last. exact Op.
    - cbn [chain] in C. apply andb_prop in C. destruct C as [C _]. cbn [forallb] in Os. apply andb_prop in Os. destruct Os as [Oq _].
      rewrite glue_cons. destruct p as [w|n|b|k t]; cbn [ptext pkind] in *.
      + destruct q as [| | |k' t']; try discriminate C. cbn [ptext].
        pose proof (sym_ends_quoted _ _ (glue ps) Oq) as Q.
        destruct (sym_head _ (glue ps) k' t' eq_refl Oq) as (c & r & E & Ci & Cq & _). rewrite E in Q |- *. apply next_name; [exact Op| |exact Q].
        unfold ends_word. cbn [head_ok]. rewrite Ci, Cq. reflexivity.
      + destruct q as [| | |k' t']; try discriminate C. cbn [ptext next_ok] in *.
        destruct (sym_head _ (glue ps) k' t' eq_refl Oq) as (c & r & -> & Ci & _ & Cd & _). apply next_num; [exact Op|].
        unfold ends_number. cbn [head_ok]. rewrite Ci, Cd; [reflexivity|]. intros ->. discriminate C.
      + apply next_text; [exact Op|]. destruct q as [w|n| |k' t']; try discriminate C; cbn [ptext ok_piece] in *.
        * destruct (name_head w Oq) as (c & r & -> & [W|[<-|[<-|[<-|[]]]]]); try reflexivity.
          cbn [append head_ok]. destruct c as [[] [] [] [] [] [] [] []]; try discriminate W; reflexivity.
        * destruct (num_head _ Oq) as (c & r & -> & Cd & _). cbn [append head_ok].
          destruct c as [[] [] [] [] [] [] [] []]; try discriminate Cd; reflexivity.
        * destruct (sym_head _ (glue ps) k' t' eq_refl Oq) as (c & r & -> & Ci & Cq & _). cbn [head_ok]. rewrite Cq. reflexivity.
      + cbn [next_ok] in C. destruct (tight k) eqn:T; [apply next_tight; assumption|]. cbn [orb] in C.
        destruct q as [w|n| |k' t']; try discriminate C; apply String.eqb_eq in C; subst.
        * destruct (name_head w Oq) as (c & r & -> & W).
          rewrite (sym_text _ _ Op ltac:(discriminate) _ eq_refl). apply next_dot. exact W.
        * destruct (num_head _ Oq) as (c & r & -> & Cd & _).
          rewrite (sym_text _ _ Op ltac:(discriminate) _ eq_refl). apply next_minus. exact Cd.
        * destruct (sym_head _ (glue ps) _ t' eq_refl Oq) as (c & r & Eq & _ & _ & _ & Cs'). cbn [ptext]. rewrite Eq.
          apply next_sym; [exact Op|]. apply Cs'. reflexivity. }
  change (ptext p) with (tx (ptok p)) in N |- *. change (pkind p) with (tk (ptok p)) in N.
  rewrite lex_one; [rewrite IH; reflexivity| |exact N]. exact (ptext_nonempty _ Op).
Qed.

(** the tokens without the spaces *)
Definition is_space_piece (p : piece) : bool := match p with PSym k _ => String.eqb k "SPACES" | _ => false end.
Definition shown (ps : list piece) : list token := map ptok (filter (fun p => negb (is_space_piece p)) ps).
Lemma kind_of_word_visible w : hidden (kind_of_word w) = false.
Proof.
  unfold kind_of_word. destruct (find _ literal_tokens) as [(k, l)|] eqn:F; [|reflexivity].
  apply find_some in F. destruct F as [I _].
  assert (H : forallb (fun p => negb (hidden (fst p))) literal_tokens = true) by (vm_compute; reflexivity).
  rewrite forallb_forall in H. specialize (H _ I). apply negb_true_iff in H. exact H.
Qed.
Lemma visible_pieces ps : forallb ok_piece ps = true -> visible (map ptok ps) = shown ps.
Proof.
  unfold visible, shown. induction ps as [|p ps IH]; intro O; [reflexivity|]. cbn [forallb] in O. apply andb_prop in O. destruct O as [Op Os].
  cbn [map filter]. rewrite IH by exact Os.
  assert (E : hidden (tk (ptok p)) = is_space_piece p).
  { destruct p as [w|n|b|k t]; cbn [ptok tk pkind is_space_piece]; try reflexivity; [apply kind_of_word_visible|].
    cbn [ok_piece] in Op. apply existsb_exists in Op. destruct Op as (q & I & E). apply andb_prop in E. destruct E as [F _].
    apply String.eqb_eq in F. subst k. cbn [In symbols] in I. repeat destruct I as [<-|I]; try contradiction; reflexivity. }
  rewrite E. destruct (is_space_piece p); reflexivity.
Qed.
Lemma stream_pieces ps : forallb ok_piece ps = true -> chain ps = true -> token_stream (glue ps) = shown ps ++ [eof].
Proof. intros O C. unfold token_stream. rewrite lex_pieces by assumption. rewrite visible_pieces by exact O. reflexivity. Qed.
