(** Upper and lower case: the lexer, the parser and the visitor. *)
From Coq Require Import Lia.
From Verif Require Import GoBase FactsBase ModelUtil ModelNum ModelFn ModelQuery ModelEbnf ModelGrammar ModelLex ModelVisitor
  SpecParse SpecPanic SpecCase ProofFn ProofEbnf ProofMachine ProofParse ProofPanic ProofLex ProofSpace.

(** ** The lexer *)

Lemma up_is_digit c : is_digit_b (upper_ascii c) = is_digit_b c.
Proof. destruct c as [[] [] [] [] [] [] [] []]; reflexivity. Qed.
Lemma up_up c : upper_ascii (upper_ascii c) = upper_ascii c.
Proof. destruct c as [[] [] [] [] [] [] [] []]; reflexivity. Qed.
Lemma up_hex c : is_hex (upper_ascii c) = is_hex c.
Proof. unfold is_hex. rewrite up_is_digit, up_up. reflexivity. Qed.
Lemma up_eol c : is_eol (upper_ascii c) = is_eol c.
Proof. destruct c as [[] [] [] [] [] [] [] []]; reflexivity. Qed.
(** a byte that is no letter *)
Definition plain_byte (q : ascii) : Prop := is_upper_letter (upper_ascii q) = false.
Lemma up_eqb c q : plain_byte q -> Ascii.eqb (upper_ascii c) q = Ascii.eqb c q.
Proof.
  unfold plain_byte. intro P. destruct (Ascii.eqb c q) eqn:E.
  - apply Ascii.eqb_eq in E. subst c. apply Ascii.eqb_eq. revert P.
    destruct q as [[] [] [] [] [] [] [] []]; first [reflexivity|intro P; discriminate P].
  - destruct (Ascii.eqb (upper_ascii c) q) eqn:F; [|reflexivity]. apply Ascii.eqb_eq in F. subst q.
    rewrite up_up in P. apply Ascii.eqb_neq in E. exfalso. apply E. revert P.
    destruct c as [[] [] [] [] [] [] [] []]; first [reflexivity|intro P; discriminate P].
Qed.
Lemma span_up p s : (forall c, p (upper_ascii c) = p c) -> span p (to_upper s) = span p s.
Proof. intro H. induction s as [|c s IH]; [reflexivity|]. cbn [to_upper smap span]. rewrite H. fold (to_upper s). rewrite IH. reflexivity. Qed.
Lemma close_up q : plain_byte q -> forall n s, String.length s < n -> close_quote q (to_upper s) = close_quote q s.
Proof.
  intro P. induction n as [|n IH]; intros s L; [lia|]. destruct s as [|c s]; [reflexivity|].
  cbn [to_upper smap close_quote]. rewrite up_eqb by exact P. destruct (Ascii.eqb c q).
  - destruct s as [|d s]; [reflexivity|]. cbn [smap]. rewrite up_eqb by exact P. destruct (Ascii.eqb d q); [|reflexivity].
    fold (to_upper s). rewrite IH; [reflexivity|]. cbn [String.length] in L. lia.
  - fold (to_upper s). rewrite IH; [reflexivity|]. cbn [String.length] in L. lia.
Qed.
Lemma quoted_up q s : plain_byte q -> quoted q (to_upper s) = quoted q s.
Proof.
  intro P. destruct s as [|c s]; [reflexivity|]. cbn [to_upper smap quoted]. rewrite up_eqb by exact P. fold (to_upper s).
  rewrite (close_up q P (S (String.length s))) by lia. reflexivity.
Qed.
Lemma drop_up : forall n s, sdrop n (to_upper s) = to_upper (sdrop n s).
Proof. induction n as [|n IH]; intro s; [reflexivity|]. destruct s as [|c s]; [reflexivity|]. apply IH. Qed.
Lemma take_up : forall n s, stake n (to_upper s) = to_upper (stake n s).
Proof. induction n as [|n IH]; intro s; [reflexivity|]. destruct s as [|c s]; [reflexivity|]. cbn [to_upper smap stake]. f_equal. apply IH. Qed.
(** a match on a given first byte *)
Lemma bracketed_eq s : bracketed s = match s with
  | String c r => if Ascii.eqb c "[" then let n := span (fun c => negb (Ascii.eqb c "]")) r in if n <? String.length r then S (S n) else 0 else 0
  | EmptyString => 0
  end.
Proof. destruct s as [|c s]; [reflexivity|]. destruct c as [[] [] [] [] [] [] [] []]; reflexivity. Qed.
Lemma bracketed_up s : bracketed (to_upper s) = bracketed s.
Proof.
  rewrite !bracketed_eq. destruct s as [|c s]; [reflexivity|]. cbn [to_upper smap]. rewrite up_eqb by reflexivity. fold (to_upper s).
  cbv zeta. rewrite span_up, to_upper_length; [reflexivity|]. intro d. rewrite up_eqb by reflexivity. reflexivity.
Qed.
Lemma word_up s : word (to_upper s) = word s.
Proof.
  destruct s as [|c s]; [reflexivity|]. cbn [to_upper smap word]. rewrite ident_start_upper. fold (to_upper s).
  rewrite (span_up _ _ ident_char_upper). reflexivity.
Qed.
Lemma identifier_up s : m_identifier (to_upper s) = m_identifier s.
Proof. unfold m_identifier. rewrite !quoted_up by reflexivity. rewrite bracketed_up, word_up. reflexivity. Qed.
Lemma exponent_up s : m_exponent (to_upper s) = m_exponent s.
Proof.
  destruct s as [|e s]; [reflexivity|]. cbn [to_upper smap m_exponent]. rewrite up_up. destruct (Ascii.eqb (upper_ascii e) "E"); [|reflexivity].
  destruct s as [|c s]; [reflexivity|]. cbn [smap]. rewrite !up_eqb by reflexivity.
  change (String (upper_ascii c) (smap upper_ascii s)) with (to_upper (String c s)). change (smap upper_ascii s) with (to_upper s).
  rewrite !(span_up _ _ up_is_digit). reflexivity.
Qed.
(** the text after a dot *)
Definition after_dot (s : string) : option string := match s with String c r => if Ascii.eqb c "." then Some r else None | EmptyString => None end.
Lemma mantissa_eq s : m_mantissa s = match span is_digit_b s with
  | 0 => match after_dot s with Some r => match span is_digit_b r with 0 => 0 | n => S n end | None => 0 end
  | n => match after_dot (sdrop n s) with Some r => n + S (span is_digit_b r) | None => n end
  end.
Proof.
  unfold m_mantissa. destruct (span is_digit_b s) as [|n].
  - destruct s as [|c s]; [reflexivity|]. destruct c as [[] [] [] [] [] [] [] []]; reflexivity.
  - destruct (sdrop (S n) s) as [|c r]; [reflexivity|]. destruct c as [[] [] [] [] [] [] [] []]; reflexivity.
Qed.
Lemma after_dot_up s : after_dot (to_upper s) = match after_dot s with Some r => Some (to_upper r) | None => None end.
Proof. destruct s as [|c s]; [reflexivity|]. cbn [to_upper smap after_dot]. rewrite up_eqb by reflexivity. destruct (Ascii.eqb c "."); reflexivity. Qed.
Lemma mantissa_up s : m_mantissa (to_upper s) = m_mantissa s.
Proof.
  rewrite !mantissa_eq, (span_up _ _ up_is_digit). destruct (span is_digit_b s) as [|n].
  - rewrite after_dot_up. destruct (after_dot s); [|reflexivity]. rewrite (span_up _ _ up_is_digit). reflexivity.
  - cbv zeta. rewrite drop_up, after_dot_up. destruct (after_dot (sdrop (S n) s)); [|reflexivity]. rewrite (span_up _ _ up_is_digit). reflexivity.
Qed.
Lemma hex_eq s : m_hex s = match s with
  | String c (String x r) => if Ascii.eqb c "0" && Ascii.eqb (upper_ascii x) "X" then match span is_hex r with 0 => 0 | n => S (S n) end else 0
  | _ => 0
  end.
Proof.
  destruct s as [|c [|x s]]; [reflexivity| |].
  - destruct c as [[] [] [] [] [] [] [] []]; reflexivity.
  - destruct (Ascii.eqb c "0") eqn:E.
    + apply Ascii.eqb_eq in E. subst c. reflexivity.
    + cbn [andb]. revert E. destruct c as [[] [] [] [] [] [] [] []]; first [reflexivity|intro E; discriminate E].
Qed.
Lemma hex_up s : m_hex (to_upper s) = m_hex s.
Proof.
  rewrite !hex_eq. destruct s as [|c [|x s]]; try reflexivity. cbn [to_upper smap]. rewrite up_eqb, up_up by reflexivity.
  fold (to_upper s). rewrite (span_up _ _ up_hex). reflexivity.
Qed.
Lemma numeric_up s : m_numeric (to_upper s) = m_numeric s.
Proof. unfold m_numeric. rewrite mantissa_up, hex_up. destruct (m_mantissa s) as [|n]; [reflexivity|]. rewrite drop_up, exponent_up. reflexivity. Qed.
Lemma after_up p m s : (forall c, p (upper_ascii c) = p c) -> (forall s, m (to_upper s) = m s) -> after p m (to_upper s) = after p m s.
Proof. intros P M. destruct s as [|c s]; [reflexivity|]. cbn [to_upper smap after]. rewrite P. fold (to_upper s). rewrite M. reflexivity. Qed.
Lemma at_up c : Ascii.eqb "@" (upper_ascii c) = Ascii.eqb "@" c.
Proof. destruct c as [[] [] [] [] [] [] [] []]; reflexivity. Qed.
Lemma user_up s : m_user_variable (to_upper s) = m_user_variable s.
Proof. apply after_up; [exact at_up|exact identifier_up]. Qed.
Lemma system_up s : m_system_variable (to_upper s) = m_system_variable s.
Proof. apply after_up; [exact at_up|exact user_up]. Qed.
Lemma bind_up s : m_bind (to_upper s) = m_bind s.
Proof.
  unfold m_bind. f_equal.
  - destruct s as [|c s]; [reflexivity|]. cbn [to_upper smap]. rewrite !up_eqb by reflexivity. fold (to_upper s).
    rewrite (span_up _ _ up_is_digit). reflexivity.
  - apply after_up; [|exact identifier_up]. intro c. rewrite !up_eqb by reflexivity. reflexivity.
Qed.
Lemma string_up s : m_string (to_upper s) = m_string s.
Proof. apply quoted_up. reflexivity. Qed.
Lemma blob_up s : m_blob (to_upper s) = m_blob s.
Proof. apply after_up; [intro c; rewrite up_up; reflexivity|exact string_up]. Qed.
Definition line_end (s : string) (n : nat) : nat :=
  match s with
  | EmptyString => S (S n)
  | String c r' =>
      if Ascii.eqb c (ascii_of_nat 10) then 3 + n
      else match r' with String d _ => if Ascii.eqb d (ascii_of_nat 10) then 4 + n else 0 | EmptyString => 0 end
  end.
Lemma line_comment_eq s : m_line_comment s = match s with
  | String c (String d r) => if Ascii.eqb c "-" && Ascii.eqb d "-" then line_end (sdrop (span (fun c => negb (is_eol c)) r) r) (span (fun c => negb (is_eol c)) r) else 0
  | _ => 0
  end.
Proof.
  destruct s as [|c [|d r]]; [reflexivity|destruct c as [[] [] [] [] [] [] [] []]; reflexivity|].
  destruct (Ascii.eqb c "-") eqn:E.
  - apply Ascii.eqb_eq in E. subst c. cbn [andb]. destruct (Ascii.eqb d "-") eqn:F.
    + apply Ascii.eqb_eq in F. subst d. reflexivity.
    + revert F. destruct d as [[] [] [] [] [] [] [] []]; first [reflexivity|intro F; discriminate F].
  - cbn [andb]. revert E. destruct c as [[] [] [] [] [] [] [] []]; first [reflexivity|intro E; discriminate E].
Qed.
Lemma line_end_up s n : line_end (to_upper s) n = line_end s n.
Proof. destruct s as [|c [|d s]]; cbn [to_upper smap line_end]; rewrite ?up_eqb by reflexivity; reflexivity. Qed.
Lemma line_comment_up s : m_line_comment (to_upper s) = m_line_comment s.
Proof.
  rewrite !line_comment_eq. destruct s as [|c [|d s]]; try reflexivity. cbn [to_upper smap]. rewrite !up_eqb by reflexivity. fold (to_upper s).
  rewrite (span_up (fun c => negb (is_eol c))) by (intro; rewrite up_eol; reflexivity). rewrite drop_up, line_end_up. reflexivity.
Qed.
Lemma comment_end_up s : to_comment_end (to_upper s) = to_comment_end s.
Proof.
  induction s as [|c s IH]; [reflexivity|]. cbn [to_upper smap to_comment_end]. fold (to_upper s). rewrite IH.
  replace (has_prefix "*/" (String (upper_ascii c) (to_upper s))) with (has_prefix "*/" (String c s)); [reflexivity|].
  cbn [has_prefix]. assert (Q : forall x d, plain_byte x -> Ascii.eqb x (upper_ascii d) = Ascii.eqb x d).
  { intros x d P. rewrite (Ascii.eqb_sym x), (Ascii.eqb_sym x). apply up_eqb. exact P. }
  rewrite Q by reflexivity. f_equal. destruct s as [|d s]; [reflexivity|]. cbn [to_upper smap]. rewrite Q by reflexivity. reflexivity.
Qed.
Lemma comment_eq s : m_comment s = match s with
  | String c (String d r) => if Ascii.eqb c "/" && Ascii.eqb d "*" then match to_comment_end r with Some n => S (S n) | None => 0 end else 0
  | _ => 0
  end.
Proof.
  destruct s as [|c [|d r]]; [reflexivity|destruct c as [[] [] [] [] [] [] [] []]; reflexivity|].
  destruct (Ascii.eqb c "/") eqn:E.
  - apply Ascii.eqb_eq in E. subst c. cbn [andb]. destruct (Ascii.eqb d "*") eqn:F.
    + apply Ascii.eqb_eq in F. subst d. reflexivity.
    + revert F. destruct d as [[] [] [] [] [] [] [] []]; first [reflexivity|intro F; discriminate F].
  - cbn [andb]. revert E. destruct c as [[] [] [] [] [] [] [] []]; first [reflexivity|intro E; discriminate E].
Qed.
Lemma comment_up s : m_comment (to_upper s) = m_comment s.
Proof. rewrite !comment_eq. destruct s as [|c [|d s]]; try reflexivity. cbn [to_upper smap]. rewrite !up_eqb by reflexivity. fold (to_upper s). rewrite comment_end_up. reflexivity. Qed.
Lemma space_up s : m_space (to_upper s) = m_space s.
Proof. destruct s as [|c s]; [reflexivity|]. destruct c as [[] [] [] [] [] [] [] []]; reflexivity. Qed.
Lemma upper_upper s : to_upper (to_upper s) = to_upper s.
Proof. induction s as [|c s IH]; [reflexivity|]. cbn [to_upper smap]. rewrite up_up. f_equal. exact IH. Qed.
Lemma literal_up l s : m_literal l (to_upper s) = m_literal l s.
Proof. unfold m_literal. rewrite upper_upper. reflexivity. Qed.

Lemma rules_up k m s : In (k, m) lex_rules -> m (to_upper s) = m s.
Proof.
  intro I. unfold lex_rules in I. apply in_app_or in I. destruct I as [I|I].
  - apply in_map_iff in I. destruct I as ((k', l) & E & _). cbn [fst snd] in E. injection E as _ <-. apply literal_up.
  - cbn [In] in I. repeat (destruct I as [I|I]; [injection I as _ <-|]); try contradiction.
    + apply identifier_up.
    + apply numeric_up.
    + apply system_up.
    + apply user_up.
    + apply bind_up.
    + apply string_up.
    + apply blob_up.
    + apply line_comment_up.
    + apply comment_up.
    + apply space_up.
    + destruct s; reflexivity.
Qed.
Lemma next_token_up s : next_token (to_upper s) = next_token s.
Proof. unfold next_token. apply longest_ext. intros k m I. exact (rules_up k m s I). Qed.
Lemma next_token_same s s' : same_letters s s' -> next_token s = next_token s'.
Proof. unfold same_letters. intro E. rewrite <- (next_token_up s), <- (next_token_up s'), E. reflexivity. Qed.

Definition like (a b : token) : Prop := tk a = tk b /\ same_letters (tx a) (tx b).
Lemma lex_from_same : forall n s s', same_letters s s' -> Forall2 like (lex_from n s) (lex_from n s').
Proof.
  induction n as [|n IH]; intros s s' E.
  - destruct s, s'; constructor.
  - destruct s as [|c s], s' as [|d s']; try discriminate E; [constructor|].
    cbn [lex_from]. rewrite (next_token_same _ _ E). destruct (next_token (String d s')) as [k l] eqn:T.
    unfold same_letters in E. constructor.
    + split; [reflexivity|]. cbn [tx]. unfold same_letters. rewrite <- !take_up, E. reflexivity.
    + apply IH. unfold same_letters. rewrite <- !drop_up, E. reflexivity.
Qed.
Lemma same_length s s' : same_letters s s' -> String.length s = String.length s'.
Proof. unfold same_letters. intro E. rewrite <- (to_upper_length s), E. apply to_upper_length. Qed.
Lemma lex_same s s' : same_letters s s' -> Forall2 like (lex s) (lex s').
Proof. intro E. unfold lex. rewrite <- (same_length _ _ E). apply lex_from_same. exact E. Qed.
Lemma stream_same s s' : same_letters s s' -> Forall2 like (token_stream s) (token_stream s').
Proof.
  intro E. unfold token_stream. apply Forall2_app; [|repeat constructor].
  apply lex_same in E. unfold visible. induction E as [|a b l l' H _ IH]; [constructor|].
  cbn [filter]. destruct H as [K T]. rewrite K. destruct (negb (hidden (tk b))); [|exact IH]. constructor; [split; assumption|exact IH].
Qed.

(** ** The parser *)

Definition kids_like : children -> children -> Prop := Forall2 (fun c d => fst c = fst d /\ respelt (snd c) (snd d)).
Inductive out_like : outcome -> outcome -> Prop :=
| like_found cs ds : kids_like cs ds -> out_like (Found cs) (Found ds)
| like_not : out_like NotFound NotFound
| like_fuel : out_like OutOfFuel OutOfFuel.
Lemma label_like l cs ds : kids_like cs ds -> kids_like (set_label l cs) (set_label l ds).
Proof. intro H. induction H as [|c d cs ds [_ T] _ IH]; [constructor|]. cbn [set_label map]. constructor; [split; [reflexivity|exact T]|exact IH]. Qed.
Lemma nest_like name : forall rounds rounds' acc acc', kids_like rounds rounds' -> kids_like acc acc' ->
  kids_like (nest name acc rounds) (nest name acc' rounds').
Proof.
  induction rounds as [|c r IH]; intros rounds' acc acc' H A; inversion H as [|? d ? r' [L T] H']; subst; [exact A|].
  destruct c as [l c], d as [l' d]. cbn [fst snd] in L, T. subst l'. cbn [nest]. destruct T as [a b K X|n cs ds K]; [exact A|].
  apply IH; [exact H'|]. constructor; [split; [reflexivity|constructor; exact A]|exact K].
Qed.
Lemma leaf_like a b : like a b -> kids_like [(""%string, Leaf a)] [(""%string, Leaf b)].
Proof. intros [K T]. constructor; [|constructor]. split; [reflexivity|]. constructor; assumption. Qed.
Lemma node_like n cs ds : kids_like cs ds -> kids_like [(""%string, Node n cs)] [(""%string, Node n ds)].
Proof. intro H. constructor; [|constructor]. split; [reflexivity|]. constructor. exact H. Qed.

Lemma run_like (ru : string -> nat -> gram) : forall n g ts ts' k k', Forall2 like ts ts' ->
  (forall cs cs' r r', kids_like cs cs' -> Forall2 like r r' -> out_like (k cs r) (k' cs' r')) ->
  out_like (run ru n g ts k) (run ru n g ts' k').
Proof.
  induction n as [|n IHn]; [intros; constructor|].
  induction g as [| |kind|name p|a IHa b IHb|a IHa b IHb|a IHa|a IHa|l a IHa|name a IHa b IHb|a IHa];
    intros ts ts' k k' T K; rewrite (run_S ru n _ ts k), (run_S ru n _ ts' k').
  - apply K; [constructor|exact T].
  - constructor.
  - destruct T as [|x y r r' X T]; [constructor|]. destruct X as [E X]. rewrite E.
    destruct (String.eqb (tk y) kind); [|constructor]. apply K; [apply leaf_like; split; assumption|exact T].
  - apply IHn; [exact T|]. intros. apply K; [apply node_like; assumption|assumption].
  - apply IHa; [exact T|]. intros. apply IHb; [assumption|]. intros. apply K; [apply Forall2_app; assumption|assumption].
  - pose proof (IHa ts ts' k k' T K) as H. destruct H as [cs ds C| |]; [constructor; exact C| |constructor]. apply IHb; assumption.
  - match goal with |- out_like (match ?x with _ => _ end) (match ?y with _ => _ end) => assert (H : out_like x y) end.
    { apply IHa; [exact T|]. intros. apply IHn; [assumption|]. intros. apply K; [apply Forall2_app; assumption|assumption]. }
    destruct H as [cs ds C| |]; [constructor; exact C| |constructor]. apply K; [constructor|exact T].
  - pose proof (K [] [] ts ts' (Forall2_nil _) T) as H. destruct H as [cs ds C| |]; [constructor; exact C| |constructor].
    apply IHa; [exact T|]. intros. apply IHn; [assumption|]. intros. apply K; [apply Forall2_app; assumption|assumption].
  - apply IHa; [exact T|]. intros. apply K; [apply label_like; assumption|assumption].
  - apply IHa; [exact T|]. intros. apply IHn; [assumption|]. intros. apply K; [apply nest_like; assumption|assumption].
  - apply IHa; [exact T|]. intros. apply K; [apply node_like; assumption|assumption].
Qed.
Lemma like_len ts ts' : Forall2 like ts ts' -> length ts = length ts'.
Proof. induction 1; cbn [length]; congruence. Qed.
Lemma parse_tree_like ts ts' : Forall2 like ts ts' -> out_like (parse_tree ts) (parse_tree ts').
Proof.
  intro T. unfold parse_tree, fuel. rewrite <- (like_len _ _ T). apply run_like; [exact T|].
  intros cs cs' r r' C R. destruct R; [constructor; exact C|constructor].
Qed.
Lemma same_tree q q' t : same_letters q q' -> parse_tree (token_stream q) = Found [(""%string, t)] ->
  exists t', parse_tree (token_stream q') = Found [(""%string, t')] /\ respelt t t'.
Proof.
  intros E H. pose proof (parse_tree_like _ _ (stream_same _ _ E)) as L. rewrite H in L. inversion L as [cs ds C| |]; subst.
  inversion C as [|c d c' d' [Lb T] C']; subst. inversion C'; subst. destruct d as [l d]. cbn [fst snd] in Lb, T. subst l.
  exists d. split; [reflexivity|exact T].
Qed.
