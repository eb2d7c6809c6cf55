(** The matchers of the lexer find the longest matches of the rules of the grammar. *)
From Coq Require Import Lia.
From Verif Require Import GoBase ModelEbnf ModelLex FactsBase ProofFn ProofQuery ProofLex SpecLexer.

(** ** Characters *)

Definition all_ascii : list ascii := map ascii_of_nat (List.seq 0 256).
Lemma all_ascii_in c : In c all_ascii.
Proof.
  unfold all_ascii. apply in_map_iff. exists (nat_of_ascii c). split; [apply ascii_nat_embedding|]. apply in_seq.
  pose proof (nat_ascii_bounded c). lia.
Qed.
Definition in_rangesb (l : list (ascii * ascii)) (c : ascii) : bool :=
  existsb (fun d => Ascii.eqb (upper_ascii c) (upper_ascii d)
                    && existsb (fun r => (N_of_ascii (fst r) <=? N_of_ascii d)%N && (N_of_ascii d <=? N_of_ascii (snd r))%N) l) all_ascii.
Lemma in_ranges_iff l c : in_rangesb l c = true <-> in_ranges l c.
Proof.
  unfold in_rangesb, in_ranges. rewrite existsb_exists. split.
  - intros (d & _ & H). apply andb_true_iff in H. destruct H as [U H]. apply existsb_exists in H. destruct H as ((a, b) & I & H).
    apply andb_true_iff in H. cbn [fst snd] in H. destruct H as [A B]. exists a, b, d. split; [exact I|]. split; [apply Ascii.eqb_eq, U|].
    apply N.leb_le in A, B. split; assumption.
  - intros (a & b & d & I & U & A & B). exists d. split; [apply all_ascii_in|]. apply andb_true_iff. split; [apply Ascii.eqb_eq, U|].
    apply existsb_exists. exists (a, b). split; [exact I|]. cbn [fst snd]. apply andb_true_iff. split; apply N.leb_le; assumption.
Qed.
Lemma by_cases (p q : ascii -> bool) : forallb (fun c => Bool.eqb (p c) (q c)) all_ascii = true -> forall c, p c = q c.
Proof. intros H c. rewrite forallb_forall in H. apply Bool.eqb_prop, H, all_ascii_in. Qed.

(** the expression r is for one character that satisfies p *)
Definition one_char (r : re) (p : ascii -> bool) : Prop :=
  forall t rest, matches r t rest <-> exists c, t = String c "" /\ p c = true.
Lemma one_one l p : forallb (fun c => Bool.eqb (p c) (in_rangesb l c)) all_ascii = true -> one_char (One l) p.
Proof.
  intros H t rest. cbn [matches]. split; intros (c & E & P); exists c; (split; [exact E|]).
  - rewrite (by_cases _ _ H c). apply in_ranges_iff, P.
  - apply in_ranges_iff. rewrite <- (by_cases _ _ H c). exact P.
Qed.
Lemma one_but l p : forallb (fun c => Bool.eqb (p c) (negb (in_rangesb l c))) all_ascii = true -> one_char (But l) p.
Proof.
  intros H t rest. cbn [matches]. split; intros (c & E & P); exists c; (split; [exact E|]).
  - rewrite (by_cases _ _ H c). apply negb_true_iff. destruct (in_rangesb l c) eqn:R; [|reflexivity]. apply in_ranges_iff in R. contradiction.
  - intro R. apply in_ranges_iff in R. rewrite (by_cases _ _ H c), R in P. discriminate.
Qed.
Lemma one_lit d p : forallb (fun c => Bool.eqb (p c) (Ascii.eqb (upper_ascii c) (upper_ascii d))) all_ascii = true -> one_char (Lit (String d "")) p.
Proof.
  intros H t rest. cbn [matches to_upper smap]. split.
  - destruct t as [|c [|e t]]; intro E; try discriminate E. exists c. split; [reflexivity|]. rewrite (by_cases _ _ H c). apply Ascii.eqb_eq. cbn in E. congruence.
  - intros (c & -> & P). rewrite (by_cases _ _ H c) in P. apply Ascii.eqb_eq in P. cbn. congruence.
Qed.
Ltac a_char := first [apply one_one|apply one_but|apply one_lit]; vm_compute; reflexivity.

(** runs of characters *)
Lemma many_chars r p t rest : one_char r p -> (matches (Many r) t rest <-> all_chars p t = true).
Proof.
  intro O. cbn [matches]. split.
  - intro M. induction M as [|u v P M IH]; [reflexivity|]. apply O in P. destruct P as (c & -> & P). unfold all_chars. cbn. rewrite P. exact IH.
  - induction t as [|c t IH]; intro A; [constructor|]. unfold all_chars in A. cbn [list_ascii_of_string forallb] in A. apply andb_true_iff in A.
    change (String c t) with (String c "" ++ t)%string. apply re_more; [|apply IH, A]. apply O. exists c. split; [reflexivity|apply A].
Qed.
Lemma some_chars r p t rest : one_char r p -> (matches (Some_ r) t rest <-> t <> ""%string /\ all_chars p t = true).
Proof.
  intro O. unfold Some_. cbn [matches]. split.
  - intros (u & v & -> & U & V). apply (many_chars r p v rest O) in V. apply O in U. destruct U as (c & -> & P). split; [discriminate|].
    unfold all_chars. cbn. rewrite P. exact V.
  - intros [N A]. destruct t as [|c t]; [contradiction|]. unfold all_chars in A. cbn [list_ascii_of_string forallb] in A. apply andb_true_iff in A.
    exists (String c ""), t. split; [reflexivity|]. split; [apply O; exists c; split; [reflexivity|apply A]|]. apply (many_chars r p t rest O), A.
Qed.
Lemma cat_char r p b t rest : one_char r p -> (matches (Cat r b) t rest <-> exists c v, t = String c v /\ p c = true /\ matches b v rest).
Proof.
  intro O. cbn [matches]. split.
  - intros (u & v & -> & U & V). apply O in U. destruct U as (c & -> & P). exists c, v. repeat split; assumption.
  - intros (c & v & -> & P & V). exists (String c ""), v. split; [reflexivity|]. split; [apply O; exists c; split; [reflexivity|exact P]|exact V].
Qed.
Lemma opt_iff r t rest : matches (Opt r) t rest <-> t = ""%string \/ matches r t rest.
Proof. unfold Opt. cbn [matches to_upper smap]. split; intros [H|H]; [left|right|left|right]; try assumption; [destruct t; [reflexivity|discriminate H]|subst; reflexivity]. Qed.

Lemma span_parts p s : exists a b, s = (a ++ b)%string /\ all_chars p a = true /\ head_ok (fun c => negb (p c)) b = true /\ span p s = String.length a.
Proof.
  induction s as [|c s (a & b & -> & A & B & L)]; [exists ""%string, ""%string; repeat split|]. cbn [span]. destruct (p c) eqn:P.
  - exists (String c a), b. split; [reflexivity|]. split; [unfold all_chars; cbn; rewrite P; exact A|]. split; [exact B|]. cbn. rewrite L. reflexivity.
  - exists ""%string, (String c (a ++ b)). split; [reflexivity|]. split; [reflexivity|]. split; [cbn; rewrite P; reflexivity|reflexivity].
Qed.
Lemma span_le p a b : all_chars p a = true -> String.length a <= span p (a ++ b).
Proof.
  induction a as [|c a IH]; intro A; [cbn; lia|]. unfold all_chars in A. cbn [list_ascii_of_string forallb] in A. apply andb_true_iff in A. destruct A as [P A].
  cbn [append span String.length]. rewrite P. specialize (IH A). lia.
Qed.
Lemma slen a b : String.length (a ++ b) = String.length a + String.length b.
Proof. induction a as [|c a IH]; [reflexivity|]. cbn. rewrite IH. reflexivity. Qed.

(** ** Longest matches *)

(** the matcher m finds the longest match of r, which is not empty *)
Definition finds (r : re) (m : string -> nat) : Prop :=
  (forall t rest, matches r t rest -> 1 <= String.length t <= m (t ++ rest)%string)
  /\ forall s, m s <> 0 -> exists t rest, s = (t ++ rest)%string /\ String.length t = m s /\ matches r t rest.

Lemma finds_or a b m n : finds a m -> finds b n -> finds (Or a b) (fun s => Nat.max (m s) (n s)).
Proof.
  intros [A A'] [B B']. split.
  - intros t rest [H|H]; [apply A in H|apply B in H]; lia.
  - intros s N. destruct (Nat.max_spec (m s) (n s)) as [[L E]|[L E]]; rewrite E in *.
    + destruct (B' s N) as (t & rest & H1 & H2 & H3). exists t, rest. cbn [matches]. auto.
    + destruct (A' s N) as (t & rest & H1 & H2 & H3). exists t, rest. cbn [matches]. auto.
Qed.
Lemma finds_ext r m n : (forall s, m s = n s) -> finds r m -> finds r n.
Proof. intros E [A B]. split; [intros t rest H; rewrite <- E; apply A, H|]. intros s. rewrite <- E. apply B. Qed.
Lemma finds_char r p : one_char r p -> finds r (fun s => match s with String c _ => if p c then 1 else 0 | _ => 0 end).
Proof.
  intro O. split.
  - intros t rest M. apply O in M. destruct M as (c & -> & P). cbn. rewrite P. lia.
  - intros [|c s]; [congruence|]. destruct (p c) eqn:P; [|congruence]. intros _. exists (String c ""), s. split; [reflexivity|].
    split; [reflexivity|]. apply O. exists c. auto.
Qed.
Lemma finds_after r p b m : one_char r p -> finds b m -> finds (Cat r b) (after p m).
Proof.
  intros O [B B']. split.
  - intros t rest M. apply (cat_char r p b t rest O) in M. destruct M as (c & v & -> & P & V). apply B in V. cbn [append after String.length]. rewrite P.
    destruct (m (v ++ rest)%string); lia.
  - intros [|c s]; [cbn; congruence|]. cbn [after]. destruct (p c) eqn:P; [|congruence]. destruct (m s) as [|n] eqn:E; [congruence|]. intros _.
    destruct (B' s ltac:(congruence)) as (t & rest & -> & L & M). exists (String c t), rest. split; [reflexivity|]. split; [cbn; congruence|].
    apply (cat_char r p b _ _ O). exists c, t. auto.
Qed.
(** a character and a run of characters *)
Lemma finds_run r p q b : one_char r p -> one_char b q ->
  finds (Cat r (Many b)) (fun s => match s with String c v => if p c then S (span q v) else 0 | _ => 0 end).
Proof.
  intros O Q. split.
  - intros t rest M. apply (cat_char r p _ t rest O) in M. destruct M as (c & v & -> & P & V). apply (many_chars b q v rest Q) in V.
    cbn [append String.length]. rewrite P. pose proof (span_le q v rest V). lia.
  - intros [|c s]; [congruence|]. destruct (p c) eqn:P; [|congruence]. intros _.
    destruct (span_parts q s) as (a & d & -> & A & D & L). exists (String c a), d. split; [reflexivity|]. split; [cbn; congruence|].
    apply (cat_char r p _ _ _ O). exists c, a. split; [reflexivity|]. split; [exact P|]. apply (many_chars b q a d Q), A.
Qed.

(** ** Literals *)

Lemma to_upper_length s : String.length (to_upper s) = String.length s.
Proof. induction s as [|c s IH]; [reflexivity|]. cbn in *. f_equal. exact IH. Qed.
Lemma to_upper_parts s : forall a b, to_upper s = (a ++ b)%string -> exists u v, s = (u ++ v)%string /\ to_upper u = a /\ to_upper v = b.
Proof.
  induction s as [|c s IH]; intros a b E.
  - destruct a; [|discriminate E]. exists ""%string, ""%string. cbn in *. auto.
  - destruct a as [|d a]; [exists ""%string, (String c s); cbn in *; auto|]. cbn in E. injection E as <- E.
    destruct (IH a b E) as (u & v & -> & <- & <-). exists (String c u), v. auto.
Qed.
Lemma finds_lit w : w <> ""%string -> to_upper w = w -> finds (Lit w) (m_literal w).
Proof.
  intros N U. split.
  - intros t rest M. cbn [matches] in M. rewrite U in M. assert (L : String.length t = String.length w) by (rewrite <- M; symmetry; apply to_upper_length).
    unfold m_literal. rewrite to_upper_app, M, (proj2 (has_prefix_iff w _) (ex_intro _ _ eq_refl)), L. split; [|lia]. destruct w; [contradiction|cbn; lia].
  - intros s H. unfold m_literal in *. destruct (has_prefix w (to_upper s)) eqn:P; [|congruence]. apply has_prefix_iff in P. destruct P as (b & E).
    destruct (to_upper_parts s _ _ E) as (u & v & -> & A & B). exists u, v. split; [reflexivity|]. split; [rewrite <- A; symmetry; apply to_upper_length|].
    cbn [matches]. rewrite U. exact A.
Qed.

(** texts without letters stand for themselves *)
Lemma lit_exact w : forallb (fun d => forallb (fun c => negb (Ascii.eqb (upper_ascii c) (upper_ascii d)) || Ascii.eqb c d) all_ascii) (list_ascii_of_string w) = true ->
  forall t rest, matches (Lit w) t rest <-> t = w.
Proof.
  intros H t rest. cbn [matches]. split; [|intros ->; reflexivity]. revert t. induction w as [|d w IH]; intros t E; [destruct t; [reflexivity|discriminate E]|].
  destruct t as [|c t]; [discriminate E|]. cbn [list_ascii_of_string forallb] in H. apply andb_true_iff in H. destruct H as [H1 H2]. cbn in E. injection E as E1 E2.
  rewrite forallb_forall in H1. specialize (H1 c (all_ascii_in c)). rewrite E1, Ascii.eqb_refl in H1. apply Ascii.eqb_eq in H1. subst d. f_equal. apply IH; assumption.
Qed.

(** ** Quotes *)

Inductive body (q : ascii) : string -> Prop :=
| bo_end : body q ""
| bo_char c r : c <> q -> body q r -> body q (String c r)
| bo_two r : body q r -> body q (String q (String q r)).
Lemma body_head q d r : body q (String q (String d r)) -> d = q /\ body q r.
Proof. intro B. inversion B; subst; [congruence|auto]. Qed.
Lemma body_other q c r : c <> q -> body q (String c r) -> body q r.
Proof. intros N B. inversion B; subst; [assumption|congruence]. Qed.
Lemma close_quote_spec q s :
  (forall b rest, s = (b ++ String q rest)%string -> body q b -> exists n, close_quote q s = Some n /\ S (String.length b) <= n)
  /\ forall n, close_quote q s = Some n -> exists b rest, s = (b ++ String q rest)%string /\ body q b /\ n = S (String.length b).
Proof.
  induction s as [s IH] using string_ind_len. destruct s as [|c r].
  - split; [intros [|] rest E; discriminate E|intros n E; discriminate E].
  - cbn [close_quote]. destruct (Ascii.eqb c q) eqn:C.
    + apply Ascii.eqb_eq in C. subst c. destruct r as [|d r].
      * split; [|intros n E; injection E as <-; exists ""%string, ""%string; repeat split; constructor].
        intros [|e b] rest E B; [exists 1; split; [reflexivity|cbn; lia]|]. destruct b; discriminate E.
      * destruct (Ascii.eqb d q) eqn:D.
        -- apply Ascii.eqb_eq in D. subst d. destruct (IH r ltac:(cbn; lia)) as [A A']. split.
           ++ intros [|e [|f b]] rest E B.
              ** destruct (close_quote q r) as [n|]; eexists; (split; [reflexivity|cbn; lia]).
              ** cbn [append] in E. injection E as -> _. inversion B; subst; congruence.
              ** cbn [append] in E. injection E as <- <- ->. apply body_head in B. destruct (A b rest eq_refl (proj2 B)) as (n & -> & L).
                 exists (S (S n)). split; [reflexivity|cbn [String.length]; lia].
           ++ intros n. destruct (close_quote q r) as [k|] eqn:K.
              ** intro E. injection E as <-. destruct (A' k eq_refl) as (b & rest & -> & B & ->). exists (String q (String q b)), rest.
                 split; [reflexivity|]. split; [apply bo_two, B|reflexivity].
              ** intro E. injection E as <-. exists ""%string, (String q r). repeat split; constructor.
        -- apply Ascii.eqb_neq in D. split.
           ++ intros [|e [|f b]] rest E B.
              ** exists 1. split; [reflexivity|cbn; lia].
              ** cbn [append] in E. injection E as <- _. inversion B; subst; congruence.
              ** cbn [append] in E. injection E as <- <- _. apply body_head in B. destruct B. contradiction.
           ++ intros n E. injection E as <-. exists ""%string, (String d r). repeat split; constructor.
    + apply Ascii.eqb_neq in C. destruct (IH r ltac:(cbn; lia)) as [A A']. split.
      * intros [|e b] rest E B; cbn [append] in E; injection E as -> ->; [congruence|].
        destruct (A b rest eq_refl (body_other q e b C B)) as (n & -> & L). exists (S n). split; [reflexivity|cbn; lia].
      * intro n. destruct (close_quote q r) as [k|]; [|discriminate]. intro E. injection E as <-.
        destruct (A' k eq_refl) as (b & rest & -> & B & ->). exists (String c b), rest. split; [reflexivity|]. split; [apply bo_char; assumption|reflexivity].
Qed.
Definition quoted_re (q : ascii) (two : re) (other : re) (one : re) : re := Cat one (Cat (Many (Or other two)) one).
Lemma many_body q two other t rest : (forall t rest, matches two t rest <-> t = String q (String q "")) -> one_char other (fun c => negb (Ascii.eqb c q)) ->
  (matches (Many (Or other two)) t rest <-> body q t).
Proof.
  intros T O. split.
  - intro M. cbn [matches] in M. induction M as [|u v P M IH]; [constructor|]. destruct P as [P|P].
    + apply O in P. destruct P as (c & -> & P). apply negb_true_iff, Ascii.eqb_neq in P. apply bo_char; assumption.
    + apply T in P. subst u. apply bo_two, IH.
  - intro B. cbn [matches]. induction B as [|c r N B IH|r B IH]; [constructor| |].
    + change (String c r) with (String c "" ++ r)%string. apply re_more; [|exact IH]. left. apply O. exists c. split; [reflexivity|]. apply negb_true_iff, Ascii.eqb_neq, N.
    + change (String q (String q r)) with (String q (String q "") ++ r)%string. apply re_more; [|exact IH]. right. apply T. reflexivity.
Qed.
Lemma finds_quoted q two other one : (forall t rest, matches two t rest <-> t = String q (String q "")) -> one_char other (fun c => negb (Ascii.eqb c q)) ->
  one_char one (fun c => Ascii.eqb c q) -> finds (quoted_re q two other one) (quoted q).
Proof.
  intros T O Q. split.
  - intros t rest M. apply (cat_char _ _ _ _ _ Q) in M. destruct M as (c & v & -> & C & (u & w & -> & U & W)).
    apply (many_body q two other u _ T O) in U. apply Q in W. destruct W as (d & -> & D). apply Ascii.eqb_eq in C, D. subst c d.
    cbn [append quoted]. rewrite Ascii.eqb_refl, sapp_assoc. cbn [append].
    destruct (proj1 (close_quote_spec q (u ++ String q rest)) u rest eq_refl U) as (n & -> & L). cbn [String.length]. rewrite slen. cbn [String.length]. lia.
  - intros [|c s]; [cbn; congruence|]. cbn [quoted]. destruct (Ascii.eqb c q) eqn:C; [|congruence]. apply Ascii.eqb_eq in C. subst c.
    destruct (close_quote q s) as [n|] eqn:N; [|congruence]. intros _. destruct (proj2 (close_quote_spec q s) n N) as (b & rest & -> & B & ->).
    exists (String q (b ++ String q "")), rest. split; [cbn [append]; rewrite sapp_assoc; reflexivity|].
    split; [cbn [String.length]; rewrite slen; cbn [String.length]; lia|].
    apply (cat_char _ _ _ _ _ Q). exists q, (b ++ String q "")%string. split; [reflexivity|]. split; [apply Ascii.eqb_refl|].
    exists b, (String q ""). split; [reflexivity|]. split; [apply (many_body q two other b _ T O), B|]. apply Q. exists q. split; [reflexivity|apply Ascii.eqb_refl].
Qed.
Ltac exact_lit := apply lit_exact; vm_compute; reflexivity.

(** ** Names *)

Lemma finds_bracketed l : one_char l (fun c => negb (Ascii.eqb c "]")) -> finds (Cat (Lit "[") (Cat (Many l) (Lit "]"))) bracketed.
Proof.
  intro O. assert (Q : one_char (Lit "[") (Ascii.eqb "[")) by a_char. assert (Q' : one_char (Lit "]") (fun c => Ascii.eqb c "]")) by a_char. split.
  - intros t rest M. apply (cat_char _ _ _ _ _ Q) in M. destruct M as (c & v & -> & C & (u & w & -> & U & W)).
    apply (many_chars l _ u _ O) in U. apply Q' in W. destruct W as (d & -> & D). apply Ascii.eqb_eq in C, D. subst c d.
    cbn [append bracketed]. rewrite sapp_assoc. cbn [append]. rewrite (span_app _ u (String "]" rest) U eq_refl). rewrite slen. cbn [String.length].
    destruct (String.length u <? String.length u + S (String.length rest)) eqn:E; [|apply Nat.ltb_ge in E; lia]. rewrite slen. cbn [String.length]. lia.
  - intros [|c s]; [cbn; congruence|]. destruct (Ascii.eqb c "[") eqn:C.
    2:{ intro H. exfalso. apply H. destruct c as [[] [] [] [] [] [] [] []]; try reflexivity. discriminate C. }
    apply Ascii.eqb_eq in C. subst c. cbn [bracketed]. destruct (span_parts (fun c => negb (Ascii.eqb c "]")) s) as (a & b & -> & A & B & L). rewrite L, slen.
    destruct b as [|d b]; [cbn [String.length]; rewrite Nat.add_0_r, Nat.ltb_irrefl; congruence|]. intros _.
    destruct (String.length a <? String.length a + String.length (String d b)) eqn:E; [|apply Nat.ltb_ge in E; cbn in E; lia].
    cbn [head_ok] in B. apply negb_true_iff, negb_false_iff, Ascii.eqb_eq in B. subst d.
    exists (String "[" (a ++ "]")), b. split; [cbn [append]; rewrite sapp_assoc; reflexivity|]. split; [cbn [String.length]; rewrite slen; cbn [String.length]; lia|].
    apply (cat_char _ _ _ _ _ Q). exists "["%char, (a ++ "]")%string. split; [reflexivity|]. split; [reflexivity|].
    exists a, "]"%string. split; [reflexivity|]. split; [apply (many_chars l _ a _ O), A|]. reflexivity.
Qed.
Lemma finds_identifier : finds g_identifier m_identifier.
Proof.
  unfold g_identifier. apply finds_or; [|apply finds_or; [|apply finds_or]].
  - apply (finds_quoted dq); [exact_lit|a_char|a_char].
  - apply (finds_quoted "`"%char); [exact_lit|a_char|a_char].
  - apply finds_bracketed. a_char.
  - apply (finds_run _ ident_start ident_char); a_char.
Qed.
Lemma finds_string : finds g_string_literal m_string.
Proof. apply (finds_quoted "'"%char); [exact_lit|a_char|a_char]. Qed.
Lemma finds_blob : finds g_blob_literal m_blob.
Proof. apply finds_after; [a_char|apply finds_string]. Qed.
Lemma finds_user : finds g_user_variable m_user_variable.
Proof. apply finds_after; [a_char|apply finds_identifier]. Qed.
Lemma finds_system : finds g_system_variable m_system_variable.
Proof. apply finds_after; [a_char|apply finds_user]. Qed.
Lemma finds_bind : finds g_bind_parameter m_bind.
Proof.
  apply finds_or.
  - apply (finds_run _ (fun c => Ascii.eqb c "?" || Ascii.eqb c "$") is_digit_b); a_char.
  - apply finds_after; [a_char|apply finds_identifier].
Qed.
Lemma finds_spaces : finds g_spaces m_space.
Proof. apply (finds_char _ (fun c => existsb (Nat.eqb (nat_of_ascii c)) [32; 11; 9; 13; 10])). a_char. Qed.
Lemma finds_any : finds g_unexpected_char m_any.
Proof. refine (finds_ext _ _ _ _ (finds_char _ (fun _ => true) _)); [intros [|]; reflexivity|a_char]. Qed.

(** ** Comments *)

Lemma comment_end_spec s :
  (forall t rest, s = (t ++ rest)%string -> matches (Until "*/") t rest -> to_comment_end s = Some (String.length t))
  /\ forall n, to_comment_end s = Some n -> exists t rest, s = (t ++ rest)%string /\ String.length t = n /\ matches (Until "*/") t rest.
Proof.
  induction s as [|c s [A B]].
  - split; [|intros n E; discriminate E]. intros t rest E ((u & ->) & _). destruct u; discriminate E.
  - cbn [to_comment_end]. destruct (has_prefix "*/" (String c s)) eqn:P.
    + apply has_prefix_iff in P. destruct P as (r & P). split.
      * intros t rest E ((u & T) & F). assert (L : 2 <= String.length t) by (rewrite T, slen; cbn [String.length]; lia).
        rewrite P in E. destruct t as [|a [|b t]]; [cbn in L; lia|cbn in L; lia|]. cbn [append] in E. injection E as <- <- _.
        specialize (F ""%string t eq_refl). subst t. reflexivity.
      * intros n E. injection E as <-. exists "*/"%string, r. split; [exact P|]. split; [reflexivity|]. split; [exists ""%string; reflexivity|].
        intros u v E. assert (L := f_equal String.length E). rewrite !slen in L. cbn [String.length] in L. destruct v; [reflexivity|cbn in L; lia].
    + split.
      * intros t rest E ((u & ->) & F). destruct u as [|d u].
        { exfalso. assert (X : has_prefix "*/" (String c s) = true) by (rewrite E; apply has_prefix_iff; exists rest; reflexivity). congruence. }
        cbn [append] in E. injection E as <- E. rewrite (A (u ++ "*/")%string rest E); [reflexivity|]. split; [exists u; reflexivity|].
        intros u' v' E'. apply (F (String c u') v'). cbn [append]. rewrite E'. reflexivity.
      * intro n. destruct (to_comment_end s) as [k|]; [|discriminate]. intro E. injection E as <-. destruct (B k eq_refl) as (t & rest & -> & <- & ((u & ->) & F)).
        exists (String c (u ++ "*/")), rest. split; [reflexivity|]. split; [reflexivity|]. split; [exists (String c u); reflexivity|].
        intros u' v' E'. destruct u' as [|d u'].
        { exfalso. assert (X : has_prefix "*/" (String c ((u ++ "*/") ++ rest)) = true); [|congruence].
          change (String c ((u ++ "*/") ++ rest))%string with (String c (u ++ "*/") ++ rest)%string. rewrite E'. apply has_prefix_iff. exists (v' ++ rest)%string. reflexivity. }
        cbn [append] in E'. injection E' as _ E'. exact (F u' v' E').
Qed.
Lemma finds_comment : finds g_multiline_comment m_comment.
Proof.
  split.
  - intros t rest (u & v & -> & U & V). apply (lit_exact "/*" eq_refl) in U. subst u. rewrite sapp_assoc. cbn [append m_comment].
    rewrite (proj1 (comment_end_spec _) v rest eq_refl V). cbn [String.length]. lia.
  - intros s N. assert (E : exists r, s = ("/*" ++ r)%string).
    { destruct s as [|a [|b r]]; [destruct N; reflexivity| |].
      - destruct N. destruct a as [[] [] [] [] [] [] [] []]; reflexivity.
      - exists r. destruct (Ascii.eqb a "/") eqn:A; [|destruct N; destruct a as [[] [] [] [] [] [] [] []]; try reflexivity; discriminate A].
        apply Ascii.eqb_eq in A. subst a. destruct (Ascii.eqb b "*") eqn:B; [|destruct N; destruct b as [[] [] [] [] [] [] [] []]; try reflexivity; discriminate B].
        apply Ascii.eqb_eq in B. subst b. reflexivity. }
    destruct E as (r & ->). cbn [append m_comment] in *. destruct (to_comment_end r) as [n|] eqn:T; [|congruence].
    destruct (proj2 (comment_end_spec r) n T) as (t & rest & -> & <- & M). exists ("/*" ++ t)%string, rest. split; [reflexivity|]. split; [reflexivity|].
    exists "/*"%string, t. split; [reflexivity|]. split; [reflexivity|exact M].
Qed.

(** a run of characters and what follows are determined by the text if what follows begins differently *)
Lemma run_unique p a b a' b' : (a ++ b = a' ++ b')%string -> all_chars p a = true -> all_chars p a' = true ->
  head_ok (fun c => negb (p c)) b = true -> head_ok (fun c => negb (p c)) b' = true -> a = a' /\ b = b'.
Proof.
  intros E A A' B B'. assert (L : String.length a = String.length a') by (rewrite <- (span_app p a b A B), E; apply span_app; assumption).
  revert a' E A' L. induction a as [|c a IH]; intros [|d a'] E A' L; cbn in L; try discriminate L; [split; [reflexivity|exact E]|].
  cbn [append] in E. injection E as -> E. unfold all_chars in A, A'. cbn [list_ascii_of_string forallb] in A, A'. apply andb_true_iff in A, A'.
  destruct (IH (proj2 A) a' E (proj2 A') ltac:(lia)) as [-> ->]. split; reflexivity.
Qed.
Lemma finds_line : finds g_single_line_comment m_line_comment.
Proof.
  set (p := fun c => negb (is_eol c)).
  assert (O : one_char (But [(ascii_of_nat 13, ascii_of_nat 13); (ascii_of_nat 10, ascii_of_nat 10)]) p) by a_char.
  assert (O1 : one_char (One [(ascii_of_nat 13, ascii_of_nat 13)]) (fun c => Ascii.eqb c (ascii_of_nat 13))) by a_char.
  assert (O2 : one_char (One [(ascii_of_nat 10, ascii_of_nat 10)]) (fun c => Ascii.eqb c (ascii_of_nat 10))) by a_char.
  assert (W : forall w rest, matches (Or (Cat (Opt (One [(ascii_of_nat 13, ascii_of_nat 13)])) (One [(ascii_of_nat 10, ascii_of_nat 10)])) End_) w rest
    <-> w = String (ascii_of_nat 10) "" \/ w = String (ascii_of_nat 13) (String (ascii_of_nat 10) "") \/ w = ""%string /\ rest = ""%string).
  { intros w rest. split.
    - intros [(u & v & -> & U & V)|H]; [|right; right; exact H]. apply O2 in V. destruct V as (c & -> & C). apply Ascii.eqb_eq in C. subst c.
      apply opt_iff in U. destruct U as [->|U]; [left; reflexivity|]. apply O1 in U. destruct U as (c & -> & C). apply Ascii.eqb_eq in C. subst c. right. left. reflexivity.
    - intros [->|[->|H]]; [left|left|right; exact H].
      + exists ""%string, (String (ascii_of_nat 10) ""). split; [reflexivity|]. split; [apply opt_iff; left; reflexivity|]. apply O2. eexists. split; [reflexivity|reflexivity].
      + exists (String (ascii_of_nat 13) ""), (String (ascii_of_nat 10) ""). split; [reflexivity|].
        split; [apply opt_iff; right; apply O1; eexists; split; reflexivity|]. apply O2. eexists. split; reflexivity. }
  assert (R : forall r, m_line_comment ("--" ++ r) = match sdrop (span p r) r with
      | EmptyString => S (S (span p r))
      | String c r' => if Ascii.eqb c (ascii_of_nat 10) then 3 + span p r
          else match r' with String d _ => if Ascii.eqb d (ascii_of_nat 10) then 4 + span p r else 0 | EmptyString => 0 end end) by reflexivity.
  split.
  - intros t rest (u & v & -> & U & (b & w & -> & B & H)). apply (lit_exact "--" eq_refl) in U. subst u. apply (many_chars _ p b _ O) in B.
    apply W in H. rewrite !sapp_assoc. rewrite R.
    assert (S1 : forall x, head_ok (fun c => negb (p c)) x = true -> span p (b ++ x) = String.length b) by (intros x X; apply span_app; assumption).
    assert (Len : String.length ("--" ++ b ++ w) = 2 + String.length b + String.length w) by (cbn; rewrite slen; reflexivity). rewrite Len. clear Len.
    destruct H as [->|[->|[-> ->]]]; rewrite S1 by reflexivity; rewrite sdrop_app by reflexivity; cbn [append String.length];
      [change (Ascii.eqb (ascii_of_nat 10) (ascii_of_nat 10)) with true|change (Ascii.eqb (ascii_of_nat 13) (ascii_of_nat 10)) with false;
       change (Ascii.eqb (ascii_of_nat 10) (ascii_of_nat 10)) with true|]; cbv iota; lia.
  - intros s N. assert (E : exists r, s = ("--" ++ r)%string).
    { destruct s as [|a [|b r]]; [destruct N; reflexivity| |].
      - destruct N. destruct a as [[] [] [] [] [] [] [] []]; reflexivity.
      - exists r. destruct (Ascii.eqb a "-") eqn:A; [|destruct N; destruct a as [[] [] [] [] [] [] [] []]; try reflexivity; discriminate A].
        apply Ascii.eqb_eq in A. subst a. destruct (Ascii.eqb b "-") eqn:B; [|destruct N; destruct b as [[] [] [] [] [] [] [] []]; try reflexivity; discriminate B].
        apply Ascii.eqb_eq in B. subst b. reflexivity. }
    destruct E as (r & ->). rewrite R in N |- *. destruct (span_parts p r) as (a & b & -> & A & B & L). rewrite L in N |- *. rewrite sdrop_app in N |- * by reflexivity.
    assert (G : forall w rest, b = (w ++ rest)%string -> matches (Or (Cat (Opt (One [(ascii_of_nat 13, ascii_of_nat 13)])) (One [(ascii_of_nat 10, ascii_of_nat 10)])) End_) w rest ->
       exists t rest, ("--" ++ a ++ b = t ++ rest)%string /\ String.length t = 2 + String.length a + String.length w /\ matches g_single_line_comment t rest).
    { intros w rest -> M. exists ("--" ++ a ++ w)%string, rest. split; [rewrite !sapp_assoc; reflexivity|]. split; [cbn; rewrite slen; lia|].
      exists "--"%string, (a ++ w)%string. split; [reflexivity|]. split; [reflexivity|]. exists a, w. split; [reflexivity|]. split; [apply (many_chars _ p a _ O), A|exact M]. }
    destruct b as [|c b].
    + destruct (G ""%string ""%string eq_refl) as (t & rest & H1 & H2 & H3); [apply W; auto|]. exists t, rest. split; [exact H1|]. split; [|exact H3]. rewrite H2. cbn. lia.
    + destruct (Ascii.eqb c (ascii_of_nat 10)) eqn:C.
      * apply Ascii.eqb_eq in C. subst c. destruct (G (String (ascii_of_nat 10) "") b eq_refl) as (t & rest & H1 & H2 & H3); [apply W; auto|].
        exists t, rest. split; [exact H1|]. split; [|exact H3]. rewrite H2. cbn. lia.
      * destruct b as [|d b]; [congruence|]. destruct (Ascii.eqb d (ascii_of_nat 10)) eqn:D; [|congruence]. apply Ascii.eqb_eq in D. subst d.
        assert (c = ascii_of_nat 13) as ->.
        { cbn [head_ok] in B. unfold p, is_eol in B. rewrite negb_involutive, C in B. cbn [orb] in B. apply Ascii.eqb_eq, B. }
        destruct (G (String (ascii_of_nat 13) (String (ascii_of_nat 10) "")) b eq_refl) as (t & rest & H1 & H2 & H3); [apply W; auto|].
        exists t, rest. split; [exact H1|]. split; [|exact H3]. rewrite H2. cbn [String.length]. lia.
Qed.

(** ** Numbers *)

Lemma all_cons p c s : all_chars p (String c s) = p c && all_chars p s.
Proof. reflexivity. Qed.
Lemma finds_digits r p : one_char r p -> finds (Some_ r) (span p).
Proof.
  intro O. split.
  - intros t rest M. apply (some_chars r p t rest O) in M. destruct M as [N A]. split; [destruct t; [contradiction|cbn; lia]|]. apply span_le, A.
  - intros s N. destruct (span_parts p s) as (a & b & -> & A & B & L). exists a, b. split; [reflexivity|]. split; [congruence|].
    apply (some_chars r p a b O). split; [|exact A]. intros ->. apply N. exact L.
Qed.
Lemma digit_one : one_char g_digit is_digit_b.
Proof. a_char. Qed.
Lemma finds_exponent : finds (Cat (Lit "E") (Cat (Opt (One [("-"%char, "-"%char); ("+"%char, "+"%char)])) (Some_ g_digit))) m_exponent.
Proof.
  assert (E : one_char (Lit "E") (fun c => Ascii.eqb (upper_ascii c) "E")) by a_char.
  assert (S : one_char (One [("-"%char, "-"%char); ("+"%char, "+"%char)]) (fun c => Ascii.eqb c "+" || Ascii.eqb c "-")) by a_char.
  destruct (finds_digits g_digit is_digit_b digit_one) as [D D']. split.
  - intros t rest M. apply (cat_char _ _ _ _ _ E) in M. destruct M as (e & v & -> & He & (u & w & -> & U & W)).
    pose proof (D w rest W) as L. pose proof (proj1 (some_chars _ _ w rest digit_one) W) as [N A]. cbn [append m_exponent]. rewrite He. rewrite sapp_assoc.
    apply opt_iff in U. destruct U as [->|U].
    + cbn [append]. destruct w as [|c w]; [contradiction|]. cbn [append] in *. rewrite all_cons in A. apply andb_true_iff in A.
      assert (X : Ascii.eqb c "+" || Ascii.eqb c "-" = false).
      { destruct A as [A _]. destruct c as [[] [] [] [] [] [] [] []]; try reflexivity; discriminate A. }
      rewrite X. destruct (span is_digit_b (String c (w ++ rest))); cbn [String.length] in *; lia.
    + apply S in U. destruct U as (c & -> & C). cbn [append]. rewrite C. destruct (span is_digit_b (w ++ rest)); cbn [String.length] in *; lia.
  - intros [|e s]; [cbn; congruence|]. cbn [m_exponent]. destruct (Ascii.eqb (upper_ascii e) "E") eqn:He; [|congruence].
    destruct s as [|c s]; [congruence|]. destruct (Ascii.eqb c "+" || Ascii.eqb c "-") eqn:C.
    + destruct (span is_digit_b s) as [|n] eqn:N; [congruence|]. intros _. destruct (D' s ltac:(congruence)) as (w & rest & -> & L & W).
      exists (String e (String c w)), rest. split; [reflexivity|]. split; [cbn; congruence|]. apply (cat_char _ _ _ _ _ E).
      exists e, (String c w). split; [reflexivity|]. split; [exact He|]. exists (String c ""), w. split; [reflexivity|]. split; [|exact W].
      apply opt_iff. right. apply S. exists c. auto.
    + destruct (span is_digit_b (String c s)) as [|n] eqn:N; [congruence|]. intros _. destruct (D' (String c s) ltac:(congruence)) as (w & rest & E1 & L & W).
      exists (String e w), rest. split; [cbn [append]; congruence|]. split; [cbn; congruence|]. apply (cat_char _ _ _ _ _ E).
      exists e, w. split; [reflexivity|]. split; [exact He|]. exists ""%string, w. split; [reflexivity|]. split; [|exact W]. apply opt_iff. left. reflexivity.
Qed.
Definition g_mantissa : re := Or (Cat (Some_ g_digit) (Opt (Cat (Lit ".") (Many g_digit)))) (Cat (Lit ".") (Some_ g_digit)).
Inductive mant : string -> Prop :=
| ma_int a : a <> ""%string -> all_chars is_digit_b a = true -> mant a
| ma_frac a b : a <> ""%string -> all_chars is_digit_b a = true -> all_chars is_digit_b b = true -> mant (a ++ String "." b)
| ma_dot b : b <> ""%string -> all_chars is_digit_b b = true -> mant (String "." b).
Lemma mant_iff t rest : matches g_mantissa t rest <-> mant t.
Proof.
  assert (P : one_char (Lit ".") (fun c => Ascii.eqb c ".")) by a_char. split.
  - intros [(u & v & -> & U & V)|H].
    + apply (some_chars _ _ _ _ digit_one) in U. destruct U as [N A]. apply opt_iff in V. destruct V as [->|V]; [rewrite append_nil_r; apply ma_int; assumption|].
      apply (cat_char _ _ _ _ _ P) in V. destruct V as (c & w & -> & C & W). apply Ascii.eqb_eq in C. subst c. apply (many_chars _ _ _ _ digit_one) in W. apply ma_frac; assumption.
    + apply (cat_char _ _ _ _ _ P) in H. destruct H as (c & w & -> & C & W). apply Ascii.eqb_eq in C. subst c. apply (some_chars _ _ _ _ digit_one) in W. apply ma_dot; apply W.
  - intros [a N A|a b N A B|b N B].
    + left. exists a, ""%string. split; [symmetry; apply append_nil_r|]. split; [apply (some_chars _ _ _ _ digit_one); auto|]. apply opt_iff. left. reflexivity.
    + left. exists a, (String "." b). split; [reflexivity|]. split; [apply (some_chars _ _ _ _ digit_one); auto|]. apply opt_iff. right.
      apply (cat_char _ _ _ _ _ P). exists "."%char, b. split; [reflexivity|]. split; [reflexivity|]. apply (many_chars _ _ _ _ digit_one), B.
    + right. apply (cat_char _ _ _ _ _ P). exists "."%char, b. split; [reflexivity|]. split; [reflexivity|]. apply (some_chars _ _ _ _ digit_one). auto.
Qed.
(** the longest number before the exponent *)
Lemma mantissa_run a s : a <> ""%string -> all_chars is_digit_b a = true -> head_ok (fun c => negb (is_digit_b c)) s = true ->
  m_mantissa (a ++ s) = match s with String "." r => String.length a + S (span is_digit_b r) | _ => String.length a end.
Proof.
  intros N A H. unfold m_mantissa. rewrite (span_app _ a s A H). destruct a as [|c a]; [contradiction|].
  cbn [String.length]. rewrite (sdrop_app (S (String.length a)) (String c a) s eq_refl). reflexivity.
Qed.
Lemma mantissa_dot r : m_mantissa (String "." r) = match span is_digit_b r with 0 => 0 | n => S n end.
Proof. reflexivity. Qed.
(** a text that has digits at the beginning *)
Lemma digits_more a s : all_chars is_digit_b a = true -> exists d r, s = (d ++ r)%string /\ all_chars is_digit_b (a ++ d) = true /\ head_ok (fun c => negb (is_digit_b c)) r = true.
Proof.
  intro A. destruct (span_parts is_digit_b s) as (d & r & -> & D & R & _). exists d, r. split; [reflexivity|]. split; [|exact R].
  clear R r. induction a as [|c a IH]; [exact D|]. rewrite all_cons in A. apply andb_true_iff in A. cbn [append]. rewrite all_cons, (proj1 A). apply IH, A.
Qed.
Lemma mantissa_longest t rest : mant t -> 1 <= String.length t <= m_mantissa (t ++ rest).
Proof.
  intros [a N A|a b N A B|b N B].
  - assert (1 <= String.length a) by (destruct a; [contradiction|cbn; lia]). split; [assumption|].
    destruct (digits_more a rest A) as (d & r & -> & D & R). rewrite <- sapp_assoc. rewrite (mantissa_run (a ++ d) r); [|destruct a; [contradiction|discriminate]|exact D|exact R].
    rewrite slen. destruct r as [|[[] [] [] [] [] [] [] []] r]; lia.
  - rewrite slen. cbn [String.length]. split; [lia|]. rewrite sapp_assoc. cbn [append]. rewrite (mantissa_run a (String "." (b ++ rest)) N A eq_refl).
    pose proof (span_le is_digit_b b rest B). lia.
  - cbn [append String.length]. rewrite mantissa_dot. pose proof (span_le is_digit_b b rest B). assert (1 <= String.length b) by (destruct b; [contradiction|cbn; lia]).
    destruct (span is_digit_b (b ++ rest)); lia.
Qed.
Lemma mantissa_exact t rest : mant t -> head_ok (fun c => negb (is_digit_b c) && negb (Ascii.eqb c ".")) rest = true -> m_mantissa (t ++ rest) = String.length t.
Proof.
  intros M H. assert (H1 : head_ok (fun c => negb (is_digit_b c)) rest = true) by (destruct rest; [reflexivity|apply andb_true_iff in H; apply H]).
  destruct M as [a N A|a b N A B|b N B].
  - rewrite (mantissa_run a rest N A H1). destruct rest as [|[[] [] [] [] [] [] [] []] r]; try reflexivity. discriminate H.
  - rewrite sapp_assoc. cbn [append]. rewrite (mantissa_run a (String "." (b ++ rest)) N A eq_refl), (span_app _ b rest B H1), slen. reflexivity.
  - cbn [append]. rewrite mantissa_dot, (span_app _ b rest B H1). destruct b; [contradiction|reflexivity].
Qed.
Lemma mantissa_found s : m_mantissa s <> 0 -> exists t rest, s = (t ++ rest)%string /\ String.length t = m_mantissa s /\ mant t.
Proof.
  intro H. destruct (span_parts is_digit_b s) as (a & b & -> & A & B & L). destruct a as [|c a].
  - cbn [append] in *. unfold m_mantissa in *. rewrite L in *. cbn [String.length] in *.
    destruct b as [|d b]; [congruence|]. destruct (Ascii.eqb d ".") eqn:D.
    2:{ exfalso. apply H. destruct d as [[] [] [] [] [] [] [] []]; try reflexivity. discriminate D. }
    apply Ascii.eqb_eq in D. subst d. destruct (span_parts is_digit_b b) as (u & r & -> & U & R & K). rewrite K in *.
    destruct u as [|e u]; [cbn in H; congruence|]. exists (String "." (String e u)), r. split; [reflexivity|]. split; [reflexivity|]. apply ma_dot; [discriminate|exact U].
  - assert (N : String c a <> ""%string) by discriminate. rewrite (mantissa_run _ b N A B). destruct b as [|d b].
    { exists (String c a), ""%string. split; [reflexivity|]. split; [reflexivity|]. apply ma_int; assumption. }
    destruct (Ascii.eqb d ".") eqn:D.
    + apply Ascii.eqb_eq in D. subst d. destruct (span_parts is_digit_b b) as (u & r & -> & U & R & K). rewrite K.
      exists (String c a ++ String "." u)%string, r. split; [rewrite sapp_assoc; reflexivity|]. split; [rewrite slen; cbn [String.length]; lia|]. apply ma_frac; assumption.
    + exists (String c a), (String d b). split; [reflexivity|]. split; [|apply ma_int; assumption].
      destruct d as [[] [] [] [] [] [] [] []]; try reflexivity. discriminate D.
Qed.
Lemma finds_decimal : finds (Cat g_mantissa (Opt (Cat (Lit "E") (Cat (Opt (One [("-"%char, "-"%char); ("+"%char, "+"%char)])) (Some_ g_digit)))))
  (fun s => match m_mantissa s with 0 => 0 | n => n + m_exponent (sdrop n s) end).
Proof.
  destruct finds_exponent as [X X']. split.
  - intros t rest (u & v & -> & U & V). apply mant_iff in U. rewrite slen, sapp_assoc. apply opt_iff in V. destruct V as [->|V].
    + cbn [append String.length]. pose proof (mantissa_longest u rest U). destruct (m_mantissa (u ++ rest)); lia.
    + pose proof (X v rest V) as L.
      assert (E : m_mantissa (u ++ v ++ rest) = String.length u).
      { apply mantissa_exact; [exact U|]. destruct V as (e & w & -> & E & _). destruct e as [|e [|]]; try discriminate E.
        cbn in E. destruct e as [[] [] [] [] [] [] [] []]; try reflexivity; discriminate E. }
      assert (1 <= String.length u) by (pose proof (mantissa_longest u ""%string U); lia).
      rewrite E. destruct u as [|c u]; [cbn in *; lia|]. cbn [String.length]. rewrite (sdrop_app (S (String.length u)) (String c u) (v ++ rest) eq_refl). lia.
  - intros s N. cbv beta in N |- *. destruct (m_mantissa s) as [|n] eqn:M; [congruence|]. destruct (mantissa_found s ltac:(congruence)) as (u & r & -> & L & U). cbv beta iota zeta. rewrite <- M, <- L.
    rewrite sdrop_app by reflexivity. destruct (m_exponent r) as [|k] eqn:K.
    + exists u, r. split; [reflexivity|]. split; [lia|]. exists u, ""%string. split; [symmetry; apply append_nil_r|]. split; [apply mant_iff, U|]. apply opt_iff. left. reflexivity.
    + destruct (X' r ltac:(congruence)) as (v & rest & -> & LV & V). exists (u ++ v)%string, rest. split; [rewrite sapp_assoc; reflexivity|].
      split; [rewrite slen; lia|]. exists u, v. split; [reflexivity|]. split; [apply mant_iff, U|]. apply opt_iff. right. exact V.
Qed.
Lemma finds_hex : finds (Cat (Lit "0x") (Some_ g_hex_digit)) m_hex.
Proof.
  assert (H : one_char g_hex_digit is_hex) by a_char. destruct (finds_digits _ _ H) as [D D']. split.
  - intros t rest (u & v & -> & U & V). destruct u as [|a [|b [|]]]; try discriminate U. cbn in U. injection U as U1 U2.
    assert (a = "0"%char) as -> by (destruct a as [[] [] [] [] [] [] [] []]; try discriminate U1; reflexivity).
    cbn [append m_hex String.length]. rewrite U2, Ascii.eqb_refl. apply D in V. destruct (span is_hex (v ++ rest)); lia.
  - intros s N. assert (E : exists x r, s = String "0" (String x r)).
    { destruct s as [|a [|b r]]; [destruct N; reflexivity|destruct N; destruct a as [[] [] [] [] [] [] [] []]; reflexivity|].
      exists b, r. f_equal. destruct a as [[] [] [] [] [] [] [] []]; try (destruct N; reflexivity). reflexivity. }
    destruct E as (x & r & ->). cbn [m_hex] in *. destruct (Ascii.eqb (upper_ascii x) "X") eqn:X; [|congruence]. apply Ascii.eqb_eq in X.
    destruct (span is_hex r) as [|n] eqn:S; [congruence|]. destruct (D' r ltac:(congruence)) as (t & rest & -> & L & M).
    exists (String "0" (String x t)), rest. split; [reflexivity|]. split; [cbn; congruence|]. exists (String "0" (String x "")), t. split; [reflexivity|].
    split; [cbn; rewrite X; reflexivity|exact M].
Qed.
Lemma finds_numeric : finds g_numeric_literal m_numeric.
Proof. apply finds_or; [apply finds_decimal|apply finds_hex]. Qed.

(** ** The tokens *)

Lemma finds_rules : Forall2 (fun m r => fst m = fst r /\ finds (snd r) (snd m)) lex_rules g4_rules.
Proof.
  unfold lex_rules, g4_rules, literal_tokens. cbn [map app fst snd].
  repeat (apply Forall2_cons; [split; [reflexivity|first [apply finds_lit; [discriminate|reflexivity]|apply finds_identifier|apply finds_numeric|apply finds_system
    |apply finds_user|apply finds_bind|apply finds_string|apply finds_blob|apply finds_line|apply finds_comment|apply finds_spaces|apply finds_any]]|]).
  apply Forall2_nil.
Qed.

Section Tokens.
  Context (ms : list (string * (string -> nat))) (rs : list (string * re)).
  Hypothesis FR : Forall2 (fun m r => fst m = fst r /\ finds (snd r) (snd m)) ms rs.
  Lemma rules_at i k r : nth_error rs i = Some (k, r) -> exists m, nth_error ms i = Some (k, m) /\ finds r m.
  Proof.
    revert i. induction FR as [|[k1 m1] [k2 r2] ms' rs' [E F1] F IH]; intros [|i] H; try discriminate H.
    - cbn in *. injection H as -> ->. subst k1. exists m1. auto.
    - apply IH; [exact F|exact H].
  Qed.
  Lemma rules_at' i k m : nth_error ms i = Some (k, m) -> exists r, nth_error rs i = Some (k, r) /\ finds r m.
  Proof.
    revert i. induction FR as [|[k1 m1] [k2 r2] ms' rs' [E F1] F IH]; intros [|i] H; try discriminate H.
    - cbn in *. injection H as -> ->. subst k2. exists r2. auto.
    - apply IH; [exact F|exact H].
  Qed.
  Definition first_of (s k t rest : string) : Prop :=
    s = (t ++ rest)%string /\ t <> ""%string /\
    exists i r, nth_error rs i = Some (k, r) /\ matches r t rest /\
    forall j k' r' t' rest', nth_error rs j = Some (k', r') -> s = (t' ++ rest')%string -> matches r' t' rest' ->
      String.length t' < String.length t \/ String.length t' = String.length t /\ i <= j.
  Lemma longest_first x k n : longest ms x (""%string, 0) = (k, n) -> 1 <= n -> exists t rest, first_of x k t rest /\ String.length t = n.
  Proof.
    intros H' P. destruct (longest_from ms x (""%string, 0)) as [H|(before & k1 & m & af & R & H & L & B)]; [rewrite H in H'; injection H' as _ <-; lia|].
    destruct (longest_bounds ms x (""%string, 0)) as [_ U]. rewrite H in U. rewrite H in H'. injection H' as -> <-. cbn [fst snd] in *.
    assert (I : nth_error ms (length before) = Some (k, m)) by (rewrite R, nth_error_app2, Nat.sub_diag by apply le_n; reflexivity).
    destruct (rules_at' _ _ _ I) as (r & G & [_ F]). destruct (F x ltac:(lia)) as (t & rest & E & LT & M).
    exists t, rest. split; [|exact LT]. split; [exact E|]. split; [intros ->; cbn in LT; lia|]. exists (length before), r. split; [exact G|]. split; [exact M|].
    intros j k' r' t' rest' J E' M'. destruct (rules_at _ _ _ J) as (m' & J' & [F' _]). apply F' in M'. rewrite <- E' in M'. destruct M' as [_ M'].
    pose proof (U k' m' (nth_error_In _ _ J')) as Q. rewrite LT.
    destruct (Nat.lt_ge_cases j (length before)) as [Z|Z]; [left|].
    - rewrite R, nth_error_app1 in J' by exact Z. pose proof (B k' m' (nth_error_In _ _ J')). lia.
    - destruct (Nat.eq_dec (String.length t') (m x)); [right; split; assumption|left; lia].
  Qed.
End Tokens.
(** the lexer's first token *)
Lemma next_unfold x : next_token x = longest lex_rules x (""%string, 0).
Proof. reflexivity. Qed.
Lemma next_first c s k n : next_token (String c s) = (k, n) -> exists t rest, first_token (String c s) k t rest /\ String.length t = n.
Proof.
  intro E. pose proof (next_token_pos c s) as P. rewrite E in P. rewrite next_unfold in E. cbn [snd] in P. exact (longest_first lex_rules g4_rules finds_rules (String c s) k n E P).
Qed.
Lemma same_prefix : forall a b x y, String.length a = String.length b -> (a ++ x = b ++ y)%string -> a = b /\ x = y.
Proof.
  induction a as [|c a IH]; intros [|d b] x y L E; cbn in L; try discriminate L; [split; [reflexivity|exact E]|].
  cbn in E. injection E as -> E. injection L as L. destruct (IH b x y L E) as [-> ->]. split; reflexivity.
Qed.
Lemma first_unique s k t rest k' t' rest' : first_token s k t rest -> first_token s k' t' rest' -> k = k' /\ t = t' /\ rest = rest'.
Proof.
  intros (E & N & i & r & I & M & U) (E' & N' & i' & r' & I' & M' & U').
  pose proof (U i' k' r' t' rest' I' E' M') as A. pose proof (U' i k r t rest I E M) as B.
  assert (L : String.length t = String.length t') by lia. assert (i = i') by lia. subst i'. rewrite I in I'. injection I' as <- _.
  rewrite E in E'. destruct (same_prefix _ _ _ _ L E') as [-> ->]. auto.
Qed.
Lemma lex_tokens s : tokens s (map (fun t => (tk t, tx t)) (lex s)).
Proof.
  induction s as [s IH] using string_ind_len. destruct s as [|c s]; [constructor|].
  rewrite lex_step. destruct (next_token (String c s)) as [k n] eqn:X. destruct (next_first c s k n X) as (t & rest & F & L). clear X.
  assert (E := proj1 F). assert (N := proj1 (proj2 F)).
  assert (T : stake n (String c s) = t) by (rewrite E; apply stake_app, L). assert (D : sdrop n (String c s) = rest) by (rewrite E; apply sdrop_app, L).
  cbn [fst snd]. rewrite T, D. cbn [map tk tx]. apply (to_next _ k t rest); [exact F|]. apply IH. rewrite E, slen. destruct t; [contradiction|cbn; lia].
Qed.
Lemma tokens_unique s a : tokens s a -> forall b, tokens s b -> a = b.
Proof.
  intro A. induction A as [|s k t rest ts F A IH]; intros b B.
  - inversion B as [|? ? t' ? ? (E & N & _)]; subst; [reflexivity|]. destruct t'; [contradiction|discriminate E].
  - inversion B as [|? k' t' rest' ts' F' B']; subst.
    + destruct F as (E & N & _). destruct t; [contradiction|discriminate E].
    + destruct (first_unique _ _ _ _ _ _ _ F F') as (-> & -> & ->). rewrite (IH ts' B'). reflexivity.
Qed.
