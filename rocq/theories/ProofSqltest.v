(** The checks of sqltest. *)
From Coq Require Import Lia Permutation.
From Verif Require Import GoBase FactsBase ModelUtil ModelNum ModelQuery ModelEbnf ModelGrammar ModelLex ModelVisitor ModelSqltest
  SpecRound SpecSqltest ProofFn ProofBind ProofWhere ProofQuoted.

(** ** What is compared *)

Definition low (c : ascii) : list ascii := if counts (lower_ascii c) then [lower_ascii c] else [].
Lemma essence_nil : essence "" = [].
Proof. reflexivity. Qed.
Lemma essence_cons c s : essence (String c s) = low c ++ essence s.
Proof. unfold essence, low. cbn [to_lower smap list_ascii_of_string filter]. destruct (counts (lower_ascii c)); reflexivity. Qed.
Lemma essence_app a b : essence (a ++ b) = essence a ++ essence b.
Proof. induction a as [|c a IH]; [reflexivity|]. cbn [append]. rewrite !essence_cons, IH, app_assoc. reflexivity. Qed.
Lemma trim_left_essence cut s : (forall c, smem c cut = true -> low c = []) -> essence (trim_left cut s) = essence s.
Proof.
  intro H. induction s as [|c s IH]; [reflexivity|]. cbn [trim_left]. destruct (smem c cut) eqn:E; [|reflexivity].
  rewrite essence_cons, (H c E), IH. reflexivity.
Qed.
Lemma essence_rev s : essence (srev s) = rev (essence s).
Proof.
  induction s as [|c s IH]; [reflexivity|]. change (String c s) with (String c "" ++ s)%string. rewrite srev_append, !essence_app, rev_app_distr, IH. f_equal.
  change (srev (String c "")) with (String c ""). rewrite essence_cons, essence_nil, app_nil_r. unfold low. destruct (counts _); reflexivity.
Qed.
Lemma trim_essence cut s : (forall c, smem c cut = true -> low c = []) -> essence (trim cut s) = essence s.
Proof.
  intro H. unfold trim. rewrite essence_rev, (trim_left_essence cut _ H), essence_rev, rev_involutive. apply trim_left_essence, H.
Qed.
Lemma one_low d c : low d = [] -> smem c (String d "") = true -> low c = [].
Proof. unfold smem. cbn [sexists]. intros H E. rewrite orb_false_r in E. apply Ascii.eqb_eq in E. subst c. exact H. Qed.
Lemma trim_query_essence q : essence (trim_query q) = essence q.
Proof. unfold trim_query. rewrite !trim_essence; [reflexivity|intros c; apply one_low; reflexivity..]. Qed.
Lemma space_low c : is_space c = true -> low c = [].
Proof. destruct c as [[] [] [] [] [] [] [] []]; intro H; vm_compute in H |- *; congruence. Qed.
Lemma squeeze_essence s : forall r, (forall d, r = OneByte d -> is_space d = true) -> essence (squeeze r s) = essence s.
Proof.
  induction s as [|c s IH]; intros r H.
  - destruct r as [|d|]; [reflexivity| |reflexivity]. cbn [squeeze]. rewrite essence_cons, (space_low d (H d eq_refl)). reflexivity.
  - cbn [squeeze]. destruct (is_space c) eqn:E.
    + rewrite IH, (essence_cons c s), (space_low c E); [reflexivity|]. intros d D. destruct r; [|discriminate D..]. injection D as <-. exact E.
    + destruct r as [|d|]; rewrite !essence_cons, (IH NoRun) by discriminate; [reflexivity| |reflexivity].
      rewrite (space_low d (H d eq_refl)). reflexivity.
Qed.
Lemma replace_byte_essence a b s : low a = [] -> low b = [] -> essence (replace_byte a b s) = essence s.
Proof.
  intros A B. induction s as [|c s IH]; [reflexivity|]. unfold replace_byte in *. cbn [smap]. rewrite !essence_cons, IH. f_equal.
  destruct (Ascii.eqb_spec c a) as [->|]; congruence.
Qed.
Lemma replace_pair_two a b c x y s : replace_pair a b c (String x (String y s)) =
  if Ascii.eqb x a && Ascii.eqb y b then String c (replace_pair a b c s) else String x (replace_pair a b c (String y s)).
Proof. reflexivity. Qed.
Lemma replace_pair_essence a b c : low c = low a ++ low b -> forall n s, String.length s <= n -> essence (replace_pair a b c s) = essence s.
Proof.
  intros H. induction n as [|n IH]; intros [|x [|y s]] L; try reflexivity; cbn [String.length] in L; try lia.
  rewrite replace_pair_two. destruct (Ascii.eqb_spec x a) as [->|]; cbn [andb].
  - destruct (Ascii.eqb_spec y b) as [->|].
    + rewrite !essence_cons, (IH s) by lia. rewrite H, app_assoc. reflexivity.
    + rewrite (essence_cons a), (essence_cons a (String y s)). f_equal. apply IH. cbn [String.length]. lia.
  - rewrite (essence_cons x), (essence_cons x (String y s)). f_equal. apply IH. cbn [String.length]. lia.
Qed.
Lemma formalize_essence q : essence (formalize_query q) = essence q.
Proof.
  unfold formalize_query. rewrite (replace_pair_essence " " ")" ")" eq_refl _ _ (le_n _)), (replace_pair_essence "(" " " "(" eq_refl _ _ (le_n _)), !replace_byte_essence by reflexivity.
  rewrite squeeze_essence by discriminate. apply trim_query_essence.
Qed.
Lemma fold_essence a b : equal_fold a b = true -> essence a = essence b.
Proof. unfold equal_fold, essence. intro H. apply String.eqb_eq in H. rewrite H. reflexivity. Qed.
Lemma fold_refl a : equal_fold a a = true.
Proof. apply String.eqb_refl. Qed.

Lemma strict_sound entries skip q : test_query_string entries (mkConfig skip StrictValidation) q = Passed ->
  exists s p, parse entries q = Ok [s] /\ stmt_string s = Ok p /\ essence q = essence p.
Proof.
  unfold test_query_string. destruct (parse entries q) as [[|s [|s2 l]]|e|]; cbn [cf_mode cf_skip_errors]; try discriminate.
  - destruct (stmt_string s) as [p|e|] eqn:P; try discriminate. cbn zeta. destruct (equal_fold _ _) eqn:E; [|destruct skip; discriminate].
    intros _. exists s, p. split; [reflexivity|]. split; [exact P|]. apply fold_essence in E. rewrite !formalize_essence in E. exact E.
  - destruct (all_printed _); discriminate.
Qed.
Lemma default_sound entries skip q : test_query_string entries (mkConfig skip DefaultValidation) q = Passed ->
  exists s p, parse entries q = Ok [s] /\ stmt_string s = Ok p /\
    (essence q = essence p \/ exists t s' p', essence t = essence p /\ parse entries t = Ok [s'] /\ stmt_string s' = Ok p' /\ essence p' = essence p).
Proof.
  unfold test_query_string. destruct (parse entries q) as [[|s [|s2 l]]|e|]; cbn [cf_mode cf_skip_errors]; try discriminate.
  - destruct (stmt_string s) as [p|e|] eqn:P; try discriminate. cbn zeta. intro H. exists s, p. split; [reflexivity|]. split; [exact P|].
    destruct (equal_fold (formalize_query q) _) eqn:E; [left; apply fold_essence in E; rewrite !formalize_essence in E; exact E|]. right.
    destruct (parse entries (formalize_query p)) as [[|s' [|s2 l]]|e|] eqn:R; try discriminate H.
    + destruct (stmt_string s') as [p'|e|] eqn:P'; try discriminate H.
      destruct (equal_fold (formalize_query p) (formalize_query p')) eqn:E'; [|destruct skip; discriminate H].
      apply fold_essence in E'. rewrite !formalize_essence in E'.
      exists (formalize_query p), s', p'. rewrite formalize_essence. auto.
    + destruct (all_printed _); discriminate H.
  - destruct (all_printed _); discriminate.
Qed.
Lemma parse_only_sound entries skip q : test_query_string entries (mkConfig skip ParseOnlyValidation) q = Passed ->
  exists s l, parse entries q = Ok (s :: l).
Proof.
  unfold test_query_string. destruct (parse entries q) as [[|s l]|e|]; cbn [cf_mode]; try discriminate. eauto.
Qed.
Lemma printed_passes entries cfg s q : parse entries q = Ok [s] -> stmt_string s = Ok q -> test_query_string entries cfg q = Passed.
Proof.
  intros P Q. unfold test_query_string. rewrite P, Q. cbn zeta. rewrite fold_refl. destruct (cf_mode cfg); reflexivity.
Qed.

(** ** The queries of a file *)

Lemma split_none c s : ~ In c (list_ascii_of_string s) -> split_byte c s = [s].
Proof.
  induction s as [|d s IH]; intro N; [reflexivity|]. cbn [split_byte]. destruct (Ascii.eqb_spec c d) as [->|]; [destruct N; left; reflexivity|].
  rewrite IH; [reflexivity|]. intro I. apply N. right. exact I.
Qed.
Lemma split_at c a b : ~ In c (list_ascii_of_string a) -> split_byte c (a ++ String c b) = a :: split_byte c b.
Proof.
  induction a as [|d a IH]; intro N.
  - cbn [append split_byte]. rewrite Ascii.eqb_refl. reflexivity.
  - cbn [append split_byte]. destruct (Ascii.eqb_spec c d) as [->|]; [destruct N; left; reflexivity|].
    rewrite IH; [reflexivity|]. intro I. apply N. right. exact I.
Qed.
Lemma newlines_in n c : In c (list_ascii_of_string (newlines n)) -> c = newline.
Proof. induction n as [|n IH]; [intros []|]. intros [<-|I]; [reflexivity|exact (IH I)]. Qed.
Lemma newlines_no n : ~ In ";"%char (list_ascii_of_string (newlines n)).
Proof. intro I. apply newlines_in in I. discriminate I. Qed.
Lemma trim_left_all cut a b : (forall c, In c (list_ascii_of_string a) -> smem c cut = true) -> trim_left cut (a ++ b) = trim_left cut b.
Proof.
  induction a as [|c a IH]; intro H; [reflexivity|]. cbn [append trim_left]. rewrite (H c (or_introl eq_refl)). apply IH. intros d D. apply H. right. exact D.
Qed.
Lemma trim_left_keep cut s : (forall c r, s = String c r -> smem c cut = false) -> trim_left cut s = s.
Proof. destruct s as [|c s]; intro H; [reflexivity|]. cbn [trim_left]. rewrite (H c s eq_refl). reflexivity. Qed.
(** taking off both ends *)
Lemma trim_keep cut s : (forall c r, s = String c r -> smem c cut = false) -> (forall c r, s = (r ++ String c "")%string -> smem c cut = false) -> trim cut s = s.
Proof.
  intros F L. unfold trim. rewrite (trim_left_keep cut s F), trim_left_keep; [apply srev_involutive|].
  intros c r E. apply (L c (srev r)). apply (f_equal srev) in E. rewrite srev_involutive in E. rewrite E.
  change (String c r) with (String c "" ++ r)%string. rewrite srev_append. reflexivity.
Qed.
Lemma trim_lead cut a s : (forall c, In c (list_ascii_of_string a) -> smem c cut = true) -> trim cut (a ++ s) = trim cut s.
Proof. intro H. unfold trim. rewrite (trim_left_all cut a s H). reflexivity. Qed.
Lemma smem_one c d : smem c (String d "") = true <-> c = d.
Proof. unfold smem. cbn [sexists]. rewrite orb_false_r. apply Ascii.eqb_eq. Qed.
Lemma smem_one_not c d : c <> d -> smem c (String d "") = false.
Proof. intro N. destruct (smem c (String d "")) eqn:E; [|reflexivity]. apply smem_one in E. contradiction. Qed.
Lemma first_in c r : In c (list_ascii_of_string (String c r)).
Proof. left. reflexivity. Qed.
Lemma last_in c r : In c (list_ascii_of_string (r ++ String c "")).
Proof. rewrite chars_app. apply in_or_app. right. left. reflexivity. Qed.
Lemma trim_piece n q : ~ In ";"%char (list_ascii_of_string q) -> (forall c r, q = String c r -> ~ gap_char c) -> (forall c r, q = (r ++ String c "")%string -> ~ gap_char c) ->
  trim_query (newlines n ++ q) = q.
Proof.
  intros N F L. unfold trim_query.
  assert (A : ~ In ";"%char (list_ascii_of_string (newlines n ++ q))).
  { rewrite chars_app. intro I. apply in_app_or in I. destruct I as [I|I]; [exact (newlines_no n I)|exact (N I)]. }
  rewrite (trim_keep separator_text).
  - rewrite trim_lead by (intros c I; apply newlines_in in I; apply smem_one; exact I).
    rewrite (trim_keep (String newline "")).
    + apply trim_keep; intros c r E; apply smem_one_not; intros ->; [apply (F _ _ E)|apply (L _ _ E)]; right; reflexivity.
    + intros c r E. apply smem_one_not. intros ->. apply (F _ _ E). left. reflexivity.
    + intros c r E. apply smem_one_not. intros ->. apply (L _ _ E). left. reflexivity.
  - intros c r E. apply smem_one_not. intros ->. apply A. rewrite E. apply first_in.
  - intros c r E. apply smem_one_not. intros ->. apply A. rewrite E. apply last_in.
Qed.
(** a byte that stays and what is before it *)
Lemma trim_left_to cut a c s : smem c cut = false -> exists a', trim_left cut (a ++ String c s) = (a' ++ String c s)%string /\ (forall d, In d (list_ascii_of_string a') -> In d (list_ascii_of_string a)).
Proof.
  intro H. induction a as [|d a IH].
  - exists ""%string. split; [cbn [append trim_left]; rewrite H; reflexivity|auto].
  - cbn [append trim_left]. destruct (smem d cut).
    + destruct IH as (a' & E & I). exists a'. split; [exact E|]. intros x X. right. exact (I x X).
    + exists (String d a). split; [reflexivity|auto].
Qed.
Lemma trim_to cut a c s : smem c cut = false -> exists a' s', trim cut (a ++ String c s) = (a' ++ String c s')%string /\ (forall d, In d (list_ascii_of_string a') -> In d (list_ascii_of_string a)).
Proof.
  intro H. unfold trim. destruct (trim_left_to cut a c s H) as (a' & E & I). rewrite E.
  change (a' ++ String c s)%string with (a' ++ (String c "" ++ s))%string. rewrite !srev_append. change (srev (String c "")) with (String c "").
  rewrite sapp_assoc. cbn [append]. destruct (trim_left_to cut (srev s) c (srev a') H) as (s' & E' & _). rewrite E'.
  exists a', (srev s'). split; [|exact I]. change (String c (srev a')) with (String c "" ++ srev a')%string. rewrite !srev_append, srev_involutive, sapp_assoc. reflexivity.
Qed.
Lemma trim_to_first cut c s : smem c cut = false -> exists s', trim cut (String c s) = String c s'.
Proof.
  intro H. destruct (trim_to cut "" c s H) as (a' & s' & E & I). destruct a' as [|d a']; [exists s'; exact E|]. destruct (I d (or_introl eq_refl)).
Qed.
Lemma file_queries_of qs text : file_of qs text -> file_queries text = qs.
Proof.
  unfold file_queries. intro H. induction H as [n|n q qs text (Ne & No & F & L) H IH|n c qs text No H IH].
  - rewrite (split_none separator _ (newlines_no n)). cbn [map].
    assert (E : trim_query (newlines n) = ""%string).
    { rewrite <- (append_nil_r (newlines n)). apply trim_piece; [intros []|discriminate|]. intros c r E. destruct r; discriminate E. }
    rewrite E. reflexivity.
  - change (newlines n ++ q ++ ";" ++ text)%string with (newlines n ++ (q ++ String separator text))%string.
    rewrite <- (sapp_assoc (newlines n) q), split_at.
    + cbn [map filter]. rewrite (trim_piece n q No (fun c r E => proj1 (F c r E)) L).
      assert (negb (String.eqb q "" || has_prefix "#" q) = true) as ->; [|rewrite IH; reflexivity].
      destruct q as [|c q]; [contradiction|]. cbn [String.eqb orb has_prefix]. destruct (F c q eq_refl) as [_ C].
      destruct (Ascii.eqb_spec "#" c) as [<-|]; [contradiction|reflexivity].
    + rewrite chars_app. intro I. apply in_app_or in I. destruct I as [I|I]; [exact (newlines_no n I)|exact (No I)].
  - change (newlines n ++ "#" ++ c ++ ";" ++ text)%string with (newlines n ++ (String "#" c ++ String separator text))%string.
    rewrite <- (sapp_assoc (newlines n) (String "#" c)), split_at.
    + cbn [map filter].
      assert (P : has_prefix "#" (trim_query (newlines n ++ String "#" c)) = true).
      { unfold trim_query. destruct (trim_to separator_text (newlines n) "#" c eq_refl) as (a & s1 & E1 & I1). rewrite E1.
        rewrite trim_lead by (intros d D; apply I1, newlines_in in D; apply smem_one; exact D).
        destruct (trim_to_first (String newline "") "#" s1 eq_refl) as (s2 & E2). rewrite E2.
        destruct (trim_to_first " " "#" s2 eq_refl) as (s3 & E3). rewrite E3. reflexivity. }
      rewrite P, orb_true_r. exact IH.
    + rewrite chars_app. intro I. apply in_app_or in I. destruct I as [I|[I|I]]; [exact (newlines_no n I)|discriminate I|exact (No I)].
Qed.
Definition fine (v : verdict) : Prop := v = Passed \/ v = Skipped.
Lemma verdicts_fine entries cfg qs : successful (verdicts entries cfg qs) = true <-> Forall (fun q => fine (test_query_string entries cfg q)) qs.
Proof.
  induction qs as [|q qs IH]; [split; [constructor|reflexivity]|]. cbn [verdicts].
  assert (I : forall v, (v = Passed \/ v = Skipped) -> test_query_string entries cfg q = v ->
    (successful (verdicts entries cfg qs) = true <-> Forall (fun q => fine (test_query_string entries cfg q)) (q :: qs))).
  { intros v V E. rewrite IH. split; [intro F; constructor; [rewrite E; exact V|exact F]|intro F; inversion F; assumption]. }
  assert (N : forall v, v <> Passed -> v <> Skipped -> test_query_string entries cfg q = v -> ~ Forall (fun q => fine (test_query_string entries cfg q)) (q :: qs)).
  { intros v A B E F. inversion F as [|? ? [X|X] _]; congruence. }
  destruct (test_query_string entries cfg q) eqn:E; unfold successful in *; cbn [forallb andb].
  - apply (I Passed); auto.
  - split; [discriminate|]. intro F. destruct (N Failed ltac:(discriminate) ltac:(discriminate) eq_refl F).
  - apply (I Skipped); auto.
  - split; [discriminate|]. intro F. destruct (N Panicked ltac:(discriminate) ltac:(discriminate) eq_refl F).
Qed.

(** ** Layout *)

Lemma white_space c : white c <-> is_space c = true.
Proof.
  unfold white, is_space. rewrite existsb_exists. split.
  - intro I. exists (nat_of_ascii c). split; [exact I|apply Nat.eqb_refl].
  - intros (x & I & E). apply Nat.eqb_eq in E. rewrite E. exact I.
Qed.
Lemma squeeze_word w s : (forall c, In c (list_ascii_of_string w) -> is_space c = false) -> squeeze NoRun (w ++ s) = (w ++ squeeze NoRun s)%string.
Proof.
  induction w as [|c w IH]; intro H; [reflexivity|]. cbn [append squeeze]. rewrite (H c (or_introl eq_refl)), IH; [reflexivity|].
  intros d D. apply H. right. exact D.
Qed.
Lemma squeeze_longer g c s : (forall c, In c (list_ascii_of_string g) -> is_space c = true) -> is_space c = false ->
  squeeze Longer (g ++ String c s) = String " " (squeeze NoRun (String c s)).
Proof.
  intros H N. induction g as [|d g IH]; [cbn [append squeeze]; rewrite N; reflexivity|]. cbn [append squeeze]. rewrite (H d (or_introl eq_refl)). apply IH.
  intros e E. apply H. right. exact E.
Qed.
Lemma lower_blank : newline <> " "%char /\ tabulator <> " "%char.
Proof. split; discriminate. Qed.
Definition blanked (s : string) : string := replace_byte tabulator " " (replace_byte newline " " s).
Lemma blanked_app a b : blanked (a ++ b) = (blanked a ++ blanked b)%string.
Proof. unfold blanked, replace_byte. induction a as [|c a IH]; [reflexivity|]. cbn [append smap]. f_equal. exact IH. Qed.
Lemma blanked_word w : (forall c, In c (list_ascii_of_string w) -> is_space c = false) -> blanked w = w.
Proof.
  unfold blanked, replace_byte. induction w as [|c w IH]; intro H; [reflexivity|]. cbn [smap]. rewrite IH by (intros d D; apply H; right; exact D). f_equal.
  specialize (H c (or_introl eq_refl)). destruct (Ascii.eqb_spec c newline) as [->|]; [discriminate H|]. destruct (Ascii.eqb_spec c tabulator) as [->|]; [discriminate H|reflexivity].
Qed.
Lemma squeeze_gap g c s : spacing g -> is_space c = false -> blanked (squeeze NoRun (g ++ String c s)) = String " " (blanked (squeeze NoRun (String c s))).
Proof.
  intros [A L] N. assert (A' : forall c, In c (list_ascii_of_string g) -> is_space c = true) by (intros d D; apply white_space, A, D).
  destruct g as [|d [|e g]].
  - cbn [String.length] in L. destruct L as [L|[L|[L|[L|[]]]]]; [lia|discriminate L..].
  - cbn [append squeeze]. rewrite (A' d (or_introl eq_refl)). cbn [append squeeze]. rewrite N. destruct L as [L|L]; [cbn in L; lia|].
    change (String d (String c (squeeze NoRun s))) with (String d "" ++ String c (squeeze NoRun s))%string. rewrite blanked_app.
    destruct L as [L|[L|[L|[]]]]; rewrite <- L; reflexivity.
  - cbn [append]. change (squeeze NoRun (String d (String e (g ++ String c s)))) with (if is_space d then squeeze (OneByte d) (String e (g ++ String c s)) else String d (squeeze NoRun (String e (g ++ String c s)))).
    rewrite (A' d (or_introl eq_refl)). change (squeeze (OneByte d) (String e (g ++ String c s))) with (if is_space e then squeeze Longer (g ++ String c s) else String d (String e (squeeze NoRun (g ++ String c s)))).
    rewrite (A' e (or_intror (or_introl eq_refl))), (squeeze_longer g c s); [reflexivity| |exact N]. intros x X. apply A'. right. right. exact X.
Qed.
Lemma word_not w : one_word w -> forall c, In c (list_ascii_of_string w) -> is_space c = false.
Proof. intros [_ H] c I. destruct (is_space c) eqn:E; [|reflexivity]. apply white_space in E. destruct (proj1 (H c I) E). Qed.
Lemma laid_first ws t : laid_out ws t -> exists c r, t = String c r /\ is_space c = false /\ c <> ";"%char.
Proof.
  intro L. assert (W : forall w s, one_word w -> exists c r, (w ++ s)%string = String c r /\ is_space c = false /\ c <> ";"%char).
  { intros w s O. pose proof (word_not w O) as N. destruct O as [E H]. destruct w as [|c r]; [contradiction|]. exists c, (r ++ s)%string.
    split; [reflexivity|]. split; [apply N; left; reflexivity|apply H; left; reflexivity]. }
  destruct L as [w O|w g ws t O _ _]; [|exact (W w _ O)]. rewrite <- (append_nil_r w). exact (W w ""%string O).
Qed.
Lemma laid_squeezed ws t : laid_out ws t -> blanked (squeeze NoRun t) = join " " ws.
Proof.
  intro L. induction L as [w O|w g ws t O G L IH].
  - rewrite <- (append_nil_r w) at 1. rewrite squeeze_word by exact (word_not w O). cbn [squeeze]. rewrite append_nil_r. exact (blanked_word w (word_not w O)).
  - rewrite squeeze_word, blanked_app, (blanked_word w (word_not w O)) by exact (word_not w O). destruct (laid_first ws t L) as (c & r & -> & N & _).
    rewrite (squeeze_gap g c r G N), IH. destruct L; reflexivity.
Qed.
Lemma laid_ends ws t : laid_out ws t -> forall c r, t = (r ++ String c "")%string -> is_space c = false /\ c <> ";"%char.
Proof.
  intro L. induction L as [w O|w g ws t O G L IH]; intros c r E.
  - assert (I : In c (list_ascii_of_string w)) by (rewrite E, chars_app; apply in_or_app; right; left; reflexivity). split; [exact (word_not w O c I)|apply O, I].
  - destruct (laid_first ws t L) as (a & b & T & _). assert (exists r', t = (r' ++ String c "")%string) as (r' & E'); [|exact (IH c r' E')].
    apply (f_equal srev) in E. rewrite !srev_append in E. change (srev (String c "")) with (String c "") in E.
    destruct (srev t) as [|x y] eqn:X; [apply (f_equal srev) in X; rewrite srev_involutive in X; subst t; discriminate|]. cbn [append] in E. injection E as -> _.
    exists (srev y). rewrite <- (srev_involutive t), X. change (String c y) with (String c "" ++ y)%string. rewrite srev_append. reflexivity.
Qed.
Lemma laid_trimmed ws t : laid_out ws t -> trim_query t = t.
Proof.
  intro L. destruct (laid_first ws t L) as (c & r & T & N & S). pose proof (laid_ends ws t L) as E.
  assert (K : forall d, d = ";"%char \/ is_space d = true -> trim (String d "") t = t).
  { intros d D. apply trim_keep.
    - intros x y X. rewrite T in X. injection X as <- _. apply smem_one_not. intros ->. destruct D as [D|D]; [contradiction|congruence].
    - intros x y X. destruct (E x y X) as [E1 E2]. apply smem_one_not. intros ->. destruct D as [D|D]; [contradiction|congruence]. }
  unfold trim_query. unfold separator_text. rewrite !K; [reflexivity|..]; auto.
Qed.
Definition unspaced (s : string) : string := replace_pair " " ")" ")" (replace_pair "(" " " "(" s).
Lemma laid_formal ws t : laid_out ws t -> formalize_query t = unspaced (join " " ws).
Proof. intro L. rewrite <- (laid_squeezed ws t L). unfold formalize_query. rewrite (laid_trimmed ws t L). reflexivity. Qed.
Lemma lower_same c d : In d ["("; ")"; " "]%char -> Ascii.eqb (lower_ascii c) d = Ascii.eqb c d.
Proof. intro I. destruct c as [[] [] [] [] [] [] [] []]; cbn [In] in I; repeat (destruct I as [<-|I]; [reflexivity|]); contradiction. Qed.
Lemma replace_pair_lower a b c : In a ["("; ")"; " "]%char -> In b ["("; ")"; " "]%char -> In c ["("; ")"; " "]%char ->
  forall n s, String.length s <= n -> to_lower (replace_pair a b c s) = replace_pair a b c (to_lower s).
Proof.
  intros A B C. induction n as [|n IH]; intros [|x [|y s]] L; try reflexivity; cbn [String.length] in L; try lia.
  assert (LC : lower_ascii c = c) by (cbn [In] in C; repeat (destruct C as [<-|C]; [reflexivity|]); contradiction).
  change (to_lower (String x (String y s))) with (String (lower_ascii x) (String (lower_ascii y) (to_lower s))).
  rewrite !replace_pair_two, (lower_same x a A), (lower_same y b B). destruct (Ascii.eqb x a && Ascii.eqb y b).
  - change (to_lower (String c (replace_pair a b c s))) with (String (lower_ascii c) (to_lower (replace_pair a b c s))). rewrite LC, IH by lia. reflexivity.
  - change (to_lower (String x (replace_pair a b c (String y s)))) with (String (lower_ascii x) (to_lower (replace_pair a b c (String y s)))).
    rewrite IH by (cbn [String.length]; lia). reflexivity.
Qed.
Lemma unspaced_lower s : to_lower (unspaced s) = unspaced (to_lower s).
Proof. unfold unspaced. rewrite !(fun a b c A B C s => replace_pair_lower a b c A B C _ s (le_n _)) by (cbn; tauto). reflexivity. Qed.
Lemma lower_app a b : to_lower (a ++ b) = (to_lower a ++ to_lower b)%string.
Proof. unfold to_lower. induction a as [|c a IH]; [reflexivity|]. cbn [append smap]. f_equal. exact IH. Qed.
Lemma lower_join ws : to_lower (join " " ws) = join " " (map to_lower ws).
Proof.
  induction ws as [|w ws IH]; [reflexivity|]. destruct ws as [|v ws]; [reflexivity|].
  change (join " " (w :: v :: ws)) with (w ++ " " ++ join " " (v :: ws))%string. rewrite !lower_app, IH. reflexivity.
Qed.
Lemma laid_passes entries cfg q s p ws vs : parse entries q = Ok [s] -> stmt_string s = Ok p ->
  laid_out ws q -> laid_out vs p -> map to_lower ws = map to_lower vs -> test_query_string entries cfg q = Passed.
Proof.
  intros P Q L M E. unfold test_query_string. rewrite P, Q. cbn zeta.
  assert (equal_fold (formalize_query q) (formalize_query p) = true) as ->; [|destruct (cf_mode cfg); reflexivity].
  unfold equal_fold. rewrite (laid_formal ws q L), (laid_formal vs p M), !unspaced_lower, !lower_join, E. apply String.eqb_refl.
Qed.
