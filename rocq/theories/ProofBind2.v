(** Bound strings and what they are read as. *)
From Coq Require Import Lia Permutation.
From Verif Require Import GoBase FactsBase ModelNum ModelQuery ModelEbnf ModelLex ModelVisitor ModelBind SpecQuery SpecBind SpecRound SpecSpace
  ProofNum ProofFn ProofQuery ProofLex ProofSpace ProofBind ProofInsert ProofWhere ProofRound3.

Local Notation seq := List.seq.

(** ** One token *)

Lemma close_text v b : paired v -> (forall r, b <> String "'" r) -> close_quote "'" (v ++ String "'" b) = Some (S (String.length v)).
Proof.
  intros P B. induction P as [|r P IH|c r N P IH]; cbn [append].
  - cbn [close_quote]. rewrite Ascii.eqb_refl. destruct b as [|d b]; [reflexivity|].
    destruct (Ascii.eqb d "'") eqn:E; [|reflexivity]. apply Ascii.eqb_eq in E. subst d. destruct (B b eq_refl).
  - cbn [close_quote]. rewrite !Ascii.eqb_refl, IH. reflexivity.
  - cbn [close_quote]. destruct (Ascii.eqb c "'") eqn:E; [apply Ascii.eqb_eq in E; contradiction|]. rewrite IH. reflexivity.
Qed.
Lemma close_paired n : forall v, String.length v <= n -> close_quote "'" (v ++ "'") = Some (S (String.length v)) -> paired v.
Proof.
  induction n as [|n IH]; intros [|c v] L E; try apply pa_end; cbn [String.length] in L; [lia|].
  cbn [append close_quote] in E. destruct (Ascii.eqb c "'") eqn:Q.
  - apply Ascii.eqb_eq in Q. subst c. destruct v as [|d v].
    + cbn in E. discriminate E.
    + cbn [append] in E. destruct (Ascii.eqb d "'") eqn:D; [|discriminate E]. apply Ascii.eqb_eq in D. subst d.
      destruct (close_quote "'" (v ++ "'")) as [m|] eqn:M; [|discriminate E]. cbn [option_map String.length] in E.
      apply (pa_two v). apply IH; [cbn [String.length] in L; lia|]. rewrite M. f_equal. injection E as E. lia.
  - apply Ascii.eqb_neq in Q. destruct (close_quote "'" (v ++ "'")) as [m|] eqn:M; [|discriminate E]. cbn [option_map String.length] in E.
    apply pa_char; [exact Q|]. apply IH; [lia|]. rewrite M. f_equal. injection E as E. lia.
Qed.
Lemma close_short q s : forall m, close_quote q s = Some m -> m <= String.length s.
Proof.
  assert (H : forall n s m, String.length s <= n -> close_quote q s = Some m -> m <= String.length s); [|intro m; exact (H _ s m (le_n _))].
  induction n as [|n IH]; intros [|c t] m L E; try discriminate E; cbn [String.length] in L |- *; [lia|].
  cbn [close_quote] in E. destruct (Ascii.eqb c q).
  - destruct t as [|d t]; [injection E as <-; cbn; lia|]. destruct (Ascii.eqb d q); [|injection E as <-; lia].
    destruct (close_quote q t) as [k|] eqn:K; injection E as <-; cbn [String.length] in L |- *; [|lia]. apply IH in K; lia.
  - destruct (close_quote q t) as [k|] eqn:K; [|discriminate E]. injection E as <-. apply IH in K; lia.
Qed.
Lemma quoted_kind r k n : next_token (String "'" r) = (k, n) -> 2 <= n -> k = "STRING_LITERAL"%string /\ n = quoted "'" (String "'" r).
Proof.
  intros T L. destruct (rule_hit "'" r) as (m & I & E). rewrite T in I, E. cbn [fst snd] in I, E. clear T. subst n.
  apply rules_split in I. destruct I as [(l & I & ->)|I].
  - rewrite (no_literal "'" r k l (quote_no_literal "'" (or_intror (or_intror eq_refl))) I) in L. lia.
  - each I; try (exfalso; match type of L with 2 <= ?x => change x with 0 in L end; lia); [split; reflexivity|].
    exfalso. change (m_any (String "'" r)) with 1 in L. lia.
Qed.
Lemma lex_text v b : paired v -> (forall r, b <> String "'" r) ->
  lex (String "'" (v ++ String "'" b)) = mkTok "STRING_LITERAL" ("'" ++ v ++ "'") :: lex b.
Proof.
  intros N B. assert (Q : quoted "'" (String "'" (v ++ String "'" b)) = S (S (String.length v))).
  { unfold quoted. rewrite Ascii.eqb_refl, (close_text v b N B). reflexivity. }
  pose proof (rule_le (String "'" (v ++ String "'" b)) "STRING_LITERAL" m_string (open_in _ _ ltac:(cbn [open_rules In]; do 5 right; left; reflexivity))) as L.
  unfold m_string in L. rewrite Q in L. destruct (next_token (String "'" (v ++ String "'" b))) as [k n] eqn:T. cbn [snd] in L.
  destruct (quoted_kind _ k n T ltac:(lia)) as [-> E]. rewrite Q in E. subst n. rewrite (lex_first _ _ _ _ T).
  cbn [stake sdrop append]. f_equal.
  - f_equal. f_equal. clear. induction v as [|c v IH]; [reflexivity|]. cbn [append String.length stake]. f_equal. exact IH.
  - f_equal. clear. induction v as [|c v IH]; [reflexivity|exact IH].
Qed.
Lemma bound_token a d v b : part a -> sep d = true -> paired v -> (forall c r, b = String c r -> sep c = true) ->
  lex (a ++ String d ("'" ++ v ++ "'" ++ b)) = lex a ++ lex (String d "") ++ [mkTok "STRING_LITERAL" ("'" ++ v ++ "'")] ++ lex b.
Proof.
  intros F D N B. rewrite (lex_more d _ D a F). f_equal. destruct (sep_one d ("'" ++ v ++ "'" ++ b) D) as (k & E & E' & _).
  rewrite E, E'. cbn [app]. f_equal. apply (lex_text v b N). intros r ->. specialize (B _ _ eq_refl). discriminate B.
Qed.

Lemma stake_all n s : stake n s = s -> String.length s <= n.
Proof.
  revert s. induction n as [|n IH]; intros [|c s] E; cbn [String.length]; try lia; [discriminate E|]. cbn [stake] in E. injection E as E. apply IH in E. lia.
Qed.
Lemma text_token v : lex ("'" ++ v ++ "'") = [mkTok "STRING_LITERAL" ("'" ++ v ++ "'")] <-> paired v.
Proof.
  split; intro H.
  - cbn [append] in H |- *. destruct (next_token (String "'" (v ++ "'"))) as [k n] eqn:T. rewrite (lex_first _ _ _ _ T) in H.
    injection H as -> E _. apply stake_all in E. assert (L : String.length (v ++ "'") = S (String.length v)).
    { clear. induction v as [|c v IH]; [reflexivity|]. cbn [append String.length]. rewrite IH. reflexivity. }
    cbn [String.length] in E. rewrite L in E. destruct (quoted_kind _ _ n T ltac:(lia)) as [_ Q]. unfold quoted in Q. rewrite Ascii.eqb_refl in Q.
    destruct (close_quote "'" (v ++ "'")) as [m|] eqn:M; [|lia]. pose proof (close_short _ _ _ M) as S. rewrite L in S.
    apply (close_paired (String.length v) v (le_n _)). rewrite M. f_equal. lia.
  - apply (lex_text v "" H). discriminate.
Qed.

(** ** An INSERT with a sign for each value *)

Definition closing (n k : nat) : string := if S k =? n then ")" else ", ".
Definition gaps (n : nat) : list (nat * string) := map (fun k => (k, closing n k)) (seq 0 n).
Lemma gaps_length n : length (gaps n) = n.
Proof. unfold gaps. rewrite map_length. apply seq_length. Qed.
Lemma gaps_fst n : map fst (gaps n) = seq 0 (length (gaps n)).
Proof. rewrite gaps_length. unfold gaps. rewrite map_map. cbn [fst]. apply map_id. Qed.
Lemma gaps_spread f n x : 0 < n -> spread f x (gaps n) = (x ++ join ", " (map f (seq 0 n)) ++ ")")%string.
Proof.
  intro P. unfold gaps. assert (H : forall m i x, i + S m = n -> spread f x (map (fun k => (k, closing n k)) (seq i (S m)))
      = (x ++ join ", " (map f (seq i (S m))) ++ ")")%string).
  { induction m as [|m IH]; intros i x' E.
    - cbn [seq map spread join]. unfold closing. replace (S i =? n) with true by (symmetry; apply Nat.eqb_eq; lia). reflexivity.
    - cbn [seq] in IH |- *. cbn [map spread]. specialize (IH (S i) (closing n i) ltac:(lia)). cbn [map spread] in IH. rewrite IH.
      unfold closing. replace (S i =? n) with false by (symmetry; apply Nat.eqb_neq; lia). cbn [join map]. rewrite !sapp_assoc. reflexivity. }
  destruct n as [|n]; [lia|]. exact (H n 0 x eq_refl).
Qed.
Lemma gaps_free cs n : free cs ")" -> free cs ", " -> Forall (fun h => free cs (snd h)) (gaps n).
Proof.
  intros A B. apply Forall_forall. intros h I. unfold gaps in I. apply in_map_iff in I. destruct I as (k & <- & _). cbn [snd].
  unfold closing. destruct (S k =? n); assumption.
Qed.
Lemma map_value vals : map (value vals) (seq 0 (length vals)) = vals.
Proof.
  apply (nth_ext _ _ ""%string ""%string); [rewrite map_length, seq_length; reflexivity|]. intros n L. rewrite map_length, seq_length in L.
  rewrite (nth_indep _ ""%string (value vals 0)) by (rewrite map_length, seq_length; exact L).
  rewrite map_nth, seq_nth by exact L. reflexivity.
Qed.

(** the characters of names and literals *)
Definition odd (c : ascii) : Prop := c = "?"%char \/ c = "$"%char.
Lemma free_chars (P : ascii -> Prop) cs s : (forall c, In c cs -> ~ P c) -> chars P s -> free cs s.
Proof. intros N C c I J. exact (N c I (C c J)). Qed.
Lemma odd_letter c : In c ["?"%char; "$"%char] -> ~ (letter c \/ digit c).
Proof. intros [<- |[<- |[]]]; unfold letter, digit; vm_compute; intuition (try lia; discriminate). Qed.
Definition signs : list ascii := ["?"%char; "$"%char].
Lemma name_free n : name n -> free signs n.
Proof.
  intros [(c & r & -> & L & C) _]. apply (free_chars (fun c => letter c \/ digit c)); [exact odd_letter|].
  intros d [<- |I]; [left; exact L|exact (C d I)].
Qed.
Lemma join_free cs sep l : free cs sep -> Forall (free cs) l -> free cs (join sep l).
Proof.
  intros S F. induction F as [|x l X F IH]; [intros c _ []|]. destruct l as [|y l]; [exact X|].
  change (join sep (x :: y :: l)) with (x ++ sep ++ join sep (y :: l))%string. apply free_app. split; [exact X|]. apply free_app. split; [exact S|exact IH].
Qed.
Lemma const_free cs s : forallb (fun c => negb (existsb (Ascii.eqb c) (list_ascii_of_string s))) cs = true -> free cs s.
Proof.
  intros H c I J. rewrite forallb_forall in H. specialize (H c I).
  assert (existsb (Ascii.eqb c) (list_ascii_of_string s) = true) as E by (apply existsb_exists; exists c; split; [exact J|apply Ascii.eqb_refl]).
  rewrite E in H. discriminate.
Qed.
(** none of the characters is a digit *)
Definition digitless (cs : list ascii) : Prop := forall c, In c cs -> ~ is_digit c.
Lemma show_N_free cs n : digitless cs -> free cs (show_N n).
Proof. intros D c I. apply digit_question. exact (D c I). Qed.
Lemma pad_free cs w n : digitless cs -> free cs (pad w n).
Proof.
  intro D. unfold pad. apply free_app. split; [|apply show_N_free, D]. generalize (w - String.length (show_N n)). intro k.
  assert (Z : free cs "0") by (intros c I [<- |[]]; apply (D _ I); split; vm_compute; discriminate).
  induction k as [|k IH]; [intros c _ []|]. destruct k as [|k]; [exact Z|].
  change (String.concat "" (repeat "0"%string (S (S k)))) with ("0" ++ "" ++ String.concat "" (repeat "0"%string (S k)))%string.
  apply free_app. split; [exact Z|exact IH].
Qed.
Lemma time_free cs y mo d h mi s ns : digitless cs -> free cs "- :." -> free cs (time_text y mo d h mi s ns).
Proof.
  intros D F. assert (G : forall c, In c ["-"; " "; ":"; "."]%char -> free cs (String c "")).
  { intros c I x J [<- |[]]. exact (F _ J I). }
  unfold time_text. repeat (apply free_app; split; try (apply pad_free, D); try (apply G; cbn; tauto)).
  destruct (ns =? 0)%N; [intros c _ []|]. apply free_app. split; [apply G; cbn; tauto|apply pad_free, D].
Qed.
Lemma some_signs cs : forallb (fun c => negb ((48 <=? N_of_ascii c)%N && (N_of_ascii c <=? 57)%N)) cs = true -> digitless cs.
Proof.
  intros H c I [A B]. rewrite forallb_forall in H. specialize (H c I). apply N.leb_le in A, B. rewrite A, B in H. discriminate.
Qed.
Lemma time_plain y mo d h mi s ns : plain_text (time_text y mo d h mi s ns).
Proof.
  assert (F : free ["'"%char; dquote_char] (time_text y mo d h mi s ns)) by (apply time_free; [apply some_signs; reflexivity|apply const_free; reflexivity]).
  apply quoteless_plain. intros c I. split; intros ->; [exact (F _ (or_introl eq_refl) I)|exact (F _ (or_intror (or_introl eq_refl)) I)].
Qed.
Lemma digits_show n : SpecRound.digits (show_N n).
Proof.
  destruct (show_N_digits n) as [A B]. split; [exact A|]. intros c I. pose proof (forall_in _ _ _ B I) as [C D]. unfold digit.
  unfold nat_of_ascii. lia.
Qed.
Lemma stands_literal p l : stands p l -> literal_ok l /\ param_string p = Ok (literal_string l).
Proof.
  intros []; split; try reflexivity.
  - apply lo_text. assumption.
  - destruct z as [|z|z].
    + apply lo_number. left. apply (digits_show 0).
    + apply lo_number. left. apply (digits_show (Npos z)).
    + apply (lo_negative (show_N (Npos z))). left. apply digits_show.
  - apply lo_text. apply time_plain.
  - apply lo_number. assumption.
  - apply lo_word. assumption.
Qed.
Lemma digits_free n : SpecRound.digits n -> free signs n.
Proof. intros [_ C]. apply (free_chars digit); [|exact C]. intros c I D. exact (odd_letter c I (or_intror D)). Qed.
Lemma word_free w : literal_word w -> free signs w.
Proof.
  intros W c I J. assert (K : forall a, In (upper_ascii a) (list_ascii_of_string (to_upper w)) \/ ~ In a (list_ascii_of_string w)).
  { clear. intro a. unfold to_upper. induction w as [|d w IH]; [right; intros []|]. cbn [smap list_ascii_of_string In].
    destruct (ascii_dec d a) as [-> |N]; [left; left; reflexivity|]. destruct IH as [IH|IH]; [left; right; exact IH|right; intros [E|E]; [exact (N E)|exact (IH E)]]. }
  destruct (K c) as [L|L]; [|exact (L J)]. replace (upper_ascii c) with c in L by (destruct I as [<- |[<- |[]]]; reflexivity).
  clear - W L I. unfold literal_word in W. remember (to_upper w) as u. clear Hequ.
  assert (F : forallb (fun u => forallb (fun c => negb (existsb (Ascii.eqb c) (list_ascii_of_string u))) signs)
    ["NULL"; "TRUE"; "FALSE"; "CURRENT_TIME"; "CURRENT_DATE"; "CURRENT_TIMESTAMP"]%string = true) by reflexivity.
  rewrite forallb_forall in F. exact (const_free signs u (F u W) c I L).
Qed.
(** only a text can hold one of the signs *)
Lemma stands_free cs p l : incl cs signs -> stands p l -> (forall s, p = BText s -> free cs s) -> free cs (literal_string l).
Proof.
  intros J S H. assert (W : forall s, free signs s -> free cs s) by (intros s F c I; exact (F c (J c I))).
  destruct S; unfold literal_string; cbn [l_type l_value show_value].
  - unfold ModelUtil.escape_string. apply free_app. split; [apply W, const_free; reflexivity|]. apply free_app. split; [exact (H s eq_refl)|apply W, const_free; reflexivity].
  - apply W. destruct z as [|z|z]; [apply show_N_free, some_signs; reflexivity|apply show_N_free, some_signs; reflexivity|].
    apply free_app. split; [apply const_free; reflexivity|apply show_N_free, some_signs; reflexivity].
  - apply W. unfold ModelUtil.escape_string. apply free_app. split; [apply const_free; reflexivity|]. apply free_app.
    split; [apply time_free; [apply some_signs; reflexivity|apply const_free; reflexivity]|apply const_free; reflexivity].
  - apply W. destruct H0 as [D|(a & b & -> & A & B)]; [apply digits_free, D|]. apply free_app. split; [apply digits_free, A|].
    apply free_app. split; [apply const_free; reflexivity|apply digits_free, B].
  - apply W, word_free. assumption.
Qed.
Lemma stands_all cs params lits : incl cs signs -> Forall2 stands params lits -> (forall s, In (BText s) params -> free cs s) ->
  rendered params (map literal_string lits) /\ Forall literal_ok lits /\ Forall (free cs) (map literal_string lits) /\ length params = length lits.
Proof.
  intros J S. induction S as [|p l params lits P S IH]; intro H; [repeat split; constructor|].
  destruct IH as (A & B & C & D); [intros s I; apply H; right; exact I|]. destruct (stands_literal p l P) as [Q R].
  split; [constructor; assumption|]. split; [constructor; assumption|]. split; [|cbn [length]; f_equal; exact D].
  constructor; [|exact C]. apply (stands_free cs p l J P). intros s ->. apply H. left. reflexivity.
Qed.

Lemma map_const {A B} (b : B) (l : list A) : map (fun _ => b) l = map (fun _ => b) (seq 0 (length l)).
Proof. assert (H : forall n (l : list A), map (fun _ => b) l = map (fun _ => b) (seq n (length l))); [|exact (H 0 l)]. intros n l'. revert n. induction l'; intro n; cbn; [reflexivity|]. f_equal. apply IHl'. Qed.
Definition head_text (t : string) (cols : list string) : string := ("INSERT INTO " ++ t ++ " (" ++ join ", " cols ++ ") VALUES (")%string.
Lemma head_free t cols : name t -> some name cols -> free signs (head_text t cols).
Proof.
  intros N [_ C]. unfold head_text. repeat (apply free_app; split); try (apply const_free; reflexivity); [exact (name_free t N)|].
  apply join_free; [apply const_free; reflexivity|]. eapply Forall_impl; [|exact C]. exact name_free.
Qed.
Lemma insert_values entries t cols lits : name t -> some name cols -> some literal_ok lits ->
  parse entries (spread (value (map literal_string lits)) (head_text t cols) (gaps (length lits)))
  = Ok [SInsert (new_table t) [map (fun p => new_value_column (fst p) (snd p)) (combine cols lits)]].
Proof.
  intros N C L. rewrite gaps_spread by (destruct L as [L _]; destruct lits; [contradiction|cbn [length]; lia]).
  rewrite <- (map_length literal_string lits), map_value.
  assert (R : some (some literal_ok) [lits]) by (split; [discriminate|constructor; [exact L|constructor]]).
  pose proof (insert_bare entries t cols [lits] (or_introl N) (conj (proj1 C) (Forall_impl _ name_any (proj2 C))) R) as H. clear R L N C. cbn [map join] in H.
  match type of H with parse _ ?a = ?r => match goal with |- parse _ ?b = _ => replace b with a; [exact H|] end end.
  clear H. unfold head_text. generalize (join ", " cols), (join ", " (map literal_string lits)). intros. rewrite !sapp_assoc. reflexivity.
Qed.
Lemma head_some t cols : head_text t cols <> ""%string.
Proof. discriminate. Qed.
Lemma bound_insert f cs t cols params lits entries : incl cs signs -> name t -> some name cols -> Forall2 stands params lits -> params <> [] ->
  (forall s, In (BText s) params -> free cs s) ->
  (forall x holes vals, x <> ""%string -> map fst holes = seq 0 (length holes) -> clear_of cs x holes vals -> rendered params vals ->
     length params = length holes -> bound_text (spread f x holes) params = Ok (spread (value vals) x holes)) ->
  bound_statements entries ("INSERT INTO " ++ t ++ " (" ++ join ", " cols ++ ") VALUES (" ++ join ", " (map f (seq 0 (length params))) ++ ")") params
  = Ok [SInsert (new_table t) [map (fun p => new_value_column (fst p) (snd p)) (combine cols lits)]].
Proof.
  intros J N C S P H B. destruct (stands_all cs params lits J S H) as (R & O & F & L).
  assert (W : forall s, free signs s -> free cs s) by (intros s G c I; exact (G c (J c I))).
  specialize (B (head_text t cols) (gaps (length params)) (map literal_string lits) (head_some t cols) (gaps_fst _)).
  rewrite gaps_length in B. specialize (B ltac:(split; [exact (W _ (head_free t cols N C))|split;
    [apply gaps_free; apply W, const_free; reflexivity|exact F]]) R eq_refl).
  rewrite gaps_spread in B by (destruct params; [contradiction|cbn [length]; lia]).
  match goal with |- bound_statements _ ?q _ = _ => replace q with (head_text t cols ++ join ", " (map f (seq 0 (length params))) ++ ")")%string
    by (unfold head_text; rewrite !sapp_assoc; reflexivity) end.
  unfold bound_statements. rewrite B. cbn [rbind]. rewrite L. apply insert_values; [exact N|exact C|].
  split; [|exact O]. destruct lits; [destruct params; [contradiction|discriminate L]|discriminate].
Qed.
Lemma insert_question entries t cols params lits : name t -> some name cols -> Forall2 stands params lits -> params <> [] ->
  (forall s, In (BText s) params -> free ["?"%char] s) ->
  bound_statements entries ("INSERT INTO " ++ t ++ " (" ++ join ", " cols ++ ") VALUES (" ++ join ", " (map (fun _ => "?") params) ++ ")") params
  = Ok [SInsert (new_table t) [map (fun p => new_value_column (fst p) (snd p)) (combine cols lits)]].
Proof.
  intros N C S P H. rewrite (map_const "?"%string params).
  apply (bound_insert question ["?"%char]); try assumption; [intros c [<- |[]]; left; reflexivity|].
  intros x holes vals X K D R L. exact (question_text x holes params vals X K D R L).
Qed.
Lemma insert_dollar entries t cols params lits : name t -> some name cols -> Forall2 stands params lits -> params <> [] ->
  (forall s, In (BText s) params -> free ["?"%char; "$"%char] s) ->
  bound_statements entries ("INSERT INTO " ++ t ++ " (" ++ join ", " cols ++ ") VALUES (" ++ join ", " (map dollar (seq 0 (length params))) ++ ")") params
  = Ok [SInsert (new_table t) [map (fun p => new_value_column (fst p) (snd p)) (combine cols lits)]].
Proof.
  intros N C S P H. apply (bound_insert dollar signs); try assumption; [intros c I; exact I|].
  intros x holes vals X K D R L. exact (dollar_text x holes params vals X D (or_introl K) R L).
Qed.

(** ** Any statement *)

Lemma bound_supported entries s q : Permutation entries data_type_strings -> supported s -> stmt_string s = Ok q -> 
  forall text params, bound_text text params = Ok q -> bound_statements entries text params = Ok [s].
Proof.
  intros P S E text params B. destruct (supported_parse entries s P S) as (q' & E' & H). rewrite E in E'. injection E' as <-.
  unfold bound_statements. rewrite B. exact H.
Qed.
Lemma question_supported entries s x holes params vals : Permutation entries data_type_strings -> supported s ->
  stmt_string s = Ok (spread (value vals) x holes) -> x <> ""%string -> map fst holes = seq 0 (length holes) ->
  clear_of ["?"%char] x holes vals -> rendered params vals -> length params = length holes ->
  bound_statements entries (spread question x holes) params = Ok [s].
Proof. intros P S E X K C R L. apply (bound_supported entries s _ P S E). exact (question_text x holes params vals X K C R L). Qed.
Lemma dollar_supported entries s x holes params vals : Permutation entries data_type_strings -> supported s ->
  stmt_string s = Ok (spread (value vals) x holes) -> x <> ""%string ->
  (map fst holes = seq 0 (length holes) \/ Permutation (map fst holes) (seq 0 (length holes)) /\ length holes <= 9) ->
  clear_of ["?"%char; "$"%char] x holes vals -> rendered params vals -> length params = length holes ->
  bound_statements entries (spread dollar x holes) params = Ok [s].
Proof. intros P S E X K C R L. apply (bound_supported entries s _ P S E). exact (dollar_text x holes params vals X C K R L). Qed.
