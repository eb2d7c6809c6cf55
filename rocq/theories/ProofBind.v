(** Bound parameters are put in their places. *)
From Coq Require Import Lia Permutation.
From Verif Require Import GoBase FactsBase ModelNum ModelBind SpecBind SpecQuery ProofNum ProofFn ProofQuery.

Definition p_in (c : ascii) (s : string) : Prop := In c (list_ascii_of_string s).
Lemma chars_app a b : list_ascii_of_string (a ++ b) = list_ascii_of_string a ++ list_ascii_of_string b.
Proof. induction a; cbn; [reflexivity|]. f_equal. assumption. Qed.
Lemma free_app cs a b : free cs (a ++ b) <-> free cs a /\ free cs b.
Proof.
  unfold free. rewrite chars_app. split.
  - intro H. split; intros c I J; apply (H c I), in_or_app; auto.
  - intros [A B] c I J. apply in_app_or in J. destruct J; [exact (A c I H)|exact (B c I H)].
Qed.
Lemma free_one c cs s : free cs s -> In c cs -> ~ p_in c s.
Proof. intros F I. exact (F c I). Qed.

(** ** Where a text is found first *)

Definition skips (p s : string) : Prop := forall a c b rest, s = (a ++ String c b)%string -> has_prefix p (String c b ++ rest) = false.
Lemma skips_nil p : skips p "".
Proof. intros [|] c b rest E; discriminate. Qed.
Lemma skips_tail p c s : skips p (String c s) -> skips p s.
Proof. intros H a d b rest E. apply (H (String c a) d b rest). rewrite E. reflexivity. Qed.
Lemma skips_app p a b : skips p a -> skips p b -> skips p (a ++ b).
Proof.
  induction a as [|c a IH]; intros A B; [exact B|]. intros [|c' a'] d x rest E.
  - cbn [append] in E. injection E as <- <-. rewrite <- (sapp_assoc (String c a) b rest : _ = (String c (a ++ b) ++ rest)%string) || idtac.
    change (String c (a ++ b) ++ rest)%string with ((String c a ++ b) ++ rest)%string. rewrite sapp_assoc.
    exact (A "" c a (b ++ rest) eq_refl)%string.
  - cbn [append] in E. injection E as _ E. exact (IH (skips_tail _ _ _ A) B a' d x rest E).
Qed.
Lemma skips_free h p s : ~ p_in h s -> skips (String h p) s.
Proof.
  intros F a c b rest ->. cbn [append has_prefix]. destruct (Ascii.eqb h c) eqn:E; [|reflexivity].
  apply Ascii.eqb_eq in E. subst c. destruct F. unfold p_in. rewrite chars_app. apply in_or_app. right. left. reflexivity.
Qed.
Lemma sindex_skip p : forall a s, skips p a ->
  sindex p (a ++ s) = match sindex p s with Some n => Some (String.length a + n) | None => None end.
Proof.
  induction a as [|c a IH]; intros s H; cbn [append String.length Nat.add].
  - destruct (sindex p s); reflexivity.
  - cbn [sindex]. rewrite (H "" c a s eq_refl : has_prefix p (String c (a ++ s)) = false)%string.
    rewrite (IH s (skips_tail _ _ _ H)). destruct (sindex p s); reflexivity.
Qed.
Lemma sindex_here p s : sindex p (p ++ s) = Some 0.
Proof.
  assert (H : has_prefix p (p ++ s) = true) by (apply has_prefix_iff; exists s; reflexivity).
  destruct (p ++ s)%string; cbn [sindex]; rewrite H; reflexivity.
Qed.
Lemma sindex_none h p s : ~ p_in h s -> sindex (String h p) s = None.
Proof.
  intro F. pose proof (sindex_skip (String h p) s "" (skips_free h p s F)) as E. rewrite append_nil_r in E. exact E.
Qed.
Lemma found_none h p s : ~ p_in h s -> found (String h p) s = false.
Proof. intro F. unfold found. rewrite sindex_none by exact F. reflexivity. Qed.
Lemma stake_all a b : stake (String.length a) (a ++ b) = a.
Proof. induction a; cbn; [reflexivity|]. f_equal. assumption. Qed.
Lemma sdrop_all a p b : sdrop (String.length a + String.length p) (a ++ p ++ b) = b.
Proof. induction a as [|c a IH]; [|exact IH]. cbn [append String.length Nat.add]. induction p as [|c p IH]; [reflexivity|exact IH]. Qed.
Lemma replace_skip p v a b : skips p a -> replace1 p v (a ++ p ++ b) = (a ++ v ++ b)%string.
Proof.
  intro H. unfold replace1. rewrite (sindex_skip p a _ H), sindex_here. rewrite Nat.add_0_r, stake_all, sdrop_all. reflexivity.
Qed.
Lemma found_skip p a b : skips p a -> a <> ""%string -> found p (a ++ p ++ b) = true.
Proof.
  intros H N. unfold found. rewrite (sindex_skip p a _ H), sindex_here. destruct a; [congruence|]. reflexivity.
Qed.

(** ** Gaps *)

Lemma spread_split f x pre k y post : spread f x (pre ++ (k, y) :: post) = (spread f x pre ++ f k ++ spread f y post)%string.
Proof.
  revert x. induction pre as [|(j, z) pre IH]; intro x; [reflexivity|]. cbn [spread app]. rewrite IH, !sapp_assoc. reflexivity.
Qed.
Lemma spread_ext f g x holes : (forall k, In k (map fst holes) -> f k = g k) -> spread f x holes = spread g x holes.
Proof.
  revert x. induction holes as [|(k, y) holes IH]; intros x H; [reflexivity|]. cbn [spread].
  rewrite (H k (or_introl eq_refl)), (IH y); [reflexivity|]. intros j I. apply H. right. exact I.
Qed.
Lemma spread_skips p f x holes : skips p x -> Forall (fun h => skips p (snd h)) holes -> (forall k, In k (map fst holes) -> skips p (f k)) ->
  skips p (spread f x holes).
Proof.
  revert x. induction holes as [|(k, y) holes IH]; intros x X H F; cbn [spread]; [exact X|].
  inversion H; subst. apply skips_app; [exact X|]. apply skips_app; [apply F; left; reflexivity|].
  apply IH; [assumption|assumption|]. intros j I. apply F. right. exact I.
Qed.
Lemma spread_free h f x holes : ~ p_in h x -> Forall (fun y => ~ p_in h (snd y)) holes -> (forall k, In k (map fst holes) -> ~ p_in h (f k)) ->
  ~ p_in h (spread f x holes).
Proof.
  revert x. induction holes as [|(k, y) holes IH]; intros x X H F; cbn [spread]; [exact X|].
  inversion H; subst. unfold p_in. rewrite !chars_app. intro I. apply in_app_or in I. destruct I as [I|I]; [exact (X I)|].
  apply in_app_or in I. destruct I as [I|I]; [exact (F k (or_introl eq_refl) I)|].
  revert I. apply IH; [assumption|assumption|]. intros j J. apply F. right. exact J.
Qed.
Lemma spread_start f x holes : x <> ""%string -> spread f x holes <> ""%string.
Proof. intro N. destruct x; [congruence|]. destruct holes as [|(k, y) holes]; discriminate. Qed.
(** the k-th gap is filled *)
Lemma fill f x pre k y post v : x <> ""%string -> ~ In k (map fst pre) -> ~ In k (map fst post) -> skips (f k) (spread f x pre) ->
  found (f k) (spread f x (pre ++ (k, y) :: post)) = true
  /\ replace1 (f k) v (spread f x (pre ++ (k, y) :: post)) = spread (fun j => if j =? k then v else f j) x (pre ++ (k, y) :: post).
Proof.
  intros X A B S. rewrite !spread_split. split; [apply found_skip; [exact S|apply spread_start, X]|].
  rewrite replace_skip by exact S. rewrite Nat.eqb_refl. f_equal; [|f_equal]; apply spread_ext; intros j I.
  - destruct (Nat.eqb_spec j k) as [-> |]; [contradiction|reflexivity].
  - destruct (Nat.eqb_spec j k) as [-> |]; [contradiction|reflexivity].
Qed.
Lemma split_at (i : nat) (holes : list (nat * string)) : In i (map fst holes) -> exists pre y post, holes = pre ++ (i, y) :: post.
Proof.
  intro I. apply in_map_iff in I. destruct I as ((k, y) & <- & I). apply in_split in I. destruct I as (pre & post & ->). exists pre, y, post. reflexivity.
Qed.
Lemma nodup_split (i : nat) pre (y : string) post : NoDup (map fst (pre ++ (i, y) :: post)) -> ~ In i (map fst pre) /\ ~ In i (map fst post).
Proof.
  rewrite map_app. cbn [map fst]. intro N. apply NoDup_remove_2 in N. split; intro I; apply N, in_or_app; auto.
Qed.

(** the text once i parameters are bound *)
Definition so_far (vals : list string) (mark : nat -> string) (i : nat) (k : nat) : string := if k <? i then value vals k else mark k.
Lemma so_far_step vals mark i v : nth i vals ""%string = v -> forall j, (if j =? i then v else so_far vals mark i j) = so_far vals mark (S i) j.
Proof.
  intros E j. unfold so_far, value. destruct (Nat.eqb_spec j i) as [-> |N].
  - rewrite (proj2 (Nat.ltb_lt i (S i))) by lia. symmetry. exact E.
  - destruct (Nat.ltb_spec j i); destruct (Nat.ltb_spec j (S i)); try lia; reflexivity.
Qed.
Lemma skipn_nth {A} (d : A) i l v r : skipn i l = v :: r -> nth i l d = v /\ skipn (S i) l = r /\ i < length l.
Proof.
  revert l. induction i as [|i IH]; intros [|x l] E; try discriminate.
  - cbn in E. injection E as -> ->. cbn. split; [reflexivity|split; [reflexivity|lia]].
  - cbn [skipn] in E. destruct (IH l E) as (A1 & A2 & A3). cbn [nth skipn length]. split; [exact A1|]. split; [exact A2|lia].
Qed.
Lemma forall_in {A} (P : A -> Prop) l x : Forall P l -> In x l -> P x.
Proof. intro F. exact (proj1 (Forall_forall P l) F x). Qed.
Lemma value_free h cs vals k : Forall (free cs) vals -> In h cs -> ~ p_in h (value vals k).
Proof.
  intros F I. unfold value. destruct (nth_in_or_default k vals ""%string) as [J| ->]; [exact (free_one _ _ _ (forall_in _ _ _ F J) I)|intros []].
Qed.
Lemma pieces_free h cs (holes : list (nat * string)) : Forall (fun y => free cs (snd y)) holes -> In h cs -> Forall (fun y => ~ p_in h (snd y)) holes.
Proof. intros F I. eapply Forall_impl; [|exact F]. intros y G. exact (free_one _ _ _ G I). Qed.
Lemma in_pre {A B} (f : A -> B) pre x post k : In k (map f pre) -> In k (map f (pre ++ x :: post)).
Proof. intro I. rewrite map_app. apply in_or_app. left. exact I. Qed.

(** holes in ascending order *)
Lemma ordered_split (holes : list (nat * string)) i : map fst holes = seq 0 (length holes) -> i < length holes ->
  exists pre y post, holes = pre ++ (i, y) :: post /\ ~ In i (map fst pre) /\ ~ In i (map fst post) /\ forall j, In j (map fst pre) -> j < i.
Proof.
  intros K L. assert (Ii : In i (map fst holes)) by (rewrite K; apply in_seq; lia). apply split_at in Ii. destruct Ii as (pre & y & post & E).
  exists pre, y, post. split; [exact E|]. assert (N : NoDup (map fst holes)) by (rewrite K; apply seq_NoDup).
  rewrite E in N. apply nodup_split in N. destruct N as [N1 N2]. split; [exact N1|]. split; [exact N2|]. intros j J.
  assert (i = length pre) as Ei.
  { assert (nth (length pre) (map fst holes) 0 = i) as Q by (rewrite E, map_app; cbn [map fst]; rewrite app_nth2; rewrite map_length; [rewrite Nat.sub_diag; reflexivity|lia]).
    rewrite K, seq_nth in Q; [lia|rewrite E, app_length; cbn; lia]. }
  apply (In_nth _ _ 0) in J. destruct J as (n & Ln & En). rewrite map_length in Ln.
  assert (nth n (map fst holes) 0 = j) as Q by (rewrite E, map_app, app_nth1; [exact En|rewrite map_length; exact Ln]).
  rewrite K, seq_nth in Q by lia. lia.
Qed.

(** *** The sign ? *)

Lemma question_from x holes vals : x <> ""%string -> map fst holes = seq 0 (length holes) -> clear_of ["?"%char] x holes vals ->
  forall params i, rendered params (skipn i vals) -> i + length params <= length holes ->
  bind_from i params (spread (so_far vals question i) x holes) = Ok (spread (so_far vals question (i + length params)) x holes).
Proof.
  intros X K (Fx & Fh & Fv). induction params as [|p params IH]; intros i R L; [rewrite Nat.add_0_r; reflexivity|].
  cbn [length] in L. remember (skipn i vals) as sk eqn:Es. inversion R as [|? v ? r Hp R' E1 E2]; subst.
  destruct (skipn_nth ""%string i vals v r (eq_sym E2)) as (Ev & Er & Li).
  destruct (ordered_split holes i K ltac:(lia)) as (pre & y & post & E & N1 & N2 & Lp).
  cbn [bind_from]. rewrite Hp. cbn [rbind].
  assert (M : so_far vals question i i = "?"%string) by (unfold so_far; rewrite Nat.ltb_irrefl; reflexivity).
  destruct (fill (so_far vals question i) x pre i y post v X N1 N2) as [A B].
  { rewrite M. apply spread_skips.
    - apply skips_free. exact (free_one _ _ _ Fx (or_introl eq_refl)).
    - rewrite E in Fh. apply Forall_app in Fh. destruct Fh as [Fh _]. eapply Forall_impl; [|exact Fh]. intros h G.
      apply skips_free. exact (free_one _ _ _ G (or_introl eq_refl)).
    - intros j J. apply skips_free. unfold so_far. rewrite (proj2 (Nat.ltb_lt j i) (Lp j J)). exact (value_free _ _ _ _ Fv (or_introl eq_refl)). }
  rewrite M, <- E in A, B. rewrite A, B.
  rewrite (spread_ext _ (so_far vals question (S i))) by (intros j _; exact (so_far_step vals question i v Ev j)).
  rewrite IH; [f_equal; f_equal; f_equal; cbn [length]; lia|rewrite Er; exact R'|lia].
Qed.
(** with too many parameters one is left over *)
Lemma bind_app a : forall n b q t, bind_from n a q = Ok t -> bind_from n (a ++ b) q = bind_from (n + length a) b t.
Proof.
  induction a as [|p a IH]; intros n b q t H; cbn [bind_from app length] in *.
  - injection H as ->. rewrite Nat.add_0_r. reflexivity.
  - destruct (param_string p) as [s| |]; try discriminate. cbn [rbind] in *. replace (n + S (length a)) with (S n + length a) by lia.
    destruct (found "?" q); [exact (IH _ _ _ _ H)|]. cbv zeta in *. destruct (found _ q); [exact (IH _ _ _ _ H)|discriminate].
Qed.
Lemma nothing_left n p ps t v : param_string p = Ok v -> ~ p_in "?" t -> found (dollar n) t = false -> bind_from n (p :: ps) t = Err ErrNotFound.
Proof.
  intros E F G. cbn [bind_from]. rewrite E. cbn [rbind]. rewrite (found_none "?" "" t F). cbv zeta. unfold dollar in G. rewrite G. reflexivity.
Qed.

Lemma firstn_sub {A} n (l : list A) x : In x (firstn n l) -> In x l.
Proof. intro I. rewrite <- (firstn_skipn n l). apply in_or_app. left. exact I. Qed.
Lemma rendered_app a b vals : rendered (a ++ b) vals -> rendered a (firstn (length a) vals) /\ rendered b (skipn (length a) vals).
Proof.
  revert vals. induction a as [|p a IH]; intros vals R; [split; [constructor|exact R]|]. cbn [app] in R. inversion R as [|? v ? r Hp R']; subst.
  cbn [length firstn skipn]. destruct (IH r R') as [A B]. split; [constructor; assumption|exact B].
Qed.
Lemma question_text x holes params vals : x <> ""%string -> map fst holes = seq 0 (length holes) -> clear_of ["?"%char] x holes vals ->
  rendered params vals -> length params = length holes ->
  bound_text (spread question x holes) params = Ok (spread (value vals) x holes).
Proof.
  intros X K C R L. pose proof (question_from x holes vals X K C params 0 R ltac:(lia)) as H.
  rewrite (spread_ext (so_far vals question 0) question) in H by (intros; reflexivity). unfold bound_text. rewrite H. f_equal.
  apply spread_ext. intros k I. rewrite K in I. apply in_seq in I. unfold so_far. rewrite (proj2 (Nat.ltb_lt k (0 + length params))) by lia. reflexivity.
Qed.
Lemma question_many x holes params vals : x <> ""%string -> map fst holes = seq 0 (length holes) -> clear_of ["?"%char; "$"%char] x holes vals ->
  rendered params vals -> length holes < length params ->
  bound_text (spread question x holes) params = Err ErrNotFound.
Proof.
  intros X K C R L. rewrite <- (firstn_skipn (length holes) params) in R |- *. apply rendered_app in R. destruct R as [R1 R2].
  rewrite firstn_length_le in R1, R2 by lia.
  assert (C' : clear_of ["?"%char] x holes (firstn (length holes) vals) /\ clear_of ["$"%char] x holes (firstn (length holes) vals)).
  { destruct C as (Fx & Fh & Fv). assert (W : forall c s, In c ["?"%char; "$"%char] -> free ["?"%char; "$"%char] s -> free [c] s) by (intros c s I F d [<- |[]]; exact (F c I)).
    assert (Fv' : Forall (free ["?"%char; "$"%char]) (firstn (length holes) vals)) by (apply Forall_forall; intros v I; exact (forall_in _ _ _ Fv (firstn_sub _ _ _ I))).
    split; (split; [apply W; [cbn; auto|exact Fx]|split; [eapply Forall_impl; [|exact Fh]|eapply Forall_impl; [|exact Fv']]; intros h; apply W; cbn; auto]). }
  destruct C' as [C1 C2]. assert (Lh : length (firstn (length holes) params) = length holes) by (apply firstn_length_le; lia).
  unfold bound_text. rewrite (bind_app _ 0 _ _ _ (question_text x holes _ _ X K C1 R1 Lh)), Lh.
  destruct (skipn (length holes) params) as [|p ps] eqn:E; [apply (f_equal (@length _)) in E; rewrite skipn_length in E; cbn in E; lia|].
  inversion R2 as [|? v ? r Hp R']; subst. apply nothing_left with v; [exact Hp| |].
  - destruct C1 as (Fx & Fh & Fv). apply spread_free; [exact (free_one _ _ _ Fx (or_introl eq_refl))|exact (pieces_free _ _ _ Fh (or_introl eq_refl))|].
    intros k _. exact (value_free _ _ _ _ Fv (or_introl eq_refl)).
  - destruct C2 as (Fx & Fh & Fv). apply found_none, spread_free; [exact (free_one _ _ _ Fx (or_introl eq_refl))|exact (pieces_free _ _ _ Fh (or_introl eq_refl))|].
    intros k _. exact (value_free _ _ _ _ Fv (or_introl eq_refl)).
Qed.

(** *** The signs $1, $2, ... *)

Lemma digit_question c n : ~ is_digit c -> ~ In c (list_ascii_of_string (show_N n)).
Proof. intros N I. destruct (show_N_digits n) as [_ F]. exact (N (forall_in _ _ _ F I)). Qed.

Lemma dollar_from x holes vals : x <> ""%string -> NoDup (map fst holes) -> clear_of ["?"%char; "$"%char] x holes vals ->
  (forall i pre y post, holes = pre ++ (i, y) :: post -> forall m, In m (map fst pre) -> m < i \/ skips (dollar i) (dollar m)) ->
  forall params i, rendered params (skipn i vals) -> (forall k, i <= k < i + length params -> In k (map fst holes)) ->
  bind_from i params (spread (so_far vals dollar i) x holes) = Ok (spread (so_far vals dollar (i + length params)) x holes).
Proof.
  intros X N (Fx & Fh & Fv) O. induction params as [|p params IH]; intros i R L; [rewrite Nat.add_0_r; reflexivity|].
  cbn [length] in L. remember (skipn i vals) as sk eqn:Es. inversion R as [|? v ? r Hp R' E1 E2]; subst.
  destruct (skipn_nth ""%string i vals v r (eq_sym E2)) as (Ev & Er & Li).
  destruct (split_at i holes (L i ltac:(lia))) as (pre & y & post & E). pose proof N as N'. rewrite E in N'. apply nodup_split in N'. destruct N' as [N1 N2].
  cbn [bind_from]. rewrite Hp. cbn [rbind].
  assert (M : so_far vals dollar i i = dollar i) by (unfold so_far; rewrite Nat.ltb_irrefl; reflexivity).
  destruct (fill (so_far vals dollar i) x pre i y post v X N1 N2) as [A B].
  { rewrite M. apply spread_skips.
    - apply skips_free. exact (free_one _ _ _ Fx (or_intror (or_introl eq_refl))).
    - rewrite E in Fh. apply Forall_app in Fh. destruct Fh as [Fh _]. eapply Forall_impl; [|exact Fh]. intros h G.
      apply skips_free. exact (free_one _ _ _ G (or_intror (or_introl eq_refl))).
    - intros j J. unfold so_far. destruct (Nat.ltb_spec j i) as [Lj|Lj].
      + apply skips_free. exact (value_free _ _ _ _ Fv (or_intror (or_introl eq_refl))).
      + destruct (O i pre y post E j J); [lia|assumption]. }
  rewrite M, <- E in A, B.
  assert (Q : found "?" (spread (so_far vals dollar i) x holes) = false).
  { apply found_none, spread_free; [exact (free_one _ _ _ Fx (or_introl eq_refl))|exact (pieces_free _ _ _ Fh (or_introl eq_refl))|].
    intros k _. unfold so_far. destruct (k <? i); [exact (value_free _ _ _ _ Fv (or_introl eq_refl))|]. unfold p_in, dollar. rewrite chars_app.
    intro I. apply in_app_or in I. destruct I as [[I|[]]|I]; [discriminate|]. revert I. apply digit_question. intros [A1 A2]. vm_compute in A1. congruence || (vm_compute in A2; congruence). }
  rewrite Q. cbv zeta. change ("$" ++ show_N (N.of_nat (i + 1)))%string with (dollar i). rewrite A, B.
  rewrite (spread_ext _ (so_far vals dollar (S i))) by (intros j _; exact (so_far_step vals dollar i v Ev j)).
  rewrite IH; [f_equal; f_equal; f_equal; cbn [length]; lia|rewrite Er; exact R'|]. intros k Lk. apply L. lia.
Qed.
Lemma skips_mark h p s : ~ p_in h s -> (forall rest, has_prefix p (s ++ rest) = false) -> skips (String h p) (String h s).
Proof.
  intros F H [|c a] d b rest E.
  - cbn [append] in E. injection E as <- <-. cbn [append has_prefix]. rewrite Ascii.eqb_refl. apply H.
  - cbn [append] in E. injection E as _ E. exact (skips_free h p s F a d b rest E).
Qed.
Lemma few_dollars i m : i < 9 -> m < 9 -> i <> m -> skips (dollar i) (dollar m).
Proof.
  intros I M N. apply skips_mark.
  - apply digit_question. intros [A B]. vm_compute in A. congruence.
  - do 9 (destruct i as [|i]; [do 9 (destruct m as [|m]; [solve [congruence | intro; reflexivity]|]); lia|]). lia.
Qed.
Lemma dollar_text x holes params vals : x <> ""%string -> clear_of ["?"%char; "$"%char] x holes vals ->
  (map fst holes = seq 0 (length holes) \/ Permutation (map fst holes) (seq 0 (length holes)) /\ length holes <= 9) ->
  rendered params vals -> length params = length holes ->
  bound_text (spread dollar x holes) params = Ok (spread (value vals) x holes).
Proof.
  intros X C O R L. assert (P : Permutation (map fst holes) (seq 0 (length holes))) by (destruct O as [-> |[P _]]; [reflexivity|exact P]).
  assert (N : NoDup (map fst holes)) by (apply (Permutation_NoDup (Permutation_sym P)), seq_NoDup).
  assert (I : forall k, In k (map fst holes) <-> k < length holes).
  { intro k. split; intro J; [apply (Permutation_in _ P) in J; apply in_seq in J; lia|apply (Permutation_in _ (Permutation_sym P)), in_seq; lia]. }
  pose proof (dollar_from x holes vals X N C) as H.
  assert (O' : forall i pre y post, holes = pre ++ (i, y) :: post -> forall m, In m (map fst pre) -> m < i \/ skips (dollar i) (dollar m)).
  { intros i pre y post E m J. assert (Ii : In i (map fst holes)) by (rewrite E, map_app; apply in_or_app; right; left; reflexivity).
    assert (Im : In m (map fst holes)) by (rewrite E; apply in_pre, J). rewrite I in Ii, Im.
    destruct O as [K|[_ L9]].
    - left. destruct (ordered_split holes i K Ii) as (pre' & y' & post' & E' & N1 & N2 & Lp). pose proof N as N'. rewrite E in N'. apply nodup_split in N'. destruct N' as [M1 M2].
      apply Lp. replace pre' with pre; [exact J|]. clear - E E' N1 M1. revert holes pre' E E' N1. induction pre as [|(a, z) pre IH]; intros holes pre' E E' N1; subst holes.
      + destruct pre' as [|(b, w) pre']; [reflexivity|]. cbn [app] in E'. injection E' as -> _ _. destruct N1. left. reflexivity.
      + destruct pre' as [|(b, w) pre']; cbn [app] in E'; [injection E' as -> _ _; destruct M1; left; reflexivity|].
        injection E' as -> -> E'. f_equal. refine (IH _ _ pre' eq_refl E' _); [intro Q; apply M1; right; exact Q|intro Q; apply N1; right; exact Q].
    - right. apply few_dollars; [lia|lia|]. intros ->. rewrite E in N. apply nodup_split in N. exact (proj1 N J). }
  specialize (H O' params 0 R ltac:(intros k Lk; apply I; lia)).
  rewrite (spread_ext (so_far vals dollar 0) dollar) in H by (intros; reflexivity). unfold bound_text. rewrite H. f_equal.
  apply spread_ext. intros k J. apply I in J. unfold so_far. rewrite (proj2 (Nat.ltb_lt k (0 + length params))) by lia. reflexivity.
Qed.
Lemma dollar_many x holes params vals : x <> ""%string -> clear_of ["?"%char; "$"%char] x holes vals ->
  (map fst holes = seq 0 (length holes) \/ Permutation (map fst holes) (seq 0 (length holes)) /\ length holes <= 9) ->
  rendered params vals -> length holes < length params ->
  bound_text (spread dollar x holes) params = Err ErrNotFound.
Proof.
  intros X C O R L. rewrite <- (firstn_skipn (length holes) params) in R |- *. apply rendered_app in R. destruct R as [R1 R2].
  rewrite firstn_length_le in R1, R2 by lia.
  assert (C' : clear_of ["?"%char; "$"%char] x holes (firstn (length holes) vals)).
  { destruct C as (Fx & Fh & Fv). split; [exact Fx|]. split; [exact Fh|]. apply Forall_forall; intros v I; exact (forall_in _ _ _ Fv (firstn_sub _ _ _ I)). }
  assert (Lh : length (firstn (length holes) params) = length holes) by (apply firstn_length_le; lia).
  unfold bound_text. rewrite (bind_app _ 0 _ _ _ (dollar_text x holes _ _ X C' O R1 Lh)), Lh.
  destruct (skipn (length holes) params) as [|p ps] eqn:E; [apply (f_equal (@length _)) in E; rewrite skipn_length in E; cbn in E; lia|].
  inversion R2 as [|? v ? r Hp R']; subst. destruct C' as (Fx & Fh & Fv). apply nothing_left with v; [exact Hp| |].
  - apply spread_free; [exact (free_one _ _ _ Fx (or_introl eq_refl))|exact (pieces_free _ _ _ Fh (or_introl eq_refl))|].
    intros k _. exact (value_free _ _ _ _ Fv (or_introl eq_refl)).
  - apply found_none, spread_free; [exact (free_one _ _ _ Fx (or_intror (or_introl eq_refl)))|exact (pieces_free _ _ _ Fh (or_intror (or_introl eq_refl)))|].
    intros k _. exact (value_free _ _ _ _ Fv (or_intror (or_introl eq_refl))).
Qed.
