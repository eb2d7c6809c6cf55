(** Lemmas about the model of sql/query. *)
From Verif Require Import GoBase FactsBase ModelUtil ModelNum ModelFn ModelQuery SpecFn SpecQuery ProofFn ProofNum.

(** ** Lookup *)
Lemma first_match_nil {A} (P : A -> Prop) n x : ~ first_match P [] n x.
Proof. intros (H & _). destruct n; discriminate. Qed.

Lemma first_match_here {A} (P : A -> Prop) l x n y :
  P x -> (first_match P (x :: l) n y <-> n = 0 /\ y = x).
Proof.
  intros Hx. split.
  - intros (E & Hy & Hf). destruct n; [now inversion E|]. exfalso. exact (Hf 0 x (Nat.lt_0_succ n) eq_refl Hx).
  - intros (-> & ->). split; [reflexivity|]. split; [exact Hx|]. intros m z Hm. lia.
Qed.

Lemma first_match_later {A} (P : A -> Prop) l x n y :
  ~ P x -> (first_match P (x :: l) n y <-> exists m, n = S m /\ first_match P l m y).
Proof.
  intros Hx. split.
  - intros (E & Hy & Hf). destruct n as [|m]; [inversion E; congruence|]. exists m. split; [reflexivity|].
    split; [exact E|]. split; [exact Hy|]. intros k z Hk Ez. apply (Hf (S k) z); [lia|exact Ez].
  - intros (m & -> & (E & Hy & Hf)). split; [exact E|]. split; [exact Hy|].
    intros k z Hk Ez. destruct k; [inversion Ez; subst; exact Hx|]. apply (Hf k z); [lia|exact Ez].
Qed.

Lemma equal_fold_false a b : equal_fold a b = false -> ~ same_text a b.
Proof. intros H E. apply equal_fold_iff in E. congruence. Qed.

Section Scan.
  (** the shape shared by the lookup loops *)
  Context {A : Type} (name_of : A -> string) (name : string)
          (scan : list A -> result A) (scan_from : nat -> list A -> result nat).
  Hypothesis scan_nil : scan [] = Err ErrNotFound.
  Hypothesis scan_cons : forall c r, scan (c :: r) = if equal_fold (name_of c) name then Ok c else scan r.
  Hypothesis from_nil : forall k, scan_from k [] = Err ErrNotFound.
  Hypothesis from_cons : forall k c r,
    scan_from k (c :: r) = if equal_fold (name_of c) name then Ok k else scan_from (S k) r.
  Let P := fun c => same_text (name_of c) name.

  Lemma scan_spec l :
    (exists n c, first_match P l n c /\ scan l = Ok c /\ forall k, scan_from k l = Ok (k + n)) \/
    (no_match P l /\ scan l = Err ErrNotFound /\ forall k, scan_from k l = Err ErrNotFound).
  Proof.
    induction l as [|c l IH].
    - right. split; [intros x []|]. split; auto.
    - rewrite scan_cons. destruct (equal_fold (name_of c) name) eqn:E.
      + left. exists 0, c. split; [apply first_match_here; [apply equal_fold_iff; exact E|auto]|].
        split; [reflexivity|]. intros k. rewrite from_cons, E. f_equal. lia.
      + apply equal_fold_false in E as N. destruct IH as [(n & x & Hm & Hs & Hf)|(Hn & Hs & Hf)].
        * left. exists (S n), x. split; [apply first_match_later; [exact N|eauto]|]. split; [exact Hs|].
          intros k. rewrite from_cons, E, Hf. f_equal. lia.
        * right. split; [|split]; [|exact Hs|].
          -- intros x [<-|Hx]; [exact N|exact (Hn x Hx)].
          -- intros k. rewrite from_cons, E. apply Hf.
  Qed.

  Lemma first_match_unique {B} (Q : B -> Prop) l n c n' c' :
    first_match Q l n c -> first_match Q l n' c' -> n = n' /\ c = c'.
  Proof.
    intros (E & Hc & Hf) (E' & Hc' & Hf').
    destruct (Nat.lt_trichotomy n n') as [L|[L|L]].
    - exfalso. exact (Hf' n c L E Hc).
    - subst. split; congruence.
    - exfalso. exact (Hf n' c' L E' Hc').
  Qed.

  Lemma scan_full l :
    (forall c, scan l = Ok c <-> exists n, first_match P l n c) /\
    (forall n, scan_from 0 l = Ok n <-> exists c, first_match P l n c) /\
    (scan l = Err ErrNotFound <-> no_match P l) /\
    (scan_from 0 l = Err ErrNotFound <-> no_match P l) /\
    scan l <> Panic /\ scan_from 0 l <> Panic.
  Proof.
    destruct (scan_spec l) as [(n & x & Hm & Hs & Hf)|(Hn & Hs & Hf)].
    - assert (NN : ~ no_match P l).
      { destruct Hm as (En & Hx & _). intros Hn. exact (Hn x (nth_error_In l n En) Hx). }
      rewrite Hs, Hf. split; [|split; [|split; [|split; [|split]]]].
      + intros c. split; [intros [= <-]; eauto|]. intros (k & Hk).
        destruct (first_match_unique _ _ _ _ _ _ Hm Hk) as (_ & ->). reflexivity.
      + intros k. split; [intros [= <-]; eauto|]. intros (c & Hk).
        destruct (first_match_unique _ _ _ _ _ _ Hm Hk) as (-> & _). reflexivity.
      + split; [discriminate|contradiction].
      + split; [discriminate|contradiction].
      + discriminate.
      + discriminate.
    - assert (NN : forall n c, ~ first_match P l n c).
      { intros n c (En & Hc & _). exact (Hn c (nth_error_In l n En) Hc). }
      rewrite Hs, Hf. split; [|split; [|split; [|split; [|split]]]]; try tauto; try discriminate.
      + intros c. split; [discriminate|]. intros (k & Hk). destruct (NN _ _ Hk).
      + intros k. split; [discriminate|]. intros (c & Hk). destruct (NN _ _ Hk).
  Qed.
End Scan.

Lemma column_lookup cs name :
  (forall c, lookup_column cs name = Ok c <-> exists n, first_match (fun c => same_text (c_name c) name) cs n c) /\
  (forall n, lookup_index_of_column cs name = Ok n <->
     exists c, first_match (fun c => same_text (c_name c) name) cs n c) /\
  (lookup_column cs name = Err ErrNotFound <-> no_match (fun c => same_text (c_name c) name) cs) /\
  (lookup_index_of_column cs name = Err ErrNotFound <-> no_match (fun c => same_text (c_name c) name) cs) /\
  lookup_column cs name <> Panic /\ lookup_index_of_column cs name <> Panic.
Proof.
  apply (scan_full c_name name (fun l => lookup_column l name) (fun k l => lookup_index_of_column_from k l name));
    reflexivity.
Qed.

Lemma index_lookup is name :
  (forall i, lookup_index is name = Ok i <-> exists n, first_match (fun i => same_text (i_name i) name) is n i) /\
  (forall n, lookup_index_of_index is name = Ok n <->
     exists i, first_match (fun i => same_text (i_name i) name) is n i) /\
  (lookup_index is name = Err ErrNotFound <-> no_match (fun i => same_text (i_name i) name) is) /\
  (lookup_index_of_index is name = Err ErrNotFound <-> no_match (fun i => same_text (i_name i) name) is) /\
  lookup_index is name <> Panic /\ lookup_index_of_index is name <> Panic.
Proof.
  apply (scan_full i_name name (fun l => lookup_index l name) (fun k l => lookup_index_of_index_from k l name));
    reflexivity.
Qed.

Lemma column_at_spec cs n :
  ((0 <= n < Z.of_nat (length cs))%Z -> exists c, column_at cs n = Ok c /\ nth_error cs (Z.to_nat n) = Some c) /\
  ((Z.of_nat (length cs) <= n)%Z -> column_at cs n = Err ErrNotFound) /\
  ((n < 0)%Z -> column_at cs n = Panic).
Proof.
  unfold column_at. split; [|split]; intros H.
  - destruct (Z.leb_spec (Z.of_nat (length cs)) n); [lia|]. destruct (Z.ltb_spec n 0); [lia|].
    destruct (nth_error cs (Z.to_nat n)) as [c|] eqn:E; [eauto|]. apply nth_error_None in E. lia.
  - destruct (Z.leb_spec (Z.of_nat (length cs)) n); [reflexivity|lia].
  - destruct (Z.leb_spec (Z.of_nat (length cs)) n); [lia|]. destruct (Z.ltb_spec n 0); [reflexivity|lia].
Qed.

(** ** ALTER TABLE *)
Lemma drop_first_other_spec {A} (f : A -> string) name l :
  match drop_first_other f name l with
  | Some l' => exists n x, first_match (fun y => ~ same_text (f y) name) l n x /\ l' = firstn n l ++ skipn (S n) l
  | None => forall x, In x l -> same_text (f x) name
  end.
Proof.
  induction l as [|y l IH]; cbn [drop_first_other]; [intros x []|].
  destruct (equal_fold (f y) name) eqn:E.
  - apply equal_fold_iff in E. destruct (drop_first_other f name l) as [l'|].
    + destruct IH as (n & x & Hm & ->). exists (S n), x. split; [|reflexivity].
      apply first_match_later; [intros H; exact (H E)|eauto].
    + intros x [<-|Hx]; [exact E|auto].
  - exists 0, y. split; [|reflexivity]. apply first_match_here; [apply equal_fold_false; exact E|auto].
Qed.

Lemma drop_first_other_filter {A} (f : A -> string) name l l' :
  drop_first_other f name l = Some l' ->
  filter (fun x => equal_fold (f x) name) l' = filter (fun x => equal_fold (f x) name) l.
Proof.
  revert l'. induction l as [|y l IH]; intros l'; cbn [drop_first_other filter]; [discriminate|].
  destruct (equal_fold (f y) name) eqn:E.
  - destruct (drop_first_other f name l) as [m|]; [|discriminate]. intros [= <-]. cbn [filter].
    rewrite E. f_equal. now apply IH.
  - now intros [= <-].
Qed.

Lemma drop_first_other_length {A} (f : A -> string) name l l' :
  drop_first_other f name l = Some l' -> length l = S (length l').
Proof.
  revert l'. induction l as [|y l IH]; intros l'; cbn [drop_first_other]; [discriminate|].
  destruct (equal_fold (f y) name).
  - destruct (drop_first_other f name l) as [m|]; [|discriminate]. intros [= <-]. cbn. f_equal. now apply IH.
  - now intros [= <-].
Qed.

Lemma alter_drop_column s t c :
  alter_schema s (only_drop_column t c) =
  match drop_first_other c_name (c_name c) (s_columns s) with
  | Some cs => (mkSchema (s_table s) cs (s_indexes s), Ok tt)
  | None => (s, Err ErrNotFound)
  end.
Proof.
  unfold alter_schema, only_drop_column, drop_column. cbn.
  destruct (drop_first_other c_name (c_name c) (s_columns s)); reflexivity.
Qed.

Lemma alter_drop_index s t i :
  alter_schema s (only_drop_index t i) =
  match drop_first_other i_name (i_name i) (s_indexes s) with
  | Some is => (mkSchema (s_table s) (s_columns s) is, Ok tt)
  | None => (s, Err ErrNotFound)
  end.
Proof.
  unfold alter_schema, only_drop_index, drop_index. cbn.
  destruct (drop_first_other i_name (i_name i) (s_indexes s)); reflexivity.
Qed.

Lemma one_change_error s a s' e : one_change a -> alter_schema s a = (s', Err e) -> s' = s.
Proof.
  intros H. destruct H; try rewrite alter_drop_column; try rewrite alter_drop_index; cbn.
  - discriminate.
  - discriminate.
  - destruct (drop_first_other _ _ _); [discriminate|]. congruence.
  - destruct (drop_first_other _ _ _); [discriminate|]. congruence.
  - congruence.
  - congruence.
Qed.

(** ** Data types *)
Lemma remove_byte_spec c s :
  remove_byte c s = string_of_list_ascii (filter (fun d => negb (Ascii.eqb c d)) (list_ascii_of_string s)).
Proof.
  induction s as [|d s IH]; [reflexivity|]. cbn [remove_byte list_ascii_of_string filter].
  destruct (Ascii.eqb c d); cbn [negb string_of_list_ascii]; congruence.
Qed.

Lemma remove_space s : remove_byte " " s = no_spaces s.
Proof.
  rewrite remove_byte_spec. unfold no_spaces. f_equal.
Qed.

Lemma the_type_names : type_names = data_type_strings.
Proof. reflexivity. Qed.
Lemma named_type_iff t n : named_type t n <-> In (t, n) data_type_strings.
Proof. unfold named_type. now rewrite the_type_names. Qed.

(** all the spellings, upper case *)
Definition spellings : list (string * dtype) :=
  flat_map (fun e => [(snd e, fst e); (no_spaces (snd e), fst e)]) data_type_strings.
Lemma spellings_determine n t n' t' : In (n, t) spellings -> In (n', t') spellings -> n = n' -> t = t'.
Proof.
  assert (H : forallb (fun p => forallb (fun q => implb (String.eqb (fst p) (fst q)) (dtype_eqb (snd p) (snd q)))
                                        spellings) spellings = true) by (vm_compute; reflexivity).
  intros H1 H2 ->. rewrite forallb_forall in H. specialize (H _ H1). rewrite forallb_forall in H.
  specialize (H _ H2). cbn [fst snd] in H. rewrite String.eqb_refl in H. cbn [implb] in H.
  unfold dtype_eqb in H. destruct (dtype_eq_dec t t'); congruence.
Qed.

Lemma names_upper t n : named_type t n -> to_upper n = n /\ to_upper (no_spaces n) = no_spaces n.
Proof.
  assert (H : forallb (fun e => String.eqb (to_upper (snd e)) (snd e) &&
                                String.eqb (to_upper (no_spaces (snd e))) (no_spaces (snd e))) data_type_strings = true)
    by (vm_compute; reflexivity).
  intros Hn. rewrite forallb_forall in H. specialize (H _ Hn). cbn [snd] in H.
  apply andb_true_iff in H. destruct H as [A B]. now rewrite String.eqb_eq in A, B.
Qed.

Lemma scan_types entries us :
  (exists t n, In (t, n) entries /\ (us = n \/ us = no_spaces n) /\ data_type_scan entries us = Ok t) \/
  (data_type_scan entries us = Err ErrInvalid /\ forall t n, In (t, n) entries -> us <> n /\ us <> no_spaces n).
Proof.
  induction entries as [|[t n] l IH]; cbn [data_type_scan].
  - right. split; [reflexivity|]. intros t n [].
  - destruct (String.eqb_spec n us) as [->|N1]; [left; exists t, us; cbn; auto|].
    rewrite remove_space. destruct (String.eqb_spec (no_spaces n) us) as [<-|N2].
    { left. exists t, n. cbn. auto. }
    destruct IH as [(t' & n' & Hi & Hu & Hs)|(Hs & Hn)].
    + left. exists t', n'. cbn. auto.
    + right. split; [exact Hs|]. intros t' n' [[= <- <-]|Hi]; [auto|now apply (Hn t' n')].
Qed.

Lemma spells_upper t n s : named_type t n -> (spells s n <-> to_upper s = n \/ to_upper s = no_spaces n).
Proof.
  intros H. destruct (names_upper t n H) as [A B]. unfold spells, same_text. rewrite A, B. tauto.
Qed.

Lemma data_type_parse entries s :
  Permutation entries data_type_strings ->
  (forall t n, named_type t n -> spells s n -> data_type_from_string entries s = Ok t) /\
  ((forall t n, named_type t n -> ~ spells s n) -> data_type_from_string entries s = Err ErrInvalid).
Proof.
  intros HP. unfold data_type_from_string.
  assert (HI : forall x, In x entries <-> In x data_type_strings).
  { intros x. split; apply Permutation_in; [exact HP|now apply Permutation_sym]. }
  split.
  - intros t n Hn Hs. apply (spells_upper t n s Hn) in Hs.
    destruct (scan_types entries (to_upper s)) as [(t' & n' & Hi & Hu & E)|(_ & Hno)].
    + rewrite E. f_equal. apply HI in Hi.
      assert (S1 : In (to_upper s, t) spellings).
      { apply in_flat_map. exists (t, n). split; [exact Hn|]. cbn [fst snd In]. destruct Hs as [Hs|Hs]; rewrite Hs; auto. }
      assert (S2 : In (to_upper s, t') spellings).
      { apply in_flat_map. exists (t', n'). split; [exact Hi|]. cbn [fst snd In]. destruct Hu as [Hu|Hu]; rewrite Hu; auto. }
      exact (eq_sym (spellings_determine _ _ _ _ S1 S2 eq_refl)).
    + exfalso. apply HI in Hn. destruct (Hno t n Hn) as [A B]. destruct Hs; contradiction.
  - intros Hno. destruct (scan_types entries (to_upper s)) as [(t' & n' & Hi & Hu & _)|(E & _)]; [|exact E].
    apply HI in Hi. exfalso. apply (Hno t' n' Hi). now apply (spells_upper t' n' s Hi).
Qed.

Lemma named_types t : (exists n, named_type t n) <-> t <> UnknownData /\ t <> NameType.
Proof.
  unfold named_type. split.
  - intros (n & H). split; intros ->; vm_compute in H; intuition discriminate.
  - intros [A B]. destruct t; try contradiction; (eexists; cbn; repeat first [left; reflexivity | right]).
Qed.

Lemma data_type_prints t n : named_type t n -> data_type_string t = n.
Proof.
  assert (H : forallb (fun e => String.eqb (data_type_string (fst e)) (snd e)) data_type_strings = true)
    by (vm_compute; reflexivity).
  intros Hn. rewrite forallb_forall in H. specialize (H _ Hn). now apply String.eqb_eq in H.
Qed.

Lemma data_def_round entries t n l s :
  Permutation entries data_type_strings -> named_type t n -> (0 < l < 2 ^ 63)%Z -> spells s n ->
  exists d, numeral (Z.to_N l) d /\
    data_def_string (new_data_def t l) = (n ++ "(" ++ d ++ ")")%string /\
    data_def_from_strings entries [s; "("; d; ")"] = Ok (new_data_def t l).
Proof.
  intros HP Hn Hl Hs. exists (show_Z l).
  assert (E : show_Z l = show_N (Z.to_N l)) by (apply show_Z_nonneg; lia).
  split; [rewrite E; apply show_N_numeral|]. split.
  - unfold data_def_string. cbn [d_length new_data_def d_type]. destruct (Z.ltb_spec 0 l); [|lia].
    now rewrite (data_type_prints t n Hn).
  - cbn [data_def_from_strings length Nat.leb nth]. rewrite String.eqb_refl. cbn [orb].
    rewrite atoi_show by lia. unfold data_def_from.
    destruct (data_type_parse entries s HP) as [P _]. now rewrite (P t n Hn Hs).
Qed.

Lemma data_def_alone entries t n s :
  Permutation entries data_type_strings -> named_type t n -> spells s n ->
  data_def_from_strings entries [s] = Ok (new_data_def t (-1)) /\ data_def_string (new_data_def t (-1)) = n.
Proof.
  intros HP Hn Hs. split.
  - cbn. unfold data_def_from. destruct (data_type_parse entries s HP) as [P _]. now rewrite (P t n Hn Hs).
  - unfold data_def_string. cbn. exact (data_type_prints t n Hn).
Qed.

(** ** SetValue *)
Lemma heap_set_length h p l : length (heap_set h p l) = length h.
Proof. revert p. induction h as [|x h IH]; intros [|p]; cbn; auto. Qed.
Lemma heap_set_same h p l : p < length h -> nth_error (heap_set h p l) p = Some l.
Proof.
  revert p. induction h as [|x h IH]; intros [|p] H; cbn in *; try lia; [reflexivity|]. apply IH. lia.
Qed.
Lemma heap_set_other h p q l : p <> q -> nth_error (heap_set h p l) q = nth_error h q.
Proof.
  revert p q. induction h as [|x h IH]; intros [|p] [|q] H; cbn; try reflexivity; try lia. apply IH. lia.
Qed.
Lemma heap_set_twice h p a b : heap_set (heap_set h p a) p b = heap_set h p b.
Proof. revert p. induction h as [|x h IH]; intros [|p]; cbn; congruence. Qed.
Lemma lit_at_nth h p l : nth_error h p = Some l -> lit_at h p = l.
Proof. intros H. unfold lit_at. now apply nth_error_nth. Qed.

Lemma target_declared t g : target_type t = Some g <-> In (t, g) declared_go_type.
Proof. split; [destruct t; cbn; try discriminate; intros [= <-]; tauto|].
  cbn. intros H. repeat (destruct H as [[= <- <-]|H]; [reflexivity|]). destruct H. Qed.

Lemma set_definition_spec cast h c d p l :
  pc_lit c = Some p -> nth_error h p = Some l ->
  exists w ok, stored cast d (l_value l) w ok /\
    set_definition cast h c d =
      (mkPcol (pc_name c) d (pc_lit c) (pc_fn c), heap_set h p (mkLit w (l_type l)), if ok then Ok tt else Err ErrCast).
Proof.
  intros Hp Hl. unfold set_definition. rewrite Hp, (lit_at_nth h p l Hl).
  assert (Same : heap_set h p (mkLit (l_value l) (l_type l)) = h).
  { destruct l as [lv lt]. cbn. clear -Hl. revert h Hl. induction p as [|p IH]; intros [|x h] Hl; cbn in *; try reflexivity.
    - congruence.
    - f_equal. now apply IH. }
  assert (NoType : (forall df g, d = Some df -> ~ In (d_type df, g) declared_go_type) ->
                   stored cast d (l_value l) (l_value l) true).
  { intros H. split; [|auto]. intros df g E I. destruct (H df g E I). }
  destruct d as [df|].
  - destruct (target_type (d_type df)) as [g|] eqn:T.
    + assert (U : forall g', In (d_type df, g') declared_go_type -> g' = g).
      { intros g' I. apply target_declared in I. congruence. }
      destruct (cast g (l_value l)) as [v|] eqn:C.
      * exists v, true. split; [|reflexivity]. split.
        -- intros df' g' [= <-] I. apply U in I. subst g'. left. auto.
        -- intros H. exfalso. apply target_declared in T. exact (H df eq_refl g T).
      * exists (l_value l), false. split; [|now rewrite Same]. split.
        -- intros df' g' [= <-] I. apply U in I. subst g'. right. auto.
        -- intros H. exfalso. apply target_declared in T. exact (H df eq_refl g T).
    + exists (l_value l), true. split; [|now rewrite Same]. apply NoType.
      intros df' g [= <-] I. apply target_declared in I. congruence.
  - exists (l_value l), true. split; [|now rewrite Same]. apply NoType. discriminate.
Qed.

Lemma set_value_spec cast h c v p l :
  pc_lit c = Some p -> nth_error h p = Some l ->
  exists w ok, stored cast (pc_def c) v w ok /\
    set_value cast h c v = (c, heap_set h p (mkLit w (l_type l)), if ok then Ok tt else Err ErrCast).
Proof.
  intros Hp Hl. unfold set_value. rewrite Hp, (lit_at_nth h p l Hl).
  assert (Hlen : p < length h) by (apply nth_error_Some; congruence).
  destruct (set_definition_spec cast (heap_set h p (mkLit v (l_type l))) c (pc_def c) p (mkLit v (l_type l)) Hp
              (heap_set_same h p _ Hlen)) as (w & ok & Hs & E).
  exists w, ok. split; [exact Hs|]. rewrite E, heap_set_twice. cbn [l_type]. destruct c; reflexivity.
Qed.

(** ** Quoting *)
Lemma trim_left_no_start cut s : ~ starts_with_any cut (trim_left cut s).
Proof.
  induction s as [|c s IH]; cbn [trim_left]; [intros (c & r & E & _); discriminate|].
  destruct (smem c cut) eqn:M; [exact IH|]. intros (d & r & [= <- <-] & I).
  assert (smem c cut = true); [|congruence]. clear M IH.
  unfold smem. induction cut as [|x cut IHc]; cbn in *; [contradiction|].
  destruct I as [->|I]; [now rewrite Ascii.eqb_refl|]. rewrite IHc by exact I. apply orb_true_r.
Qed.

Lemma smem_iff c s : smem c s = true <-> In c (list_ascii_of_string s).
Proof.
  unfold smem. induction s as [|x s IH]; cbn; [split; [discriminate|tauto]|].
  rewrite orb_true_iff, IH. split; intros [H|H]; auto; left; [apply Ascii.eqb_eq in H; auto|subst; apply Ascii.eqb_refl].
Qed.

Lemma trim_left_id cut s : ~ starts_with_any cut s -> trim_left cut s = s.
Proof.
  destruct s as [|c s]; [reflexivity|]. intros H. cbn [trim_left]. destruct (smem c cut) eqn:M; [|reflexivity].
  exfalso. apply H. exists c, s. split; [reflexivity|]. now apply smem_iff.
Qed.

Lemma trim_left_suffix cut s : exists l, s = (l ++ trim_left cut s)%string.
Proof.
  induction s as [|c s (l & E)]; [exists ""; reflexivity|]. cbn [trim_left].
  destruct (smem c cut); [|exists ""; reflexivity]. exists (String c l). cbn. congruence.
Qed.

Lemma ends_iff cut s : ends_with_any cut s <-> starts_with_any cut (srev s).
Proof.
  split.
  - intros (c & r & -> & I). exists c, (srev r). split; [|exact I]. now rewrite srev_append.
  - intros (c & r & E & I). exists c, (srev r). split; [|exact I].
    rewrite <- (srev_involutive s), E. apply srev_cons.
Qed.

Lemma trim_ends cut s : ~ starts_with_any cut (trim cut s) /\ ~ ends_with_any cut (trim cut s).
Proof.
  unfold trim. split.
  - intros (c & r & E & I).
    destruct (trim_left_suffix cut (srev (trim_left cut s))) as (l & El).
    apply (trim_left_no_start cut s). exists c. exists (r ++ srev l)%string. split; [|exact I].
    rewrite <- (srev_involutive (trim_left cut s)), El, srev_append, E. reflexivity.
  - rewrite ends_iff, srev_involutive. apply trim_left_no_start.
Qed.

Lemma starts_app cut a b : a <> ""%string -> (starts_with_any cut (a ++ b) <-> starts_with_any cut a).
Proof.
  destruct a as [|c a]; [congruence|]. intros _. split; intros (d & r & E & I).
  - cbn in E. injection E as <- <-. exists c, a. auto.
  - injection E as <- <-. exists c, (a ++ b)%string. auto.
Qed.

Lemma trim_quoted cut q s : smem q cut = true ->
  (trim cut (String q (s ++ String q ""))%string = s <-> ~ starts_with_any cut s /\ ~ ends_with_any cut s).
Proof.
  intros Hq. split.
  - intros E. rewrite <- E. apply trim_ends.
  - intros [Hs He]. unfold trim. cbn [trim_left]. rewrite Hq.
    destruct s as [|c s].
    + cbn [append trim_left]. rewrite Hq. reflexivity.
    + rewrite (trim_left_id cut (String c s ++ String q "")) by (rewrite starts_app by discriminate; exact Hs).
      rewrite srev_append. change (srev (String q "")) with (String q ""). cbn [append trim_left]. rewrite Hq.
      rewrite trim_left_id by (rewrite <- ends_iff; exact He). apply srev_involutive.
Qed.

(** ** Tables *)
Lemma scontains_dot s : scontains "." s = true <-> has_dot s.
Proof.
  unfold scontains, has_dot. induction s as [|c s IH]; [cbn; split; [discriminate|tauto]|].
  cbn [sindex has_prefix list_ascii_of_string In].
  destruct (Ascii.eqb_spec "." c) as [<-|N]; cbn [andb].
  - tauto.
  - destruct (sindex "." s); [rewrite <- IH; tauto|]. rewrite <- IH. split; [discriminate|]. intros [H|H]; congruence.
Qed.

Lemma full_table_name_spec t :
  (t_schema t <> "" -> t_name t <> "" -> ~ has_dot (t_name t) ->
     full_table_name t = (t_schema t ++ "." ++ t_name t)%string) /\
  ((t_schema t = "" \/ t_name t = "" \/ has_dot (t_name t)) -> full_table_name t = t_name t).
Proof.
  unfold full_table_name. destruct t as [sc n]. cbn [t_schema t_name]. split.
  - intros Hs Hn Hd. destruct n as [|c n]; [congruence|]. destruct sc as [|d sc]; [congruence|].
    assert (E : scontains "." (String c n) = false).
    { destruct (scontains "." (String c n)) eqn:E; [|reflexivity]. apply scontains_dot in E. contradiction. }
    rewrite E. reflexivity.
  - intros H. destruct n as [|c n]; [reflexivity|]. cbn [String.length Nat.ltb Nat.leb].
    destruct (scontains "." (String c n)) eqn:E; [reflexivity|].
    destruct H as [->|[H|H]]; [reflexivity|discriminate|]. apply scontains_dot in H. congruence.
Qed.

Lemma dot_free_rev s : ~ has_dot s -> ~ In "."%char (list_ascii_of_string (srev s)).
Proof. unfold has_dot. rewrite list_ascii_srev, <- in_rev. auto. Qed.

Lemma full_table_name_inj t1 t2 :
  t_name t1 <> "" -> t_name t2 <> "" -> ~ has_dot (t_name t1) -> ~ has_dot (t_name t2) ->
  full_table_name t1 = full_table_name t2 -> t1 = t2.
Proof.
  destruct t1 as [s1 n1], t2 as [s2 n2]. cbn [t_name]. intros N1 N2 D1 D2 E.
  destruct (full_table_name_spec (mkTbl s1 n1)) as [A1 B1], (full_table_name_spec (mkTbl s2 n2)) as [A2 B2].
  cbn [t_schema t_name] in *.
  destruct (String.eqb_spec s1 "") as [->|S1]; destruct (String.eqb_spec s2 "") as [->|S2].
  - rewrite B1, B2 in E by auto. congruence.
  - rewrite B1, A2 in E by auto. exfalso. apply D1. rewrite E. unfold has_dot. apply no_char_app. right.
    cbn. auto.
  - rewrite A1, B2 in E by auto. exfalso. apply D2. rewrite <- E. unfold has_dot. apply no_char_app. right.
    cbn. auto.
  - rewrite A1, A2 in E by auto. apply (f_equal srev) in E. rewrite !srev_append in E.
    change (srev ".") with "."%string in E. rewrite !sapp_assoc in E. cbn [append] in E.
    apply append_inv_no_char in E; [|now apply dot_free_rev|now apply dot_free_rev].
    destruct E as [E1 E2]. apply (f_equal srev) in E1, E2. rewrite !srev_involutive in *. congruence.
Qed.

Lemma has_table_spec ts names :
  has_table ts names = true <-> exists t n, In t ts /\ In n names /\ same_text (t_name t) n.
Proof.
  unfold has_table. rewrite existsb_exists. split.
  - intros (n & Hn & H). apply existsb_exists in H. destruct H as (t & Ht & E). exists t, n.
    split; [exact Ht|]. split; [exact Hn|]. now apply equal_fold_iff.
  - intros (t & n & Ht & Hn & E). exists n. split; [exact Hn|]. apply existsb_exists. exists t.
    split; [exact Ht|]. now apply equal_fold_iff.
Qed.
Lemma has_schema_table_spec ts names :
  has_schema_table ts names = true <-> exists t n, In t ts /\ In n names /\ same_text (t_schema t) n.
Proof.
  unfold has_schema_table. rewrite existsb_exists. split.
  - intros (n & Hn & H). apply existsb_exists in H. destruct H as (t & Ht & E). exists t, n.
    split; [exact Ht|]. split; [exact Hn|]. now apply equal_fold_iff.
  - intros (t & n & Ht & Hn & E). exists n. split; [exact Hn|]. apply existsb_exists. exists t.
    split; [exact Ht|]. now apply equal_fold_iff.
Qed.

(** ** Selectors *)
Lemma ftype_eqb_iff a b : ftype_eqb a b = true <-> a = b.
Proof. destruct a, b; cbn; split; congruence. Qed.

Lemma has_function_spec l : has_function l = true <-> exists s, In s l /\ sel_function s = None.
Proof.
  induction l as [|s l IH]; cbn [has_function]; [split; [discriminate|intros (s & [] & _)]|].
  destruct (sel_function s) as [f|] eqn:E.
  - rewrite IH. split; intros (x & Hx & N); exists x; cbn; [auto|]. destruct Hx as [<-|Hx]; [congruence|auto].
  - split; [intros _; exists s; cbn; auto|reflexivity].
Qed.

Lemma has_function_with_type_spec t l :
  has_function_with_type t l = true <-> exists s f, In s l /\ sel_function s = Some f /\ f_type f = t.
Proof.
  induction l as [|s l IH]; cbn [has_function_with_type]; [split; [discriminate|intros (s & f & [] & _)]|].
  destruct (sel_function s) as [f|] eqn:E.
  - destruct (ftype_eqb (f_type f) t) eqn:T.
    + apply ftype_eqb_iff in T. split; [intros _; exists s, f; cbn; auto|reflexivity].
    + rewrite IH. split; intros (x & g & Hx & Hg & Ht); exists x, g; cbn; [auto|].
      destruct Hx as [<-|Hx]; [|auto]. exfalso. replace g with f in Ht by congruence.
      apply ftype_eqb_iff in Ht. congruence.
  - rewrite IH. split; intros (x & g & Hx & Hg & Ht); exists x, g; cbn; [auto|].
    destruct Hx as [<-|Hx]; [congruence|auto].
Qed.

Lemma functions_spec l :
  map Some (functions l) = filter (fun o => match o with Some _ => true | None => false end) (map sel_function l).
Proof.
  induction l as [|s l IH]; [reflexivity|]. cbn [functions map filter].
  destruct (sel_function s); cbn [map]; congruence.
Qed.

Lemma lookup_function_spec l name :
  (forall f, lookup_function l name = Ok f <-> exists n, first_match (fun g => f_name g = name) (functions l) n f) /\
  (lookup_function l name = Err ErrNotFound <-> no_match (fun g => f_name g = name) (functions l)) /\
  lookup_function l name <> Panic.
Proof.
  induction l as [|s l (I1 & I2 & I3)]; cbn [lookup_function functions].
  - split; [|split]; try discriminate.
    + intros f. split; [discriminate|]. intros (n & H). destruct (first_match_nil _ _ _ H).
    + split; [intros _ x []|reflexivity].
  - destruct (sel_function s) as [f|]; [|auto]. unfold func_is_name.
    destruct (String.eqb_spec (f_name f) name) as [E|N].
    + split; [|split]; try discriminate.
      * intros g. split.
        -- intros [= <-]. exists 0. now apply first_match_here.
        -- intros (n & H). apply first_match_here in H; [|exact E]. now destruct H as [_ ->].
      * split; [discriminate|]. intros H. exfalso. exact (H f (or_introl eq_refl) E).
    + split; [|split].
      * intros g. rewrite I1. split.
        -- intros (n & H). exists (S n). apply first_match_later; eauto.
        -- intros (n & H). apply first_match_later in H; [|exact N]. destruct H as (m & _ & H). eauto.
      * rewrite I2. split; [intros H x [<-|Hx]; [exact N|exact (H x Hx)]|]. intros H x Hx. apply H. cbn. auto.
      * exact I3.
Qed.

(** ** SELECT *)
Lemma join_concat sep l : join sep l = String.concat sep l.
Proof. induction l as [|x [|y l] IH]; cbn in *; congruence. Qed.

Lemma join_app_space a b : a <> [] -> b <> [] -> join " " (a ++ b) = (join " " a ++ " " ++ join " " b)%string.
Proof.
  intros Ha Hb. induction a as [|x a IH]; [congruence|]. destruct a as [|y a].
  - cbn. destruct b; [congruence|reflexivity].
  - cbn [app join] in *. rewrite IH by discriminate. cbn. now rewrite !sapp_assoc.
Qed.

Lemma order_by_nonempty o os : (0 <? String.length (order_by_string (o :: os))) = true.
Proof. reflexivity. Qed.

Lemma length_pos s : (0 <? String.length s) = negb (String.eqb s "").
Proof. destruct s; reflexivity. Qed.

Lemma show_N_nonempty n : show_N n <> ""%string.
Proof. destruct (show_N_digits n). assumption. Qed.

(** every clause, in the order in which the code writes them *)
Lemma select_actual s :
  select_string s =
  ("SELECT " ++ (match sel_selectors s with [] => "*" | l => comma_list (selector_names l) end)
   ++ " FROM " ++ comma_list (table_names (sel_tables s))
   ++ (match sel_where s with Some e => " WHERE " ++ expr_string e | None => "" end)
   ++ (match sel_order_by s with [] => "" | os => " ORDER BY " ++ comma_list (map order_string os) end)
   ++ clause (negb (lim_limit (sel_limit s) =? 0)%N) (" LIMIT " ++ ModelNum.show_N (lim_limit (sel_limit s)))
   ++ clause (negb (lim_offset (sel_limit s) =? 0)%N) (" OFFSET " ++ ModelNum.show_N (lim_offset (sel_limit s)))
   ++ clause (negb (String.eqb (sel_group_by s) "")) (" GROUP BY " ++ sel_group_by s))%string.
Proof.
  destruct s as [ts sels w os [off lim] g].
  unfold select_string. cbn [sel_tables sel_selectors sel_where sel_order_by sel_limit lim_limit lim_offset sel_group_by].
  unfold tables_string, selectors_string, order_by_string, limit_string, group_by_string, table_names,
    join_with_comma, comma_list, clause.
  cbn [lim_limit lim_offset].
  generalize (show_N_nonempty lim) (show_N_nonempty off). generalize (show_N lim) (show_N off). intros SL SO NL NO.
  destruct sels as [|x sels]; cbn match;
  [generalize "*"%string; intros S
  |rewrite (join_concat ", " (selector_names (x :: sels)));
   generalize (String.concat ", " (selector_names (x :: sels))); intros S].
  all: rewrite (join_concat ", " (map full_table_name ts)); generalize (String.concat ", " (map full_table_name ts)); intros T.
  all: assert (EL : forall n, (0 <? n)%N = negb (n =? 0)%N) by (intros [|n]; reflexivity).
  all: rewrite !EL.
  all: destruct w as [e|]; destruct os as [|o os]; destruct (lim =? 0)%N; destruct (off =? 0)%N; destruct g as [|cg g];
    rewrite ?join_concat;
    cbn [has_conditions condition_string negb app join_with_space join append String.length Nat.eqb Nat.ltb Nat.leb String.eqb];
    rewrite ?sapp_assoc; cbn [append]; rewrite ?sapp_assoc; cbn [append]; rewrite ?append_nil_r; reflexivity.
Qed.

Lemma select_in_order s :
  (sel_group_by s = "" \/ (sel_order_by s = [] /\ lim_limit (sel_limit s) = 0%N /\ lim_offset (sel_limit s) = 0%N)) ->
  select_string s = sql_select s.
Proof.
  rewrite select_actual. unfold sql_select. intros [E|(E1 & E2 & E3)].
  - rewrite E. cbn [String.eqb negb clause append]. now rewrite append_nil_r.
  - rewrite E1, E2, E3. cbn [N.eqb negb clause append]. now rewrite !append_nil_r.
Qed.

(** ** SetSchema *)
Lemma set_definition_names cast h c d c' h' r :
  set_definition cast h c d = (c', h', r) ->
  pc_name c' = pc_name c /\ pc_def c' = d /\ pc_lit c' = pc_lit c /\ pc_fn c' = pc_fn c /\ r <> Panic.
Proof.
  unfold set_definition. destruct d as [df|], (pc_lit c) as [p|].
  - destruct (target_type (d_type df)); [destruct (cast g _)|]; intros [= <- <- <-]; cbn; repeat split; discriminate.
  - intros [= <- <- <-]. cbn. repeat split; discriminate.
  - intros [= <- <- <-]. cbn. repeat split; discriminate.
  - intros [= <- <- <-]. cbn. repeat split; discriminate.
Qed.

Lemma set_schema_spec cast schema : forall cs h cs' h' r,
  set_schema cast h cs schema = (cs', h', r) ->
  map pc_name cs' = map pc_name cs /\ map pc_lit cs' = map pc_lit cs /\ map pc_fn cs' = map pc_fn cs /\ r <> Panic /\
  (r = Ok tt -> forall n c c', nth_error cs n = Some c -> nth_error cs' n = Some c' ->
     exists k sc, first_match (fun s => same_text (c_name s) (pc_name c)) schema k sc /\ pc_def c' = c_def sc) /\
  ((exists c, In c cs /\ no_match (fun s => same_text (c_name s) (pc_name c)) schema) -> r <> Ok tt).
Proof.
  induction cs as [|c cs IH]; intros h cs' h' r; cbn [set_schema].
  - intros [= <- <- <-]. repeat split; try discriminate; [intros _ [|n]; discriminate|]. intros (c & [] & _).
  - destruct (column_lookup schema (pc_name c)) as (L1 & _ & L2 & _ & L3 & _).
    destruct (lookup_column schema (pc_name c)) as [sc|e|] eqn:EL; [| |congruence].
    + destruct (set_definition cast h c (c_def sc)) as [[c1 h1] r1] eqn:ED.
      destruct (set_definition_names _ _ _ _ _ _ _ ED) as (N1 & N2 & N3 & N4 & N5).
      destruct (proj1 (L1 sc) eq_refl) as (k & Hk).
      destruct r1 as [u|e|]; [| |congruence].
      * destruct (set_schema cast h1 cs schema) as [[cs2 h2] r2] eqn:ES.
        destruct (IH _ _ _ _ ES) as (A & B & C & D & E & F). intros [= <- <- <-].
        split; [cbn; congruence|]. split; [cbn; congruence|]. split; [cbn; congruence|]. split; [exact D|]. split.
        -- intros R [|n] x y; cbn; [intros [= <-] [= <-]; eauto|]. apply (E R).
        -- intros (x & [<-|Hx] & Hn); [|apply F; eauto].
           exfalso. destruct Hk as (Hk & Hp & _). exact (Hn sc (nth_error_In schema k Hk) Hp).
      * intros [= <- <- <-].
        split; [cbn; congruence|]. split; [cbn; congruence|]. split; [cbn; congruence|]. split; [discriminate|].
        split; [discriminate|]. discriminate.
    + intros [= <- <- <-]. repeat split; try discriminate.
Qed.

(** ** The statements of the properties *)
Lemma removed_loses {A} (f : A -> string) name l l' :
  removed f name l l' ->
  length (filter (fun x => equal_fold (f x) name) l) = S (length (filter (fun x => equal_fold (f x) name) l')).
Proof.
  intros (n & x & (En & Hx & _) & ->).
  assert (E : l = firstn n l ++ x :: skipn (S n) l).
  { clear Hx. revert l En. induction n as [|n IH]; intros [|y l] En; cbn in *; try discriminate; [congruence|].
    f_equal. now apply IH. }
  rewrite E at 1. rewrite !filter_app, !app_length. cbn [filter].
  apply equal_fold_iff in Hx. rewrite Hx. cbn [length]. lia.
Qed.

Lemma drop_cases {A} (f : A -> string) name l :
  (exists l', drop_first_other f name l = Some l' /\
     (forall x, same_text (f x) name -> In x l -> In x l') /\ ~ removed f name l l' /\
     (exists n x, first_match (fun y => ~ same_text (f y) name) l n x /\ l' = firstn n l ++ skipn (S n) l) /\
     ~ (forall x, In x l -> same_text (f x) name)) \/
  (drop_first_other f name l = None /\ ~ removed f name l l /\ forall x, In x l -> same_text (f x) name).
Proof.
  pose proof (drop_first_other_spec f name l) as H. destruct (drop_first_other f name l) as [l'|] eqn:E.
  - left. exists l'. split; [reflexivity|]. pose proof (drop_first_other_filter f name l l' E) as F. split; [|split; [|split]].
    + intros x Hx I. apply equal_fold_iff in Hx.
      assert (J : In x (filter (fun y => equal_fold (f y) name) l)) by (apply filter_In; auto).
      rewrite <- F in J. now apply filter_In in J.
    + intros R. apply removed_loses in R. rewrite F in R. lia.
    + exact H.
    + destruct H as (n & x & (En & Hx & _) & _). intros All. exact (Hx (All x (nth_error_In l n En))).
  - right. split; [reflexivity|]. split; [|exact H]. intros R. apply removed_loses in R. lia.
Qed.

Lemma drop_column_removes_other s t c s' r :
  alter_schema s (only_drop_column t c) = (s', r) ->
  (forall x, same_text (c_name x) (c_name c) -> In x (s_columns s) -> In x (s_columns s')) /\
  ~ removed c_name (c_name c) (s_columns s) (s_columns s') /\
  (r = Ok tt -> exists n x, first_match (fun y => ~ same_text (c_name y) (c_name c)) (s_columns s) n x /\
                            s_columns s' = firstn n (s_columns s) ++ skipn (S n) (s_columns s)) /\
  (r <> Ok tt <-> forall x, In x (s_columns s) -> same_text (c_name x) (c_name c)) /\
  s_indexes s' = s_indexes s /\ s_table s' = s_table s.
Proof.
  rewrite alter_drop_column. destruct (drop_cases c_name (c_name c) (s_columns s)) as [(l' & -> & A & B & C & D)|(-> & B & C)];
    intros [= <- <-]; cbn [s_columns s_indexes s_table].
  - split; [exact A|]. split; [exact B|]. split; [intros _; exact C|]. split; [|split; reflexivity].
    split; [intros H; destruct (H eq_refl)|intros H; destruct (D H)].
  - split; [auto|]. split; [exact B|]. split; [discriminate|]. split; [|split; reflexivity].
    split; [auto|discriminate].
Qed.

Lemma drop_index_removes_other s t i s' r :
  alter_schema s (only_drop_index t i) = (s', r) ->
  (forall x, same_text (i_name x) (i_name i) -> In x (s_indexes s) -> In x (s_indexes s')) /\
  ~ removed i_name (i_name i) (s_indexes s) (s_indexes s') /\
  (r = Ok tt -> exists n x, first_match (fun y => ~ same_text (i_name y) (i_name i)) (s_indexes s) n x /\
                            s_indexes s' = firstn n (s_indexes s) ++ skipn (S n) (s_indexes s)) /\
  (r <> Ok tt <-> forall x, In x (s_indexes s) -> same_text (i_name x) (i_name i)) /\
  s_columns s' = s_columns s /\ s_table s' = s_table s.
Proof.
  rewrite alter_drop_index. destruct (drop_cases i_name (i_name i) (s_indexes s)) as [(l' & -> & A & B & C & D)|(-> & B & C)];
    intros [= <- <-]; cbn [s_columns s_indexes s_table].
  - split; [exact A|]. split; [exact B|]. split; [intros _; exact C|]. split; [|split; reflexivity].
    split; [intros H; destruct (H eq_refl)|intros H; destruct (D H)].
  - split; [auto|]. split; [exact B|]. split; [discriminate|]. split; [|split; reflexivity].
    split; [auto|discriminate].
Qed.

Lemma double_precision_tokens entries :
  Permutation entries data_type_strings ->
  data_def_from_strings entries ["DOUBLE"; "PRECISION"] = Ok (new_data_def DoubleType (-1)).
Proof.
  intros HP. cbn [data_def_from_strings length Nat.leb]. unfold data_def_from.
  destruct (data_type_parse entries "DOUBLE" HP) as [P _].
  rewrite (P DoubleType "DOUBLE"); [reflexivity|cbn; tauto|left; reflexivity].
Qed.
Lemma unbalanced_tokens entries :
  Permutation entries data_type_strings ->
  data_def_from_strings entries ["INT"; "("; "4"; "["] = Ok (new_data_def IntType 4) /\
  data_def_from_strings entries ["INT"; "x"; "4"; ")"] = Ok (new_data_def IntType 4).
Proof.
  intros HP. destruct (data_type_parse entries "INT" HP) as [P _].
  assert (E : data_type_from_string entries "INT" = Ok IntType) by (apply (P _ "INT"); [cbn; tauto|left; reflexivity]).
  split; cbn [data_def_from_strings length Nat.leb nth]; cbn [String.eqb Ascii.eqb Bool.eqb orb];
    change (atoi "4") with (Some 4%Z); unfold data_def_from; rewrite E; reflexivity.
Qed.

Lemma set_value_effect cast h c v p l :
  pc_lit c = Some p -> nth_error h p = Some l ->
  exists w ok h', stored cast (pc_def c) v w ok /\
    set_value cast h c v = (c, h', if ok then Ok tt else Err ErrCast) /\
    nth_error h' p = Some (mkLit w (l_type l)) /\
    (forall q, q <> p -> nth_error h' q = nth_error h q).
Proof.
  intros Hp Hl. destruct (set_value_spec cast h c v p l Hp Hl) as (w & ok & Hs & E).
  assert (Hlen : p < length h) by (apply nth_error_Some; congruence).
  exists w, ok. eexists. split; [exact Hs|]. split; [exact E|]. split; [now apply heap_set_same|].
  intros q Hq. apply heap_set_other. auto.
Qed.

Lemma copy_shares_value cast h c v h' r p :
  pc_lit c = Some p -> p < length h -> set_value cast h (copy_pcolumn c) v = (copy_pcolumn c, h', r) ->
  exists w ok l, stored cast (pc_def c) v w ok /\ l_value l = w /\
    reports h' c = (pc_name c, pc_def c, Some l, pc_fn c).
Proof.
  intros Hp Hlen E. apply nth_error_Some in Hlen. destruct (nth_error h p) as [l|] eqn:El; [|congruence].
  destruct (set_value_effect cast h (copy_pcolumn c) v p l Hp El) as (w & ok & h2 & Hs & E2 & Hn & _).
  rewrite E2 in E. injection E as E3 E4. subst h2. exists w, ok, (mkLit w (l_type l)).
  split; [exact Hs|]. split; [reflexivity|]. unfold reports. rewrite Hp. now rewrite Hn.
Qed.

Lemma full_name_of_name n : full_table_name (new_table n) = n.
Proof. apply full_table_name_spec. left. reflexivity. Qed.

Lemma create_index_adds name tbl i ifne s :
  exists a, alter_table_from (SCreateIndex (mkSchema tbl [] [secondary_index name i]) ifne) = Ok a /\
    full_table_name (al_table a) = full_table_name tbl /\
    alter_schema s a = (mkSchema (s_table s) (s_columns s) (s_indexes s ++ [secondary_index name i]), Ok tt).
Proof.
  eexists. split; [reflexivity|]. split; [|reflexivity]. cbn [al_table s_table]. apply full_name_of_name.
Qed.
Lemma drop_index_converts sn name ife :
  exists a i, alter_table_from (SDropIndex sn name ife) = Ok a /\ i_name i = name /\
    full_table_name (al_table a) = sn /\ a = only_drop_index (al_table a) i.
Proof.
  eexists. exists (mkIdx name UnknownIndex []). split; [reflexivity|]. split; [reflexivity|]. cbn [al_table].
  split; [rewrite !full_name_of_name; reflexivity|reflexivity].
Qed.
Lemma drop_index_keeps sn name ife s a s' r :
  alter_table_from (SDropIndex sn name ife) = Ok a -> alter_schema s a = (s', r) ->
  forall x, same_text (i_name x) name -> In x (s_indexes s) -> In x (s_indexes s').
Proof.
  intros E. destruct (drop_index_converts sn name ife) as (a' & i & E1 & E2 & _ & E3).
  rewrite E1 in E. injection E as E. subst a'. rewrite E3. intros H. apply drop_index_removes_other in H.
  rewrite <- E2. apply H.
Qed.
