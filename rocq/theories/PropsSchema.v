(** Property C84: a result schema is what its options say. *)
From Verif Require Import GoBase FactsBase ModelFn ModelQuery ModelAggregate ModelColumn SpecSchema ProofFn.

Lemma last_given_snoc {O X} (pick : O -> option X) opts d x o :
  last_given pick opts d x -> last_given pick (opts ++ [o]) d (match pick o with Some y => y | None => x end).
Proof.
  intro L. destruct (pick o) as [y|] eqn:P.
  - left. exists opts, o, []. split; [reflexivity|]. split; [exact P|constructor].
  - destruct L as [(b & p & a & E & Q & F)|[F E]].
    + left. exists b, p, (a ++ [o]). rewrite E. split; [rewrite <- app_assoc; reflexivity|]. split; [exact Q|].
      apply Forall_app. split; [exact F|]. constructor; [exact P|constructor].
    + right. split; [|exact E]. apply Forall_app. split; [exact F|]. constructor; [exact P|constructor].
Qed.

(** the last option of a kind is one option *)
Lemma last_given_unique {O X} (pick : O -> option X) opts d x y :
  last_given pick opts d x -> last_given pick opts d y -> x = y.
Proof.
  intros [(b & o & a & E & P & F)|[F E]] [(b' & o' & a' & E' & P' & F')|[F' E']].
  - assert (Q : o = o').
    { clear - E E' P P' F F'. rewrite E in E'. clear E. revert b' E'. induction b as [|z b IH]; intros [|z' b'] E'; cbn in E'.
      - injection E' as H _. exact H.
      - injection E' as _ ->. rewrite Forall_forall in F. specialize (F o'). rewrite F in P'; [discriminate P'|]. apply in_or_app. right. left. reflexivity.
      - injection E' as -> <-. rewrite Forall_forall in F'. specialize (F' o). rewrite F' in P; [discriminate P|]. apply in_or_app. right. left. reflexivity.
      - injection E' as _ E'. exact (IH b' E'). }
    congruence.
  - rewrite Forall_forall in F'. specialize (F' o). rewrite F' in P; [discriminate P|]. rewrite E. apply in_or_app. right. left. reflexivity.
  - rewrite Forall_forall in F. specialize (F o'). rewrite F in P'; [discriminate P'|]. rewrite E'. apply in_or_app. right. left. reflexivity.
  - congruence.
Qed.

Lemma first_lookup b n :
  match lookup_column (s_columns b) n with
  | Ok tc => first_named b n tc
  | Err e => e = ErrNotFound /\ forall tc, ~ first_named b n tc
  | Panic => False
  end.
Proof.
  unfold first_named. induction (s_columns b) as [|c cs IH]; cbn [lookup_column].
  - split; [reflexivity|]. intros tc (x & y & E & _). destruct x; discriminate E.
  - destruct (equal_fold (c_name c) n) eqn:Q.
    + exists [], cs. split; [reflexivity|]. split; [exact Q|constructor].
    + destruct (lookup_column cs n) as [tc|e|]; [| |exact IH].
      * destruct IH as (x & y & E & M & F). exists (c :: x), y. rewrite E. split; [reflexivity|]. split; [exact M|]. constructor; [exact Q|exact F].
      * destruct IH as [He N]. split; [exact He|]. intros tc (x & y & E & M & F). destruct x as [|z x]; cbn in E; injection E as -> E.
        -- congruence.
        -- apply (N tc). exists x, y. split; [exact E|]. split; [exact M|]. inversion F; assumption.
Qed.

Lemma shows_column tc : shows tc (scol_of_column tc).
Proof. unfold shows, scol_of_column. cbn. split; [reflexivity|]. split; [reflexivity|]. intros d ->. split; reflexivity. Qed.

Lemma selector_column_for b sel :
  match selector_column b sel with
  | Ok c => column_for b sel c
  | Err _ => forall c, ~ column_for b sel c
  | Panic => False
  end.
Proof.
  unfold selector_column, column_for. destruct (sel_function sel) as [f|].
  - unfold data_type_for_function.
    assert (K : In (f_type f) [MathFunction; AggregateFunction; CastFunction; ArithOperator] \/
                ~ In (f_type f) [MathFunction; AggregateFunction; CastFunction; ArithOperator])
      by (destruct (f_type f); cbn; (left; tauto) || (right; intuition discriminate)).
    destruct (f_type f); cbn [rbind]; destruct K as [K|K]; try (exfalso; cbn in K; intuition discriminate);
      try (exfalso; apply K; cbn; tauto); try (split; [exact K|]; cbn; tauto); intros c [H _]; exact (K H).
  - pose proof (first_lookup b (sel_name sel)) as L. destruct (lookup_column (s_columns b) (sel_name sel)) as [tc|e|]; cbn [rbind].
    + exists tc. split; [exact L|apply shows_column].
    + intros c (tc & H & _). destruct L as [_ L]. exact (L tc H).
    + exact L.
Qed.

Lemma selector_columns_for b l :
  match selector_columns b l with
  | Ok cs => Forall2 (column_for b) l cs
  | Err _ => forall cs, ~ Forall2 (column_for b) l cs
  | Panic => False
  end.
Proof.
  induction l as [|s l IH]; cbn [selector_columns]; [constructor|].
  pose proof (selector_column_for b s) as S. destruct (selector_column b s) as [c|e|]; cbn [rbind]; [| |exact S].
  - destruct (selector_columns b l) as [cs|e|]; cbn [rbind]; [constructor; assumption| |exact IH].
    intros cs F. inversion F; subst. eapply IH; eassumption.
  - intros cs F. inversion F; subst. eapply S; eassumption.
Qed.

Section Options.
  Context {V : Type} (value_type : V -> result dtype).
  Hypothesis no_panic : forall v, value_type v <> Panic.

  Lemma object_columns_for es :
    match object_columns value_type es with
    | Ok cs => Forall2 (column_of_entry value_type) es cs
    | Err _ => forall cs, ~ Forall2 (column_of_entry value_type) es cs
    | Panic => False
    end.
  Proof.
    induction es as [|[k [v|]] es IH]; cbn [object_columns]; [constructor| |].
    - pose proof (no_panic v) as NP. destruct (value_type v) as [t|e|] eqn:T; cbn [rbind]; [| |congruence].
      + destruct (object_columns value_type es) as [cs|e|]; cbn [rbind]; [| |exact IH].
        * constructor; [|exact IH]. exists v. cbn. rewrite T. tauto.
        * intros cs F. inversion F; subst. eapply IH; eassumption.
      + intros cs F. inversion F as [|x y l l' (w & E & T' & _)]; subst. cbn in E. injection E as <-. congruence.
    - intros cs F. inversion F as [|x y l l' (w & E & _)]; subst. discriminate E.
  Qed.

  Lemma applied s o :
    let r := apply_sopt value_type s o in
    rss_database (fst r) = match a_database o with Some n => n | None => rss_database s end
    /\ rss_table (fst r) = match a_table o with Some n => n | None => rss_table s end
    /\ rss_base (fst r) = match a_base o with Some b => b | None => rss_base s end
    /\ ((snd r = Ok tt /\ about_columns o /\ gives value_type (rss_base s) o (rss_columns (fst r)))
        \/ (snd r = Ok tt /\ ~ about_columns o /\ rss_columns (fst r) = rss_columns s)
        \/ ((exists e, snd r = Err e) /\ about_columns o /\ fst r = s /\ forall cs, ~ gives value_type (rss_base s) o cs)).
  Proof.
    destruct o as [n|n|l|b|l|es]; cbn [apply_sopt].
    1-4: cbn; repeat split; (left; split; [reflexivity|split; [exact I|reflexivity]]) || (right; left; split; [reflexivity|split; [tauto|reflexivity]]).
    - destruct (rss_base s) as [b|] eqn:B.
      + pose proof (selector_columns_for b l) as S. destruct (selector_columns b l) as [cs|e|]; cbn; [| |destruct S].
        * repeat split. left. split; [reflexivity|]. split; [exact I|]. exists b. split; [reflexivity|exact S].
        * repeat split; [exact B|]. right. right. split; [exists e; reflexivity|]. split; [exact I|]. split; [reflexivity|].
          intros cs (b' & E & F). injection E as <-. exact (S cs F).
      + cbn. repeat split; [exact B|]. right. right. split; [eexists; reflexivity|]. split; [exact I|]. split; [reflexivity|].
        intros cs (b' & E & F). discriminate E.
    - pose proof (object_columns_for es) as S. destruct (object_columns value_type es) as [cs|e|]; cbn; [| |destruct S].
      + repeat split. left. split; [reflexivity|]. split; [exact I|exact S].
      + repeat split. right. right. split; [exists e; reflexivity|]. split; [exact I|]. split; [reflexivity|exact S].
  Qed.

  Lemma snoc_split {A} (l : list A) x before o after :
    l ++ [x] = before ++ o :: after -> (after = [] /\ l = before /\ x = o) \/ exists a, after = a ++ [x] /\ l = before ++ o :: a.
  Proof.
    intro E. destruct after as [|y after] using rev_ind.
    - left. apply app_inj_tail in E. destruct E as [-> ->]. tauto.
    - right. clear IHafter. exists after. change (before ++ o :: after ++ [y]) with (before ++ (o :: after) ++ [y]) in E.
      rewrite app_assoc in E. apply app_inj_tail in E. destruct E as [-> ->]. split; reflexivity.
  Qed.

  Definition state_of (opts : list (sopt V)) (s : rschema) : Prop :=
    last_given a_database opts "" (rss_database s) /\ last_given a_table opts "" (rss_table s)
    /\ last_given a_base opts None (rss_base s)
    /\ ((exists before o after base, opts = before ++ o :: after /\ last_given a_base before None base
           /\ gives value_type base o (rss_columns s) /\ nothing_after value_type (S (length before)) opts)
        \/ (rss_columns s = [] /\ nothing_after value_type 0 opts)).

  Lemma state_snoc opts s o : state_of opts s -> state_of (opts ++ [o]) (fst (apply_sopt value_type s o)).
  Proof.
    intros (D & T & B & C). destruct (applied s o) as (D' & T' & B' & C').
    split; [rewrite D'; apply last_given_snoc; exact D|]. split; [rewrite T'; apply last_given_snoc; exact T|].
    split; [rewrite B'; apply last_given_snoc; exact B|].
    destruct C' as [(_ & A & G)|K].
    - left. exists opts, o, [], (rss_base s). split; [reflexivity|]. split; [exact B|]. split; [exact G|].
      intros b p a base cs E L. apply (f_equal (@length _)) in E. rewrite !app_length in E. cbn in E. lia.
    - assert (N : rss_columns (fst (apply_sopt value_type s o)) = rss_columns s /\ forall cs, ~ gives value_type (rss_base s) o cs).
      { destruct K as [(_ & A & E)|(_ & A & E & G)].
        - split; [exact E|]. intros cs G. apply A. destruct o; cbn in G |- *; try exact I; destruct G.
        - split; [rewrite E; reflexivity|exact G]. }
      destruct N as [-> N].
      assert (NA : forall n, nothing_after value_type n opts -> nothing_after value_type n (opts ++ [o])).
      { intros n H b p a base cs E L LB. apply snoc_split in E. destruct E as [(-> & <- & <-)|(a' & -> & E)].
        - rewrite (last_given_unique _ _ _ _ _ LB B). apply N.
        - exact (H b p a' base cs E L LB). }
      destruct C as [(b & p & a & base & E & LB & G & H)|(E & H)].
      + left. exists b, p, (a ++ [o]), base. rewrite E at 1. split; [rewrite <- app_assoc; reflexivity|]. split; [exact LB|]. split; [exact G|].
        apply NA. exact H.
      + right. split; [exact E|]. apply NA. exact H.
  Qed.

  Lemma state_blank : state_of [] blank_rschema.
  Proof.
    repeat split; try (right; split; [constructor|reflexivity]). right. split; [reflexivity|].
    intros b o a base cs E. destruct b; discriminate E.
  Qed.

  Lemma new_state opts : state_of opts (new_rschema value_type opts).
  Proof.
    induction opts as [|o opts IH] using rev_ind; [exact state_blank|].
    unfold new_rschema. rewrite fold_left_app. cbn [fold_left]. apply state_snoc. exact IH.
  Qed.

  Lemma from_state opts : forall done s, state_of done s ->
    match rschema_from_opts value_type s opts with
    | Ok s' => s' = fold_left (fun s o => fst (apply_sopt value_type s o)) opts s
        /\ (forall before o after base, opts = before ++ o :: after -> about_columns o -> last_given a_base (done ++ before) None base -> exists cs, gives value_type base o cs)
    | Err e => exists before o after base, opts = before ++ o :: after /\ about_columns o /\ last_given a_base (done ++ before) None base
        /\ forall cs, ~ gives value_type base o cs
    | Panic => False
    end.
  Proof.
    induction opts as [|o opts IH]; intros done s SO; cbn [rschema_from_opts fold_left].
    - split; [reflexivity|]. intros b o a base E. destruct b; discriminate E.
    - pose proof (applied s o) as (_ & _ & _ & C). pose proof (state_snoc done s o SO) as SO'.
      assert (B : last_given a_base done None (rss_base s)) by apply SO.
      specialize (IH (done ++ [o]) _ SO'). destruct (apply_sopt value_type s o) as [s' r]. cbn [fst snd] in *.
      destruct C as [(-> & A & G)|[(-> & A & _)|((e & ->) & A & _ & G)]]; cbn [rbind].
      + destruct (rschema_from_opts value_type s' opts) as [s2|e|]; [| |exact IH].
        * destruct IH as [-> IH]. split; [reflexivity|]. intros b p a base E AC L. destruct b as [|q b]; cbn in E; injection E as -> E.
          -- rewrite app_nil_r in L. rewrite (last_given_unique _ _ _ _ _ L B). eexists. exact G.
          -- apply (IH b p a base E AC). rewrite <- app_assoc. exact L.
        * destruct IH as (b & p & a & base & E & AC & L & N). exists (o :: b), p, a, base. rewrite E. split; [reflexivity|]. split; [exact AC|].
          split; [rewrite <- app_assoc in L; exact L|exact N].
      + destruct (rschema_from_opts value_type s' opts) as [s2|e|]; [| |exact IH].
        * destruct IH as [-> IH]. split; [reflexivity|]. intros b p a base E AC L. destruct b as [|q b]; cbn in E; injection E as -> E.
          -- destruct (A AC).
          -- apply (IH b p a base E AC). rewrite <- app_assoc. exact L.
        * destruct IH as (b & p & a & base & E & AC & L & N). exists (o :: b), p, a, base. rewrite E. split; [reflexivity|]. split; [exact AC|].
          split; [rewrite <- app_assoc in L; exact L|exact N].
      + exists [], o, opts, (rss_base s). split; [reflexivity|]. split; [exact A|]. split; [rewrite app_nil_r; exact B|exact G].
  Qed.
End Options.

(** NewSchema: the database and the table are those of the last option that gives one, a table's schema giving its
    name; the columns are those of the last option that gives columns, or none. *)
Theorem C84_options : forall (V : Type) (value_type : V -> result dtype) opts, (forall v, value_type v <> Panic) ->
  let s := new_rschema value_type opts in
  last_given a_database opts "" (rss_database s) /\ last_given a_table opts "" (rss_table s)
  /\ ((exists before o after base, opts = before ++ o :: after /\ last_given a_base before None base
         /\ gives value_type base o (rss_columns s) /\ nothing_after value_type (S (length before)) opts)
      \/ (rss_columns s = [] /\ nothing_after value_type 0 opts)).
Proof. intros V vt opts NP s. destruct (new_state vt NP opts) as (D & T & _ & C). exact (conj D (conj T C)). Qed.
Print Assumptions C84_options.

(** NewSchemaFrom: the same schema if every option about columns gives some, and otherwise an error. *)
Theorem C84_checked : forall (V : Type) (value_type : V -> result dtype) opts, (forall v, value_type v <> Panic) ->
  match new_rschema_from value_type opts with
  | Ok s => s = new_rschema value_type opts /\
      forall before o after base, opts = before ++ o :: after -> about_columns o -> last_given a_base before None base ->
        exists cs, gives value_type base o cs
  | Err _ => exists before o after base, opts = before ++ o :: after /\ about_columns o /\ last_given a_base before None base
      /\ forall cs, ~ gives value_type base o cs
  | Panic => False
  end.
Proof. intros V vt opts NP. exact (from_state vt NP opts [] blank_rschema (state_blank vt)). Qed.
Print Assumptions C84_checked.

Definition wt_base : schema := new_schema "t" [new_def_column "a" (new_data_def IntType (-1)); new_def_column "b" (new_data_def TextType (-1))] [].
Example C84_case : let vt := fun v : bool => if v then Ok BooleanType else Err ErrInvalid in
  let opts := [SoDatabase "d"; SoTable "u"; SoBase wt_base; SoSelectors [SelCol (new_column "B"); SelFn (new_func "SUM" ["a"])]; SoObject [("x", Some false)]] in
  let s := new_rschema vt opts in
  rss_database s = "d"%string /\ rss_table s = "t"%string /\ map sc_name (rss_columns s) = ["b"; "SUM(a)"]%string
  /\ new_rschema_from vt opts = Err ErrInvalid.
Proof. vm_compute. tauto. Qed.

(** LookupColumn: the first column of exactly this name. *)
Theorem C84_lookup : forall s name,
  match rs_lookup_column s name with
  | Ok c => exists before after, rss_columns s = before ++ c :: after /\ sc_name c = name /\ Forall (fun x => sc_name x <> name) before
  | Err e => e = ErrNotFound /\ Forall (fun x => sc_name x <> name) (rss_columns s)
  | Panic => False
  end.
Proof.
  intros s name. unfold rs_lookup_column. induction (rss_columns s) as [|c cs IH]; cbn [find]; [split; [reflexivity|constructor]|].
  destruct (String.eqb_spec (sc_name c) name) as [E|E].
  - exists [], cs. split; [reflexivity|]. split; [exact E|constructor].
  - destruct (find (fun c => String.eqb (sc_name c) name) cs) as [x|].
    + destruct IH as (b & a & -> & N & F). exists (c :: b), a. split; [reflexivity|]. split; [exact N|]. constructor; assumption.
    + destruct IH as [_ F]. split; [reflexivity|]. constructor; assumption.
Qed.
Print Assumptions C84_lookup.
Example C84_lookup_case : let s := new_rschema (fun _ : unit => Panic) [SoColumns [mkScol "a" IntType 0%N None; mkScol "b" IntType 0%N None; mkScol "b" TextType 0%N None]] in
  rs_lookup_column s "b" = Ok (mkScol "b" IntType 0%N None) /\ rs_lookup_column s "c" = Err ErrNotFound.
Proof. vm_compute. tauto. Qed.

(** A column that was selected in another case than the table's is not found by the name it was selected by, although
    the table's schema finds it. *)
Theorem C84_lookup_case_refuted : forall (V : Type) (value_type : V -> result dtype) base name tc,
  first_named base name tc -> c_name tc <> name ->
  let s := new_rschema value_type [SoBase base; SoSelectors [SelCol (new_column name)]] in
  lookup_column (s_columns base) name = Ok tc /\ map sc_name (rss_columns s) = [c_name tc] /\ rs_lookup_column s name = Err ErrNotFound.
Proof.
  intros V vt base name tc F NE s.
  assert (L : lookup_column (s_columns base) name = Ok tc).
  { destruct F as (b & a & E & M & F). rewrite E. clear E. induction F as [|x b X F IH]; cbn [lookup_column app]; [rewrite M; reflexivity|]. rewrite X. exact IH. }
  assert (C : rss_columns s = [scol_of_column tc]).
  { subst s. unfold new_rschema. cbn [fold_left apply_sopt fst blank_rschema rss_base rss_database rss_columns rss_table selector_columns].
    unfold selector_column. cbn [sel_function sel_name new_column c_fn c_name]. rewrite L. reflexivity. }
  split; [exact L|]. rewrite C. split; [reflexivity|]. unfold rs_lookup_column. rewrite C. cbn [find scol_of_column sc_name].
  apply String.eqb_neq in NE. rewrite NE. reflexivity.
Qed.
Print Assumptions C84_lookup_case_refuted.
Example C84_lookup_case_refuted_case : exists tc, first_named wt_base "A" tc /\ c_name tc <> "A"%string.
Proof. eexists. split; [exists [], (tl (s_columns wt_base)); split; [reflexivity|split; [reflexivity|constructor]]|discriminate]. Qed.

(** NewColumnFrom: the column of a result made from a table's column has its name, type and constraint, and prints the
    same definition when the table's column has no length and no constraint. *)
Theorem C84_column_from : forall c d, c_def c = Some d ->
  let r := scol_from c in
  sc_name r = c_name c /\ sc_type r = d_type d /\ sc_const r = d_consts d
  /\ ((d_length d <= 0)%Z -> d_consts d = 0%N -> sc_definition_string r = definition_string c).
Proof.
  intros c d E r. subst r. unfold scol_from, scol_of_column, sc_definition_string, definition_string, data_def_string. rewrite E.
  cbn. repeat split. intros L K. rewrite K. cbn. apply Z.ltb_ge in L. rewrite L. reflexivity.
Qed.
Print Assumptions C84_column_from.
(** It has no function, even if the table's column has one, and the length of its type is not printed. *)
Theorem C84_column_from_refuted : forall c d, c_def c = Some d ->
  sc_fn (scol_from c) = None /\ ((0 < d_length d)%Z -> sc_definition_string (scol_from c) <> definition_string c).
Proof.
  intros c d E. unfold scol_from, scol_of_column, sc_definition_string, definition_string, data_def_string. rewrite E. cbn [sc_fn sc_name sc_type sc_const].
  split; [reflexivity|]. intros L H. assert (K : (0 <? d_length d)%Z = true) by (apply Z.ltb_lt; exact L). rewrite K in H.
  assert (I : forall p a b, (p ++ a)%string = (p ++ b)%string -> a = b).
  { induction p as [|x p IH]; intros a b Q; [exact Q|]. cbn in Q. injection Q as Q. exact (IH _ _ Q). }
  destruct (0 <? String.length (constraint_string (d_consts d))).
  - rewrite !sapp_assoc in H. apply I, I, I in H. discriminate H.
  - rewrite ?sapp_assoc in H. apply I, I in H. pose proof (I (data_type_string (d_type d)) "" _ (eq_trans (append_nil_r _) H)) as Q. discriminate Q.
Qed.
Print Assumptions C84_column_from_refuted.
Example C84_column_from_case : let c := new_def_column "a" (mkDef 2%N VarCharType 10) in
  sc_definition_string (scol_from c) = "a VARCHAR NOT NULL"%string /\ definition_string c = "a VARCHAR(10)"%string.
Proof. vm_compute. tauto. Qed.
