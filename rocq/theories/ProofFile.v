(** Proofs for property C80. *)
From Verif Require Import GoBase FactsBase ModelUtil ModelNum ModelQuery ModelEbnf ModelGrammar ModelLex ModelVisitor ModelSqltest ModelFile SpecFile ProofFn ProofSqltest.

Fixpoint walk_all (keep : string -> bool) (path : string) (es : list node) : result (list string) :=
  match es with
  | [] => Ok []
  | e :: r => rbind (walk keep (path_join path (node_name e)) e) (fun a => rbind (walk_all keep path r) (fun b => Ok (a ++ b)))
  end.
Lemma walk_dir keep path name es : walk keep path (NDir name (Some es)) = walk_all keep path es.
Proof. cbn [walk]. induction es as [|e es IH]; [reflexivity|]. cbn [walk_all]. rewrite <- IH. reflexivity. Qed.

(** induction on trees *)
Fixpoint node_size (n : node) : nat :=
  match n with
  | NFile _ | NGone _ => 1
  | NDir _ None => 1
  | NDir _ (Some es) => S ((fix go es := match es with [] => 0 | e :: r => node_size e + go r end) es)
  end.
Lemma size_in e es name : In e es -> node_size e < node_size (NDir name (Some es)).
Proof.
  cbn [node_size]. induction es as [|d es IH]; [intros []|]. intros [->|I]; [lia|]. specialize (IH I). lia.
Qed.
Lemma node_ind' (P : node -> Prop) : (forall s, P (NFile s)) -> (forall s, P (NGone s)) -> (forall s, P (NDir s None)) ->
  (forall s es, (forall e, In e es -> P e) -> P (NDir s (Some es))) -> forall n, P n.
Proof.
  intros F G N D n. remember (node_size n) as k eqn:K. revert n K. induction k as [k IH] using lt_wf_ind. intros n ->.
  destruct n as [s|s [es|]|s]; [apply F| |apply N|apply G]. apply D. intros e I. exact (IH _ (size_in e es s I) e eq_refl).
Qed.

Lemma walk_ok keep n : forall path, ~ gone_below n -> exists l, walk keep path n = Ok l /\ forall q, In q l <-> file_at path n q /\ keep q = true.
Proof.
  induction n as [s|s|s|s es IH] using node_ind'; intros path G.
  - eexists. split; [reflexivity|]. intro q. split.
    + destruct (keep path) eqn:K; [intros [<-|[]]; split; [constructor|exact K]|intros []].
    + intros [F K]. inversion F; subst. rewrite K. left. reflexivity.
  - destruct G. constructor.
  - exists []. split; [reflexivity|]. intro q. split; [intros []|]. intros [F _]. inversion F.
  - rewrite walk_dir.
    assert (A : exists l, walk_all keep path es = Ok l /\ forall q, In q l <-> (exists e, In e es /\ file_at (path ++ "/" ++ node_name e) e q) /\ keep q = true).
    { assert (G' : forall e, In e es -> ~ gone_below e) by (intros e I B; apply G; exact (gb_entry s es e I B)). clear G.
      induction es as [|e es IHes].
      - exists []. split; [reflexivity|]. intro q. split; [intros []|]. intros [(e & [] & _) _].
      - destruct (IH e (or_introl eq_refl) (path_join path (node_name e)) (G' e (or_introl eq_refl))) as (a & A & HA).
        destruct IHes as (b & B & HB); [intros d I; exact (IH d (or_intror I))|intros d I; exact (G' d (or_intror I))|].
        exists (a ++ b). cbn [walk_all]. rewrite A. cbn [rbind]. rewrite B. split; [reflexivity|]. intro q. rewrite in_app_iff, HA, HB. split.
        + intros [[F K]|[(d & I & F) K]]; (split; [|exact K]); [exists e; split; [left; reflexivity|exact F]|exists d; split; [right; exact I|exact F]].
        + intros [(d & [->|I] & F) K]; [left; split; [exact F|exact K]|right; split; [exists d; split; assumption|exact K]]. }
    destruct A as (l & E & H). exists l. split; [exact E|]. intro q. rewrite H. split.
    + intros [(e & I & F) K]. split; [exact (fa_entry path s es e q I F)|exact K].
    + intros [F K]. inversion F; subst. split; [exists e; split; assumption|exact K].
Qed.

Lemma walk_gone keep n : forall path, gone_below n -> walk keep path n = Panic.
Proof.
  induction n as [s|s|s|s es IH] using node_ind'; intros path G; inversion G as [|? ? e I G' E]; subst; [reflexivity|]. rewrite walk_dir. clear G.
  assert (D : forall d path, In d es -> walk keep path d = Panic \/ exists l, walk keep path d = Ok l).
  { clear -IH. intros d path I. clear IH. revert path. generalize d as n. clear. induction n as [s|s|s|s es IH] using node_ind'; intro path; [right; eexists; reflexivity|left; reflexivity|right; eexists; reflexivity|].
    rewrite walk_dir. induction es as [|e es IHes]; [right; eexists; reflexivity|]. cbn [walk_all].
    destruct (IH e (or_introl eq_refl) (path_join path (node_name e))) as [->|(a & ->)]; [left; reflexivity|]. cbn [rbind].
    destruct IHes as [->|(b & ->)]; [intros d I; exact (IH d (or_intror I))|left; reflexivity|right; eexists; reflexivity]. }
  induction es as [|d es IHes]; [destruct I|]. cbn [walk_all]. destruct I as [->|I].
  - rewrite (IH e (or_introl eq_refl) _ G'). reflexivity.
  - destruct (D d (path_join path (node_name d)) (or_introl eq_refl)) as [->|(a & ->)]; [reflexivity|]. cbn [rbind].
    rewrite IHes; [reflexivity|intros f J; exact (IH f (or_intror J))|exact I|intros f p J; exact (D f p (or_intror J))].
Qed.

(** ** No path twice *)
Lemma file_at_prefix path n q : file_at path n q -> q = path \/ exists r, q = (path ++ "/" ++ r)%string.
Proof.
  intro F. induction F as [path name|path name es e q I F IH]; [left; reflexivity|]. right.
  destruct IH as [->|(r & ->)]; [exists (node_name e); reflexivity|]. exists (node_name e ++ "/" ++ r)%string. rewrite !sapp_assoc. reflexivity.
Qed.
Lemma sapp_inj p a b : (p ++ a)%string = (p ++ b)%string -> a = b.
Proof. induction p as [|c p IH]; intro E; [exact E|]. injection E as E. exact (IH E). Qed.
Lemma slash_name a b x y : ~ In "/"%char (list_ascii_of_string a) -> ~ In "/"%char (list_ascii_of_string b) ->
  (x = "" \/ exists r, x = "/" ++ r)%string -> (y = "" \/ exists r, y = "/" ++ r)%string -> (a ++ x)%string = (b ++ y)%string -> a = b.
Proof.
  revert b. induction a as [|c a IH]; intros [|d b] A B X Y E; [reflexivity| | |].
  - destruct X as [->|(r & ->)]; [discriminate E|]. injection E as E1 E2. destruct B. left. symmetry. exact E1.
  - destruct Y as [->|(r & ->)]; [discriminate E|]. injection E as E1 E2. destruct A. left. exact E1.
  - injection E as -> E. f_equal. refine (IH b _ _ X Y E); [intro I; apply A; right; exact I|intro I; apply B; right; exact I].
Qed.
Lemma file_at_entry path e q : file_at (path ++ "/" ++ node_name e) e q -> exists x, q = (path ++ "/" ++ node_name e ++ x)%string /\ (x = "" \/ exists r, x = "/" ++ r)%string.
Proof.
  intro F. apply file_at_prefix in F. destruct F as [->|(r & ->)].
  - exists ""%string. rewrite append_nil_r. split; [reflexivity|left; reflexivity].
  - exists ("/" ++ r)%string. split; [rewrite !sapp_assoc; reflexivity|right; exists r; reflexivity].
Qed.
Lemma nodup_app {X} (a b : list X) : NoDup a -> NoDup b -> (forall x, In x a -> ~ In x b) -> NoDup (a ++ b).
Proof.
  intros A B D. induction A as [|x a N A IH]; [exact B|]. cbn [app]. constructor.
  - rewrite in_app_iff. intros [I|I]; [exact (N I)|exact (D x (or_introl eq_refl) I)].
  - apply IH. intros y I. apply D. right. exact I.
Qed.
Lemma walk_nodup keep n : forall path l, well_named n -> walk keep path n = Ok l -> NoDup l.
Proof.
  induction n as [s|s|s|s es IH] using node_ind'; intros path l W E.
  - cbn [walk] in E. destruct (keep path); injection E as <-; repeat constructor. intros [].
  - discriminate E.
  - injection E as <-. constructor.
  - rewrite walk_dir in E. inversion W as [| | |? ? N H]; subst. clear W. revert l E.
    induction es as [|e es IHes]; intros l E; [injection E as <-; constructor|]. cbn [walk_all] in E.
    destruct (walk keep (path_join path (node_name e)) e) as [a| |] eqn:A; try discriminate E. cbn [rbind] in E.
    destruct (walk_all keep path es) as [b| |] eqn:B; try discriminate E. cbn [rbind] in E. injection E as <-.
    cbn [map] in N. inversion N as [|? ? N1 N2]; subst.
    apply nodup_app.
    + exact (IH e (or_introl eq_refl) _ a (proj2 (H e (or_introl eq_refl))) A).
    + apply IHes; [intros d I; exact (IH d (or_intror I))|exact N2|intros d I; exact (H d (or_intror I))|reflexivity].
    + intros q QA QB.
      assert (GA : ~ gone_below e) by (intro G; rewrite (walk_gone keep e _ G) in A; discriminate A).
      assert (GB : ~ gone_below (NDir s (Some es))) by (intro G; pose proof (walk_gone keep _ path G) as X; rewrite walk_dir, B in X; discriminate X).
      destruct (walk_ok keep e (path_join path (node_name e)) GA) as (a' & A' & HA). rewrite A in A'. injection A' as <-.
      destruct (walk_ok keep _ path GB) as (b' & B' & HB). rewrite walk_dir, B in B'. injection B' as <-.
      apply HA in QA. apply HB in QB. destruct QA as [FA _], QB as [FB _]. inversion FB as [|? ? ? d ? I FD]; subst.
      apply file_at_entry in FA. apply file_at_entry in FD. destruct FA as (x & -> & X), FD as (y & E & Y).
      apply sapp_inj, sapp_inj in E.
      pose proof (slash_name _ _ _ _ (proj1 (H e (or_introl eq_refl))) (proj1 (H d (or_intror I))) X Y E) as Q.
      apply N1. rewrite Q. apply in_map. exact I.
Qed.

(** ** Extensions *)
Lemma ext_rev_suffix r : forall acc x, ext_rev r acc = x -> x <> ""%string -> exists m u, r = (m ++ String "." u)%string /\ x = (String "." (srev m) ++ acc)%string
  /\ ~ In "."%char (list_ascii_of_string m) /\ ~ In "/"%char (list_ascii_of_string m).
Proof.
  induction r as [|c r IH]; intros acc x E N; cbn [ext_rev] in E; [congruence|].
  destruct (Ascii.eqb_spec c "/") as [->|S]; [congruence|]. destruct (Ascii.eqb_spec c ".") as [->|D].
  - exists ""%string, r. subst x. split; [reflexivity|]. split; [reflexivity|]. split; intros [].
  - destruct (IH (String c acc) x E N) as (m & u & -> & X & N1 & N2). exists (String c m), u. split; [reflexivity|]. split.
    + rewrite X, srev_cons. cbn [append]. f_equal. rewrite sapp_assoc. reflexivity.
    + split; intros [->|I]; tauto.
Qed.
Lemma ext_rev_found m u : forall acc, ~ In "."%char (list_ascii_of_string m) -> ~ In "/"%char (list_ascii_of_string m) ->
  ext_rev (m ++ String "." u) acc = (String "." (srev m) ++ acc)%string.
Proof.
  induction m as [|c m IH]; intros acc D S; [reflexivity|]. change ((String c m ++ String "." u)%string) with (String c (m ++ String "." u)). cbn [ext_rev].
  destruct (Ascii.eqb_spec c "/") as [->|S']; [destruct S; left; reflexivity|]. destruct (Ascii.eqb_spec c ".") as [->|D']; [destruct D; left; reflexivity|].
  rewrite IH; [|intro I; apply D; right; exact I|intro I; apply S; right; exact I]. rewrite srev_cons. cbn [append]. f_equal. rewrite sapp_assoc. reflexivity.
Qed.
Lemma in_srev c s : In c (list_ascii_of_string (srev s)) <-> In c (list_ascii_of_string s).
Proof.
  induction s as [|d s IH]; [reflexivity|]. rewrite srev_cons. rewrite no_char_app, IH. cbn. tauto.
Qed.
(** a file has the extension [.e] exactly if its path ends in it *)
Lemma keep_ext_iff e path : ~ In "."%char (list_ascii_of_string e) -> ~ In "/"%char (list_ascii_of_string e) ->
  keep_ext (String "." e) path = true <-> exists r, path = (r ++ String "." e)%string.
Proof.
  intros D S. unfold keep_ext. change (0 <? String.length (String "." e)) with true. cbv iota. unfold path_ext. split.
  - intro H. apply has_suffix_iff in H. destruct H as (r & H).
    destruct (ext_rev_suffix (srev path) "" _ eq_refl) as (m & u & E & X & N1 & N2).
    { rewrite H. destruct r; discriminate. }
    rewrite append_nil_r in X. rewrite H in X. destruct r as [|c r].
    + injection X as X. exists (srev u). rewrite <- (srev_involutive path), E, srev_append, srev_cons, X. rewrite sapp_assoc. reflexivity.
    + injection X as _ X. destruct N1. apply in_srev. rewrite <- X. apply no_char_app. right. left. reflexivity.
  - intros (r & ->). rewrite srev_append, srev_cons. replace ((srev e ++ String "." "") ++ srev r)%string with (srev e ++ String "." (srev r))%string by (rewrite sapp_assoc; reflexivity).
    rewrite ext_rev_found by (rewrite in_srev; assumption). rewrite append_nil_r, srev_involutive. apply has_suffix_iff. exists ""%string. reflexivity.
Qed.

(** ** Directories of query files *)
Lemma file_verdicts_fine entries cfg contents files : successful (file_verdicts entries cfg contents files) = true <->
  Forall (fun f => exists text, contents f = Some text /\ successful (test_query_file entries cfg text) = true) files.
Proof.
  induction files as [|f files IH]; [split; [constructor|reflexivity]|]. cbn [file_verdicts].
  assert (P : forall vs, successful vs = true -> existsb (fun v => match v with Panicked => true | _ => false end) vs = false).
  { induction vs as [|v vs IHv]; [reflexivity|]. unfold successful in *. cbn [forallb existsb]. destruct v; try discriminate; exact IHv. }
  assert (S : forall a b, successful (a ++ b) = true <-> successful a = true /\ successful b = true).
  { intros a b. unfold successful. rewrite forallb_app. apply Bool.andb_true_iff. }
  destruct (contents f) as [text|] eqn:C.
  - destruct (existsb _ (test_query_file entries cfg text)) eqn:X.
    + split.
      * intro H. rewrite (P _ H) in X. discriminate X.
      * intro H. inversion H as [|? ? (t & T & H') _]; subst. rewrite C in T. injection T as <-. exact H'.
    + rewrite S, IH. split.
      * intros [A B]. constructor; [exists text; split; [exact C|exact A]|exact B].
      * intro H. inversion H as [|? ? (t & T & H') H'']; subst. rewrite C in T. injection T as <-. split; assumption.
  - cbn [existsb orb]. rewrite S. split; [intros [H _]; discriminate H|]. intro H. inversion H as [|? ? (t & T & _) _]; subst. congruence.
Qed.
