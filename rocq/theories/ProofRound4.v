(** Reading back printed statements: each statement. *)
From Coq Require Import Lia.
From Verif Require Import GoBase ModelUtil ModelNum ModelFn ModelQuery ModelEbnf ModelGrammar ModelLex ModelVisitor
  SpecQuery SpecParse SpecRound FactsBase ProofEbnf ProofMachine ProofFn ProofNum ProofQuery ProofParse ProofLex ProofRound ProofRound2 ProofRound3.

(** the statement is printed in good pieces, which are read as one tree, of which the visitor makes the statement again *)
Definition reads_as (entries : list (dtype * string)) (ps : list piece) (s : stmt) : Prop :=
  good ps /\ heads starts (shown ps) /\ exists T, stmt_reads (shown ps) T /\ v_statement entries T = Ok (Some s).
Definition comes_back (entries : list (dtype * string)) (s : stmt) : Prop :=
  exists ps, stmt_string s = Ok (glue ps) /\ good ps /\ heads starts (shown ps)
    /\ exists T, stmt_reads (shown ps) T /\ v_statement entries T = Ok (Some s).

(** words *)
Definition kw (ws : list string) : list piece := spaced (map (fun w => [PWord w]) ws).
Lemma good_kw ws : forallb is_word ws = true -> good (kw ws).
Proof.
  intro H. apply good_spaced. induction ws as [|w ws IH]; [constructor|]. cbn [forallb] in H. apply andb_prop in H.
  constructor; [apply good_word; apply H|apply IH; apply H].
Qed.
Lemma good_name x : plain x -> good [PWord x].
Proof. intros [W _]. apply good_any. exact W. Qed.

(** a name with a schema or without *)
Lemma good_schema s x : plain s -> plain x -> good [PWord s; PSym "DOT" "."; PWord x].
Proof. intros [S _] [X _]. split; [cbn [forallb ok_piece]; rewrite S, X; reflexivity|split; reflexivity]. Qed.
Lemma shown_schema s x : plain s -> plain x -> shown [PWord s; PSym "DOT" "."; PWord x] = [idt s; mkTok "DOT" "."; idt x].
Proof. intros [_ S] [_ X]. transitivity [mkTok (kind_of_word s) s; mkTok "DOT" "."; mkTok (kind_of_word x) x]; [reflexivity|]. rewrite S, X. reflexivity. Qed.
Lemma plain_nonempty' x : plain x -> x <> ""%string.
Proof. intros [W _] ->. discriminate W. Qed.
Lemma full_schema s x : plain s -> plain x -> chars (fun c => c <> "."%char) x -> full_table_name (mkTbl s x) = (s ++ "." ++ x)%string.
Proof.
  intros S X D. apply full_table_name_spec; cbn [t_schema t_name].
  - exact (plain_nonempty' s S).
  - exact (plain_nonempty' x X).
  - unfold has_dot. intro I. exact (D _ I eq_refl).
Qed.
Lemma plain_nonempty x : plain x -> (0 <? String.length x) = true.
Proof. intros [W _]. destruct x; [discriminate|reflexivity]. Qed.
Lemma glue_schema s x : glue [PWord s; PSym "DOT" "."; PWord x] = (s ++ "." ++ x)%string.
Proof. cbn [glue fold_right ptext]. rewrite append_nil_r. reflexivity. Qed.

Ltac goods := repeat match goal with
  | |- good [] => apply good_nil
  | |- good (kw _) => apply good_kw; vm_compute; reflexivity
  | |- good [PWord _] => apply good_name; first [assumption|apply bare_plain; assumption|apply solid_plain; assumption]
  | |- good [PWord _; PSym "DOT" "."; PWord _] => apply good_schema; first [assumption|apply bare_plain; assumption|apply solid_plain; assumption]
  | |- good (spaced _) => apply good_spaced
  | |- Forall good [] => apply Forall_nil
  | |- Forall good (_ :: _) => apply Forall_cons
  | |- good (sp :: _) => apply good_sp
  | |- good (lp :: _) => apply good_lp
  | |- good (rp :: _) => apply good_rp
  | |- good (_ ++ sp :: _) => apply good_app_sp
  | |- good (_ ++ lp :: _) => apply good_app_lp
  | |- good (_ ++ rp :: _) => apply good_app_rp
  | |- good (_ ++ listed _ _) => apply good_then_listed
  end.
(** the tokens of the pieces *)
Ltac plains := repeat match goal with
  | B : bare ?x |- _ => lazymatch goal with _ : plain x |- _ => fail | _ => let N := fresh "Plain" in pose proof (bare_plain x B) as N end
  | B : solid ?x |- _ => lazymatch goal with _ : plain x |- _ => fail | _ => let N := fresh "Plain" in pose proof (solid_plain x B) as N end
  end.
Ltac show_words := plains; repeat match goal with
  | P : plain ?x |- context[shown [PWord ?x]] => rewrite (shown_name x P); unfold id1
  | P : plain ?x, Q : plain ?y |- context[shown [PWord ?x; PSym "DOT" "."; PWord ?y]] => rewrite (shown_schema x y P Q)
  | |- context[shown (kw ?ws)] => let e := eval vm_compute in (shown (kw ws)) in change (shown (kw ws)) with e
  end.
Ltac shows := rewrite shown_spaced; cbn [flat_map]; rewrite ?shown_app; show_words; rewrite ?app_nil_r; cbn [app].
Ltac prints := unfold stmt_string, join_with_space; rewrite glue_spaced; cbn [map app]; rewrite ?glue_schema, ?glue_one; cbn [ptext]; rewrite ?full_name_of_name; reflexivity.

Ltac each_kind H := repeat (destruct H as [<-|H]; [idtac|]); [..|contradiction H].
Ltac starts_ok := vm_compute; tauto.
Ltac upto ts :=
  match ts with
  | ?a :: ?r => let _ := match goal with _ => is_var r end in constr:([a])
  | ?a :: ?r => let r' := upto r in constr:(a :: r')
  end.
Ltac start_reading := let k := fresh "k" in let K := fresh "K" in let tl := fresh "tl" in let r := fresh "r" in let T := fresh "T" in let H := fresh "H" in
  intros k K tl r T H; cbn [app].
(** the rest of the tokens, and the end *)
Ltac read_on T tl H :=
  destruct tl as [|[? ?] ?]; [contradiction T|]; cbn [heads tk] in T; unfold stmt_ends in T; cbn [In] in T;
  each_kind T; (match goal with |- denm _ _ ?ts _ = _ => let l := upto ts in go (Some stmt_follow) l 1 AtEnd end; the_end H).
Ltac read_all := intros k K tl r T H; cbn [app]; enter; read_on T tl H.


(** what the visitor makes of it, where no lists are involved *)
Ltac unescapes := repeat match goal with
  | P : bare ?x |- context[unescape_name_string ?x] => rewrite (proj2 P)
  | P : solid ?x |- context[unescape_string ?x] => rewrite (unescape_word x (proj1 P))
  end.
Ltac unescapes_in H := repeat match type of H with
  | context[unescape_name_string ?x] => match goal with P : bare x |- _ => rewrite (proj2 P) in H end
  end.
Ltac visits := cbn -[unescape_name_string unescape_string append]; rewrite ?append_nil_r; unescapes; reflexivity.
Ltac small := split; [prints|]; split; [goods|]; shows; split; [starts_ok|]; eexists; split; [read_all|visits].

Lemma create_database_back entries n b : plain n -> comes_back entries (SCreateDatabase n b).
Proof.
  intro P. destruct b.
  - exists (spaced [kw ["CREATE"; "DATABASE"]; kw ["IF"; "NOT"; "EXISTS"]; [PWord n]]%string). small.
  - exists (spaced [kw ["CREATE"; "DATABASE"]; [PWord n]]%string). small.
Qed.
Lemma drop_database_back entries n b : plain n -> comes_back entries (SDropDatabase n b).
Proof.
  intro P. destruct b.
  - exists (spaced [kw ["DROP"]; kw ["DATABASE"]; kw ["IF"; "EXISTS"]; [PWord n]]%string). small.
  - exists (spaced [kw ["DROP"]; kw ["DATABASE"]; [PWord n]]%string). small.
Qed.
Lemma alter_database_back entries n m : plain n -> plain m -> comes_back entries (SAlterDatabase n m).
Proof.
  intros P Q. exists (spaced [kw ["ALTER"]; kw ["DATABASE"]; [PWord n]; kw ["RENAME"]; kw ["TO"]; [PWord m]]%string). small.
Qed.
Lemma use_back entries n : plain n -> comes_back entries (SUse n).
Proof. intro P. exists (spaced [kw ["USE"]; [PWord n]]%string). small. Qed.
Lemma commit_back entries : comes_back entries SCommit.
Proof. exists (spaced [kw ["COMMIT"]]%string). small. Qed.
Lemma begin_back entries : comes_back entries SBegin.
Proof. exists (spaced [kw ["BEGIN"]]%string). small. Qed.
Lemma rollback_back entries : comes_back entries SRollback.
Proof. exists (spaced [kw ["ROLLBACK"]]%string). small. Qed.
Lemma vacuum_all_back entries : comes_back entries (SVacuum None).
Proof. exists (spaced [kw ["VACUUM"]]%string). small. Qed.
Lemma vacuum_back entries t : plain t -> comes_back entries (SVacuum (Some (new_table t))).
Proof. intro P. exists (spaced [kw ["VACUUM"]; [PWord t]]%string). small. Qed.

Lemma drop_index_back entries s i b : (s = ""%string \/ bare s) -> bare i -> comes_back entries (SDropIndex s i b).
Proof.
  intros [->|S] P; destruct b.
  - exists (spaced [kw ["DROP"]; kw ["INDEX"]; kw ["IF"; "EXISTS"]; [PWord i]]%string). small.
  - exists (spaced [kw ["DROP"]; kw ["INDEX"]; [PWord i]]%string). small.
  - exists (spaced [kw ["DROP"]; kw ["INDEX"]; kw ["IF"; "EXISTS"]; [PWord s; PSym "DOT" "."; PWord i]]%string).
    split; [unfold stmt_string; rewrite full_name_of_name, (plain_nonempty s (proj1 S)); prints|].
    split; [goods|]; shows; split; [starts_ok|]; eexists; split; [read_all|visits].
  - exists (spaced [kw ["DROP"]; kw ["INDEX"]; [PWord s; PSym "DOT" "."; PWord i]]%string).
    split; [unfold stmt_string; rewrite full_name_of_name, (plain_nonempty s (proj1 S)); prints|].
    split; [goods|]; shows; split; [starts_ok|]; eexists; split; [read_all|visits].
Qed.
Lemma drop_index_any entries i : plain i ->
  reads_as entries (spaced [kw ["DROP"]; kw ["INDEX"]; [PWord i]]%string) (SDropIndex "" (unescape_name_string i) false).
Proof. intros P. split; [goods|]; shows; split; [starts_ok|]; eexists; split; [read_all|visits]. Qed.
(** ALTER TABLE RENAME *)
(** a table with its schema, or without *)
Definition full (s t : string) : Prop := plain t /\ (s = ""%string \/ (bare s /\ chars (fun c => c <> "."%char) t)).
Lemma alter_rename_back entries s t u : full s t -> bare u ->
  comes_back entries (SAlterTable (mkAlter (mkTbl s t) (Some (new_table u)) None None None None None)).
Proof.
  intros [P [->|[S D]]] Q.
  - exists (spaced [kw ["ALTER"]; kw ["TABLE"]; [PWord t]; kw ["RENAME"]; kw ["TO"]; [PWord u]]%string).
    split; [unfold stmt_string, alter_string; cbn [al_table al_rename_to al_rename_column al_add_column al_add_index al_drop_column rbind app];
      change (mkTbl "" t) with (new_table t); prints|].
    split; [goods|]; shows; split; [starts_ok|]; eexists; split; [read_all|visits].
  - exists (spaced [kw ["ALTER"]; kw ["TABLE"]; [PWord s; PSym "DOT" "."; PWord t]; kw ["RENAME"]; kw ["TO"]; [PWord u]]%string).
    split; [unfold stmt_string, alter_string; cbn [al_table al_rename_to al_rename_column al_add_column al_add_index al_drop_column rbind app];
      rewrite (full_schema s t (proj1 S) P D); prints|].
    split; [goods|]; shows; split; [starts_ok|]; eexists; split; [read_all|visits].
Qed.
Lemma alter_rename_any entries t u : plain t -> plain u ->
  reads_as entries (spaced [kw ["ALTER"]; kw ["TABLE"]; [PWord t]; kw ["RENAME"]; kw ["TO"]; [PWord u]]%string)
    (SAlterTable (mkAlter (mkTbl "" t) (Some (new_table (unescape_name_string u))) None None None None None)).
Proof. intros P Q. split; [goods|]; shows; split; [starts_ok|]; eexists; split; [read_all|visits]. Qed.
Lemma alter_rename_column_back entries s t c d : full s t -> plain c -> plain d ->
  comes_back entries (SAlterTable (mkAlter (mkTbl s t) None (Some (new_column c, new_column d)) None None None None)).
Proof.
  intros [P [->|[S D]]] Q R.
  - exists (spaced [kw ["ALTER"]; kw ["TABLE"]; [PWord t]; kw ["RENAME"]; kw ["COLUMN"]; [PWord c]; kw ["TO"]; [PWord d]]%string).
    split; [unfold stmt_string, alter_string; cbn [al_table al_rename_to al_rename_column al_add_column al_add_index al_drop_column rbind app];
      change (mkTbl "" t) with (new_table t); prints|].
    split; [goods|]; shows; split; [starts_ok|]; eexists; split; [read_all|visits].
  - exists (spaced [kw ["ALTER"]; kw ["TABLE"]; [PWord s; PSym "DOT" "."; PWord t]; kw ["RENAME"]; kw ["COLUMN"]; [PWord c]; kw ["TO"]; [PWord d]]%string).
    split; [unfold stmt_string, alter_string; cbn [al_table al_rename_to al_rename_column al_add_column al_add_index al_drop_column rbind app];
      rewrite (full_schema s t (proj1 S) P D); prints|].
    split; [goods|]; shows; split; [starts_ok|]; eexists; split; [read_all|visits].
Qed.

(** ** Lists of names *)

Definition word1 (x : string) : list piece := [PWord x].
Lemma clist_ext {A} (f g : A -> list token) xs : (forall x, In x xs -> f x = g x) -> clist f xs = clist g xs.
Proof.
  intro H. unfold clist. induction xs as [|x xs IH]; [reflexivity|]. cbn [flat_map]. rewrite (H x (or_introl eq_refl)).
  rewrite IH by (intros y I; apply H; right; exact I). reflexivity.
Qed.
Lemma shown_names xs : Forall plain xs -> shown (listed word1 xs) = clist id1 xs.
Proof.
  intro F. rewrite shown_listed. apply clist_ext. intros x I. apply shown_name. exact (proj1 (Forall_forall _ _) F x I).
Qed.
Lemma good_names xs : Forall plain xs -> Forall (fun x => good (word1 x)) xs.
Proof. apply Forall_impl. intros x P. exact (good_name x P). Qed.
Lemma glue_names x xs : glue ([PWord x] ++ listed word1 xs) = join_with_comma (x :: xs).
Proof.
  change [PWord x] with (word1 x). rewrite glue_listed. f_equal.
  rewrite <- (map_id (x :: xs)) at 2. apply map_ext. intro y. apply glue_one.
Qed.

Definition tbl (x : string) : children := [(""%string, Node "table_name" (ident x))].
Lemma table_reads x bot follow : reads (Rule "table_name" 0) [idt x] (tbl x) bot follow.
Proof. intros k K tl r T H. cbn [app]. enter. dgo (@None (list string)) [idt x] 0 AtEnd. exact H. Qed.
Lemma tables_reads xs bot follow : ~ In "COMMA"%string follow -> reads (commas (Rule "table_name" 0)) (clist id1 xs) (ctree tbl xs) bot follow.
Proof. intro N. apply list_reads_any; [vm_compute; reflexivity|exact N|]. intros x _. apply table_reads. Qed.

Lemma table_texts xs :
  map (fun n => new_table (unescape_name_string (text n))) (flat_map (fun x => named "table_name" (tbl x)) xs) = map (fun x => new_table (unescape_name_string x)) xs.
Proof.
  change (fun x => named "table_name" (tbl x)) with (fun x => [Node "table_name" (ident x)]). rewrite flat_map_one, map_map. apply map_ext. intros x. rewrite text_ident. reflexivity.
Qed.
Lemma table_texts0 xs : map (fun n => new_table (text n)) (flat_map (fun x => named "table_name" (tbl x)) xs) = map new_table xs.
Proof.
  change (fun x => named "table_name" (tbl x)) with (fun x => [Node "table_name" (ident x)]). rewrite flat_map_one, map_map.
  apply map_ext. intro x. rewrite text_ident. reflexivity.
Qed.
Lemma tables_string_names ts : tables_string (map new_table ts) = join_with_comma ts.
Proof. unfold tables_string. rewrite map_map. f_equal. rewrite <- (map_id ts) at 2. apply map_ext. exact full_name_of_name. Qed.


(** what the visitor finds in the lists *)
Lemma flat_none {A} n (c : A -> children) xs : (forall x, named n (c x) = []) -> flat_map (fun x => named n (c x)) xs = [].
Proof. intro H. induction xs as [|x xs IH]; [reflexivity|]. cbn [flat_map]. rewrite H. exact IH. Qed.
Ltac finds := cbn -[unescape_name_string unescape_string append ctree app named];
  unfold present, sub, subs, lab, labelled, has_tok;
  cbn -[unescape_name_string unescape_string append ctree app named];
  repeat match goal with
  | |- context[filter (is_rule ?n) (map snd ?cs)] => change (filter (is_rule n) (map snd cs)) with (named n cs)
  | |- context[existsb (is_tok ?n) (map snd ?cs)] => change (existsb (is_tok n) (map snd cs)) with (tokened n cs)
  | |- context[map snd (filter (fun c => String.eqb (fst c) ?l) ?cs)] => change (map snd (filter (fun c => String.eqb (fst c) l) cs)) with (marked l cs)
  end;
  rewrite ?named_app, ?named_ctree, ?tokened_app, ?named_cons; cbn [is_rule String.eqb Ascii.eqb Bool.eqb];
  repeat match goal with |- context[flat_map (fun x => named ?n (?c x)) ?xs] => rewrite (flat_none n c xs (fun x => eq_refl)) end;
  repeat match goal with |- context[named ?n []] => change (named n []) with (@nil tree) end; rewrite ?app_nil_r; cbn [app].
(** look at the token after l: the first one of rest, which is of one of the kinds in P's list *)
Ltac peek bot P l p :=
  match type of P with heads _ ?rest =>
    let X := fresh "rest" in let E := fresh "Erest" in
    remember rest as X eqn:E; destruct X as [|[? ?] X]; [contradiction P|]; cbn [heads tk] in P;
    unfold stmt_ends in P; cbn [In app] in P; each_kind P;
    (match goal with |- denm _ _ ?ts _ = _ => let a := upto ts in go bot a 1 p end; rewrite E; clear E)
  end.
Definition drop_table_pieces (t : string) (ts : list string) (b : bool) : list piece :=
  if b then spaced [kw ["DROP"]; kw ["TABLE"]; kw ["IF"; "EXISTS"]; [PWord t] ++ listed word1 ts] else spaced [kw ["DROP"]; kw ["TABLE"]; [PWord t] ++ listed word1 ts].
Lemma drop_table_any entries t ts b : plain t -> Forall plain ts ->
  reads_as entries (drop_table_pieces t ts b) (SDropTable (map (fun x => new_table (unescape_name_string x)) (t :: ts)) b).
Proof.
  intros P F. unfold drop_table_pieces. destruct b.
  - split; [goods; apply good_names; exact F|]. shows. rewrite shown_names by exact F. split; [starts_ok|].
    eexists. split.
    + intros k K tl r T H. cbn [app]. rewrite <- ?app_assoc. cbn [app]. enter.
      pose proof (heads_clist id1 _ ts _ T) as T'. peek (Some stmt_follow) T' tt AtStar;
      (by_reads (tables_reads ts None stmt_ends ltac:(not_in)); [exact T|]; read_on T tl H).
    + finds. rewrite table_texts. rewrite !append_nil_r. reflexivity.
  - split; [goods; apply good_names; exact F|]. shows. rewrite shown_names by exact F. split; [starts_ok|].
    eexists. split.
    + intros k K tl r T H. cbn [app]. rewrite <- ?app_assoc. cbn [app]. enter.
      pose proof (heads_clist id1 _ ts _ T) as T'. peek (Some stmt_follow) T' tt AtStar;
      (by_reads (tables_reads ts None stmt_ends ltac:(not_in)); [exact T|]; read_on T tl H).
    + finds. rewrite table_texts. rewrite !append_nil_r. reflexivity.
Qed.
Lemma drop_table_text t ts b : stmt_string (SDropTable (map new_table (t :: ts)) b) = Ok (glue (drop_table_pieces t ts b)).
Proof.
  unfold drop_table_pieces. destruct b; unfold stmt_string; rewrite tables_string_names, <- glue_names; unfold join_with_space; rewrite glue_spaced; reflexivity.
Qed.
Lemma drop_table_back entries t ts b : bare t -> Forall bare ts -> comes_back entries (SDropTable (map new_table (t :: ts)) b).
Proof.
  intros P F. exists (drop_table_pieces t ts b). split; [apply drop_table_text|].
  pose proof (drop_table_any entries t ts b (proj1 P) (bares_plain _ F)) as H. unfold reads_as in H.
  rewrite (map_ext_in _ new_table (t :: ts)) in H; [exact H|].
  intros x I. f_equal. exact (proj2 (proj1 (Forall_forall _ _) (Forall_cons _ P F) x I)).
Qed.
Lemma truncate_back entries t ts : plain t -> Forall plain ts -> comes_back entries (STruncate (map new_table (t :: ts))).
Proof.
  intros P F.
  exists (spaced [kw ["TRUNCATE"]; kw ["TABLE"]; [PWord t] ++ listed word1 ts]).
  split; [unfold stmt_string; rewrite tables_string_names, <- glue_names; unfold join_with_space; rewrite glue_spaced; reflexivity|].
  split; [goods; apply good_names; exact F|]. shows. rewrite shown_names by exact F. split; [starts_ok|].
  eexists. split.
  + intros k K tl r T H. cbn [app]. rewrite <- ?app_assoc. cbn [app]. enter.
    pose proof (heads_clist id1 _ ts _ T) as T'. peek (Some stmt_follow) T' tt AtStar;
    (by_reads (tables_reads ts None stmt_ends ltac:(not_in)); [exact T|]; read_on T tl H).
  + finds. rewrite table_texts0. rewrite !append_nil_r. reflexivity.
Qed.

