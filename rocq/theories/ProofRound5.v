(** Reading back printed statements, continued. *)
From Coq Require Import Lia.
From Verif Require Import GoBase ModelUtil ModelNum ModelFn ModelQuery ModelEbnf ModelGrammar ModelLex ModelVisitor
  SpecQuery SpecParse SpecRound FactsBase ProofEbnf ProofMachine ProofFn ProofNum ProofQuery ProofParse ProofLex ProofRound ProofRound2 ProofRound3
  ProofRound4.

(** ** Lists of columns *)

Definition par_names (c : string) (cs : list string) : list piece := lp :: ([PWord c] ++ listed word1 cs) ++ [rp].
Lemma good_par_names c cs : plain c -> Forall plain cs -> good (par_names c cs).
Proof. intros P F. apply good_lp. apply good_app_rp; [apply good_then_listed; [apply good_name; exact P|apply good_names; exact F]|apply good_nil]. Qed.
Lemma glue_par_names c cs : glue (par_names c cs) = ("(" ++ join_with_comma (c :: cs) ++ ")")%string.
Proof. unfold par_names. rewrite glue_cons', glue_app, glue_names, glue_one. reflexivity. Qed.
Lemma shown_par_names c cs : plain c -> Forall plain cs -> shown (par_names c cs) = open_ :: idt c :: clist id1 cs ++ [close_].
Proof.
  intros P F. unfold par_names.
  change (lp :: ([PWord c] ++ listed word1 cs) ++ [rp]) with ([lp] ++ ([PWord c] ++ listed word1 cs) ++ [rp]).
  rewrite !shown_app, (shown_name c P), (shown_names cs F). reflexivity.
Qed.

Lemma column_names_new cs : column_names (map new_column cs) = cs.
Proof. unfold column_names. rewrite map_map. apply map_id. Qed.

Lemma column_names_cons c cs : column_names (new_column c :: map new_column cs) = c :: cs.
Proof. exact (column_names_new (c :: cs)). Qed.
(** the tokens at the front that are known *)
Ltac known ts := match ts with ?a :: ?r => let r' := known r in constr:(a :: r') | _ => constr:(@nil token) end.
Ltac go_known bot n p := match goal with |- denm _ _ ?ts _ = _ => let l := known ts in go bot l n p end.
Ltac toks := cbn [app]; repeat (rewrite <- ?app_assoc; cbn [app]).

Lemma col_texts {B} (f : string -> B) xs : map (fun n => f (text n)) (flat_map (fun x => named "column_name" (col x)) xs) = map f xs.
Proof.
  change (fun x => named "column_name" (col x)) with (fun x => [Node "column_name" (ident x)]). rewrite flat_map_one, map_map.
  apply map_ext. intro x. rewrite text_ident. reflexivity.
Qed.

Lemma map_plain {B} (P : string -> Prop) (f g : string -> B) xs : (forall x, P x -> f x = g x) -> Forall P xs -> map f xs = map g xs.
Proof. intros H F. apply map_ext_in. intros x I. apply H. exact (proj1 (Forall_forall _ _) F x I). Qed.

(** COPY *)
Lemma copy_back entries t cs src f : solid t -> Forall solid cs -> solid src ->
  comes_back entries (SCopy (new_table t) (map new_column cs) src f).
Proof.
  intros P F Q. destruct cs as [|c cs].
  - exists (spaced [kw ["COPY"]; [PWord t]; kw ["FROM"]; [PWord src]; kw [copy_format_string f]]).
    destruct f; small.
  - inversion F as [|? ? Pc Fc]; subst. pose proof (solids_plain _ Fc) as Fp.
    exists (spaced [kw ["COPY"]; [PWord t]; par_names c cs; kw ["FROM"]; [PWord src]; kw [copy_format_string f]]).
    split; [unfold stmt_string, join_with_space; rewrite glue_spaced; cbn [map app]; rewrite glue_par_names, !glue_one;
            rewrite <- (column_names_new (c :: cs)) at 1; destruct f; reflexivity|].
    split; [plains; goods; [apply good_par_names; assumption|destruct f; goods]|].
    rewrite shown_spaced. cbn [flat_map]. rewrite (shown_par_names c cs (solid_plain c Pc) Fp).
    destruct f; show_words; cbn [app]; (split; [starts_ok|]); eexists;
      (split; [intros k K tl r T H; cbn [app]; repeat (rewrite <- ?app_assoc; cbn [app]); enter;
               match goal with |- denm _ _ ?ts _ = _ => match ts with ?a :: ?b :: ?c :: ?d :: _ => go (Some stmt_follow) [a; b; c; d] 0 AtStar end end;
               by_reads (names_reads cs None ["CLOSE_PAR"%string] ltac:(not_in)); [left; reflexivity|]; read_on T tl H
              |]).
    all: finds; rewrite (col_texts (fun x => new_column (unescape_string x)));
      rewrite (map_plain solid (fun x => new_column (unescape_string x)) new_column cs (fun x X => f_equal new_column (unescape_word x (proj1 X))) Fc);
      rewrite ?append_nil_r; unescapes; reflexivity.
Qed.

(** with a schema name, which is read into the table name *)
Lemma smem_app c a b : smem c (a ++ b) = smem c a || smem c b.
Proof. unfold smem. induction a as [|d a IH]; [reflexivity|]. cbn [append sexists]. rewrite IH. apply orb_assoc. Qed.
Lemma unescape_dotted q t : solid q -> solid t -> unescape_string (q ++ String "." t) = (q ++ String "." t)%string.
Proof.
  intros [W _] [W' _]. apply trim_free. intros c M. change (String "." t) with ("." ++ t)%string. rewrite !smem_app.
  assert (N : ident_char c = false) by (revert c M; apply cut_chars; vm_compute; reflexivity).
  rewrite (word_no_quote q c W N), (word_no_quote t c W' N). unfold smem in *. cbn [sexists squote dquote append] in *. rewrite orb_false_r in *.
  destruct (Ascii.eqb c ".") eqn:E; [|reflexivity]. apply Ascii.eqb_eq in E. subst c. discriminate M.
Qed.
Lemma copy_full_back entries q t cs src f : solid q -> solid t -> Forall solid cs -> solid src ->
  comes_back entries (SCopy (new_table (q ++ "." ++ t)) (map new_column cs) src f).
Proof.
  intros PQ P F Q. destruct cs as [|c cs].
  - exists (spaced [kw ["COPY"]; [PWord q; PSym "DOT" "."; PWord t]; kw ["FROM"]; [PWord src]; kw [copy_format_string f]]).
    destruct f; (split; [prints|]; split; [goods|]; shows; split; [starts_ok|]; eexists; split; [read_all|
      cbn -[unescape_name_string unescape_string append]; rewrite ?append_nil_r; cbn [append]; rewrite (unescape_dotted q t PQ P); unescapes; reflexivity]).
  - inversion F as [|? ? Pc Fc]; subst. pose proof (solids_plain _ Fc) as Fp.
    exists (spaced [kw ["COPY"]; [PWord q; PSym "DOT" "."; PWord t]; par_names c cs; kw ["FROM"]; [PWord src]; kw [copy_format_string f]]).
    split; [unfold stmt_string, join_with_space; rewrite glue_spaced; cbn [map app]; rewrite glue_par_names, !glue_schema, !glue_one;
            rewrite <- (column_names_new (c :: cs)) at 1; destruct f; reflexivity|].
    split; [plains; goods; [apply good_par_names; assumption|destruct f; goods]|].
    rewrite shown_spaced. cbn [flat_map]. rewrite (shown_par_names c cs (solid_plain c Pc) Fp).
    destruct f; show_words; cbn [app]; (split; [starts_ok|]); eexists;
      (split; [intros k K tl r T H; cbn [app]; repeat (rewrite <- ?app_assoc; cbn [app]); enter;
               match goal with |- denm _ _ ?ts _ = _ => match ts with ?a :: ?b :: ?c :: ?d :: ?e :: ?f :: _ => go (Some stmt_follow) [a; b; c; d; e; f] 0 AtStar end end;
               by_reads (names_reads cs None ["CLOSE_PAR"%string] ltac:(not_in)); [left; reflexivity|]; read_on T tl H
              |]).
    all: finds; rewrite (col_texts (fun x => new_column (unescape_string x)));
      rewrite (map_plain solid (fun x => new_column (unescape_string x)) new_column cs (fun x X => f_equal new_column (unescape_word x (proj1 X))) Fc);
      rewrite ?append_nil_r; cbn [append]; rewrite (unescape_dotted q t PQ P); unescapes; reflexivity.
Qed.

(** ** Indexes *)

Definition icol (x : string) : children := [(""%string, Node "indexed_column" (col x))].
Lemma icol_reads x bot : reads (Rule "indexed_column" 0) [idt x] (icol x) bot ["COMMA"; "CLOSE_PAR"]%string.
Proof.
  intros k K [|[kd tx] rest] r T H; [contradiction|]. cbn [heads tk] in T. cbn [In] in T. cbn [app]. enter.
  each_kind T; (match goal with |- denm _ _ (?a :: ?b :: _) _ = _ => go none [a; b] 1 AtEnd end; exact H).
Qed.
Lemma icols_reads xs bot : reads (commas (Rule "indexed_column" 0)) (clist id1 xs) (ctree icol xs) bot ["CLOSE_PAR"%string].
Proof. apply list_reads_any; [vm_compute; reflexivity|not_in|]. intros x _. apply icol_reads. Qed.
Lemma icol_texts {B} (f : tree -> result B) (g : string -> B) xs : (forall x, f (Node "indexed_column" (col x)) = Ok (g x)) ->
  collect f (flat_map (fun x => named "indexed_column" (icol x)) xs) = Ok (map g xs).
Proof.
  intros H. change (fun x => named "indexed_column" (icol x)) with (fun x => [Node "indexed_column" (col x)]). rewrite flat_map_one.
  apply collect_map. intros x I. apply H.
Qed.

(** t(c, ...) *)
Definition target (t c : string) (cs : list string) : list piece := PWord t :: par_names c cs.
Lemma good_target t c cs : plain t -> plain c -> Forall plain cs -> good (target t c cs).
Proof.
  intros P C F. apply (good_app [PWord t] "OPEN_PAR" "(" (([PWord c] ++ listed word1 cs) ++ [rp])); [apply good_name; exact P|reflexivity|].
  exact (good_par_names c cs C F).
Qed.
Lemma glue_target t c cs : glue (target t c cs) = (t ++ "(" ++ join_with_comma (c :: cs) ++ ")")%string.
Proof. unfold target. rewrite glue_cons', glue_par_names. reflexivity. Qed.
Lemma shown_target t c cs : plain t -> plain c -> Forall plain cs -> shown (target t c cs) = idt t :: open_ :: idt c :: clist id1 cs ++ [close_].
Proof.
  intros P C F. change (target t c cs) with ([PWord t] ++ par_names c cs). rewrite shown_app, (shown_name t P), (shown_par_names c cs C F). reflexivity.
Qed.
Definition create_index_pieces (t i c : string) (cs : list string) (b : bool) : list piece :=
  spaced ([kw ["CREATE"]; kw ["INDEX"]] ++ (if b then [kw ["IF"; "NOT"; "EXISTS"]] else []) ++ [[PWord i]; kw ["ON"]; target t c cs]).
Lemma create_index_any entries t i c cs b : plain t -> plain i -> plain c -> Forall plain cs ->
  reads_as entries (create_index_pieces t i c cs b)
    (SCreateIndex (new_schema (unescape_name_string t) [] [secondary_index (unescape_name_string i) (map (fun x => new_column (unescape_name_string x)) (c :: cs))]) b).
Proof.
  intros P I C F. unfold create_index_pieces.
  split; [destruct b; cbn [app]; goods; apply good_target; assumption|].
  destruct b; rewrite shown_spaced; cbn [flat_map app]; rewrite (shown_target t c cs P C F); show_words; cbn [app];
    (split; [starts_ok|]); eexists;
    (split; [intros k K tl r T H; toks; enter|]).
  1,3: go_known (Some stmt_follow) 1 (AtRule "indexed_column");
    by_reads (icol_reads c None); [apply (heads_clist id1 ["CLOSE_PAR"%string] cs); left; reflexivity|];
    go (Some stmt_follow) (@nil token) 0 AtStar;
    by_reads (icols_reads cs None); [left; reflexivity|]; read_on T tl H.
  all: finds; rewrite ?append_nil_r;
    match goal with |- context[named "indexed_column" (icol ?d) ++ flat_map _ ?l] =>
      change (named "indexed_column" (icol d) ++ flat_map (fun x => named "indexed_column" (icol x)) l)
        with (flat_map (fun x => named "indexed_column" (icol x)) (d :: l));
      rewrite (icol_texts _ (fun x => new_column (unescape_name_string x)) (d :: l)) end;
    [reflexivity|].
  all: intros x; cbn -[unescape_name_string append]; rewrite !append_nil_r; reflexivity.
Qed.
Lemma create_index_text t i c cs b :
  Ok (glue (create_index_pieces t i c cs b)) = stmt_string (SCreateIndex (new_schema t [] [secondary_index i (map new_column (c :: cs))]) b).
Proof.
  unfold create_index_pieces, stmt_string, create_index_string, join_with_space. rewrite glue_spaced. rewrite !map_app. cbn [map create_index_index s_indexes s_table new_schema i_columns i_name secondary_index].
  rewrite glue_target, !glue_one, column_names_cons. destruct b; cbn [map app]; rewrite full_name_of_name; reflexivity.
Qed.
Lemma create_index_back entries t i c cs b : bare t -> bare i -> bare c -> Forall bare cs ->
  comes_back entries (SCreateIndex (new_schema t [] [secondary_index i (map new_column (c :: cs))]) b).
Proof.
  intros P I C F. exists (create_index_pieces t i c cs b). split; [symmetry; apply create_index_text|].
  pose proof (create_index_any entries t i c cs b (proj1 P) (proj1 I) (proj1 C) (bares_plain _ F)) as H.
  rewrite (map_plain bare _ new_column (c :: cs) (fun x X => f_equal new_column (proj2 X)) (Forall_cons _ C F)) in H. unescapes_in H. exact H.
Qed.

(** ALTER TABLE ADD INDEX and ADD PRIMARY KEY *)
Ltac alters := unfold stmt_string, alter_string; cbn [al_table al_rename_to al_rename_column al_add_column al_add_index al_drop_column rbind app].
Lemma alter_add_index_back entries s t i c cs : full s t -> bare i -> bare c -> Forall bare cs ->
  comes_back entries (SAlterTable (mkAlter (mkTbl s t) None None None (Some (secondary_index i (map new_column (c :: cs)))) None None)).
Proof.
  intros [P S] I C F. pose proof (bares_plain _ F) as Fp. plains.
  exists (spaced ([kw ["ALTER"]; kw ["TABLE"]; match s with EmptyString => [PWord t] | _ => [PWord s; PSym "DOT" "."; PWord t] end;
                   kw ["ADD"]; kw ["INDEX"]; [PWord i]; par_names c cs])).
  split.
  { alters. unfold join_with_space. rewrite glue_spaced. cbn [map]. rewrite glue_par_names.
    unfold index_definition_string. cbn [i_type i_name i_columns secondary_index index_type_string map]. rewrite column_names_cons.
    destruct S as [->|[S D]].
    - change (mkTbl "" t) with (new_table t). rewrite full_name_of_name, ?glue_one. reflexivity.
    - rewrite (full_schema s t (proj1 S) P D). destruct s as [|a s]; [discriminate (proj1 (proj1 S))|]. rewrite glue_schema, ?glue_one. reflexivity. }
  split; [goods; [|apply good_par_names; assumption]; destruct S as [->|[S D]]; [goods|]; destruct s as [|a s]; [discriminate (proj1 (proj1 S))|]; goods|].
  destruct S as [->|[S D]]; [|destruct s as [|a s]; [discriminate (proj1 (proj1 S))|]]; rewrite shown_spaced; cbn [flat_map app]; rewrite (shown_par_names c cs (proj1 C) Fp);
    show_words; cbn [app];
    (split; [starts_ok|]); eexists;
    (split; [intros k K tl r T H; toks; enter|]).
  1,3: go_known (Some stmt_follow) 0 AtStar;
    by_reads (names_reads cs None ["CLOSE_PAR"%string] ltac:(not_in)); [left; reflexivity|]; read_on T tl H.
  all: finds; rewrite ?append_nil_r; unescapes; rewrite (col_texts (fun x => new_column (unescape_name_string x)));
    rewrite (map_plain bare _ new_column cs (fun x X => f_equal new_column (proj2 X)) F); reflexivity.
Qed.
Lemma alter_add_primary_back entries s t c cs : full s t -> bare c -> Forall bare cs ->
  comes_back entries (SAlterTable (mkAlter (mkTbl s t) None None None (Some (mkIdx "" PrimaryIndex (map new_column (c :: cs)))) None None)).
Proof.
  intros [P S] C F. pose proof (bares_plain _ F) as Fp. plains.
  exists (spaced ([kw ["ALTER"]; kw ["TABLE"]; match s with EmptyString => [PWord t] | _ => [PWord s; PSym "DOT" "."; PWord t] end;
                   kw ["ADD"]; kw ["PRIMARY"]; kw ["KEY"]; par_names c cs])).
  split.
  { alters. unfold join_with_space. rewrite glue_spaced. cbn [map]. rewrite glue_par_names.
    unfold index_definition_string. cbn [i_type i_name i_columns secondary_index index_type_string map]. rewrite column_names_cons.
    destruct S as [->|[S D]].
    - change (mkTbl "" t) with (new_table t). rewrite full_name_of_name, ?glue_one. reflexivity.
    - rewrite (full_schema s t (proj1 S) P D). destruct s as [|a s]; [discriminate (proj1 (proj1 S))|]. rewrite glue_schema, ?glue_one. reflexivity. }
  split; [goods; [|apply good_par_names; assumption]; destruct S as [->|[S D]]; [goods|]; destruct s as [|a s]; [discriminate (proj1 (proj1 S))|]; goods|].
  destruct S as [->|[S D]]; [|destruct s as [|a s]; [discriminate (proj1 (proj1 S))|]]; rewrite shown_spaced; cbn [flat_map app]; rewrite (shown_par_names c cs (proj1 C) Fp);
    show_words; cbn [app];
    (split; [starts_ok|]); eexists;
    (split; [intros k K tl r T H; toks; enter|]).
  1,3: go_known (Some stmt_follow) 0 AtStar;
    by_reads (names_reads cs None ["CLOSE_PAR"%string] ltac:(not_in)); [left; reflexivity|]; read_on T tl H.
  all: finds; rewrite ?append_nil_r; unescapes; rewrite (col_texts (fun x => new_column (unescape_name_string x)));
    rewrite (map_plain bare _ new_column cs (fun x X => f_equal new_column (proj2 X)) F); reflexivity.
Qed.
