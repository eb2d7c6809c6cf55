(** CREATE TABLE as it is written: what the parser makes of it. *)
From Coq Require Import Lia Permutation.
From Verif Require Import GoBase ModelUtil ModelNum ModelFn ModelQuery ModelEbnf ModelGrammar ModelLex ModelVisitor
  SpecFn SpecQuery SpecParse SpecRound FactsBase ProofEbnf ProofMachine ProofFn ProofNum ProofQuery ProofParse ProofLex ProofRound ProofRound2 ProofRound3
  ProofRound4 ProofRound5 ProofRound6 ProofRound7 ProofRound8 ProofRound11 ProofRound12 ProofRound13 ProofTable.

(** ** Constraints of the table *)

(** a key over columns: primary or just unique *)
Definition tcon : Type := bool * pk.
Definition tcon_ok (c : tcon) : Prop := pk_ok (snd c).
Definition tcon_pieces (c : tcon) : list piece := spaced [(if fst c then kw ["PRIMARY"; "KEY"]%string else kw ["UNIQUE"%string]); par_names (fst (snd c)) (snd (snd c))].
Definition tcon_toks (c : tcon) : list token :=
  (if fst c then [mkTok "PRIMARY_" "PRIMARY"; mkTok "KEY_" "KEY"] else [mkTok "UNIQUE_" "UNIQUE"]) ++ open_ :: idt (fst (snd c)) :: clist id1 (snd (snd c)) ++ [close_].
Definition tcon_tree (c : tcon) : tree :=
  Node "table_constraint" [(""%string, Node (if fst c then "primary_key_def" else "unique_key_def")
    (leafs (if fst c then [mkTok "PRIMARY_" "PRIMARY"; mkTok "KEY_" "KEY"] else [mkTok "UNIQUE_" "UNIQUE"]) ++ (""%string, Leaf open_) :: icol (fst (snd c)) ++ ctree icol (snd (snd c))
     ++ [(""%string, Leaf close_)]))].
Definition tconc (c : tcon) : children := [(""%string, tcon_tree c)].
Definition tcon_read (c : tcon) : list ModelQuery.index := if fst c then [pk_read (snd c)] else [].
Lemma good_tcon c : tcon_ok c -> good (tcon_pieces c).
Proof. destruct c as [[] p]; intros [A B]; unfold tcon_pieces; cbn [fst snd] in *; goods; apply good_par_names; assumption. Qed.
Lemma shown_tcon c : tcon_ok c -> shown (tcon_pieces c) = tcon_toks c.
Proof.
  destruct c as [[] p]; intros [A B]; unfold tcon_pieces, tcon_toks; rewrite shown_spaced; cbn [flat_map fst snd] in *; rewrite (shown_par_names _ _ A B); show_words;
    cbn [app]; rewrite app_nil_r; reflexivity.
Qed.
Lemma tcon_reads c bot : reads (Rule "table_constraint" 0) (tcon_toks c) (tconc c) bot ["COMMA"; "CLOSE_PAR"]%string.
Proof.
  intros k K [|[kd tx] rest] r T H; [contradiction|]. cbn [heads tk] in T. cbn [In] in T. unfold tcon_toks.
  destruct c as [[] [x xs]]; cbn [fst snd]; toks; enter; go_known none 1 (AtRule "indexed_column");
  (by_reads (icol_reads x None); [apply (heads_clist id1 ["CLOSE_PAR"%string] xs); left; reflexivity|]);
  go none (@nil token) 0 AtStar;
  (by_reads (icols_reads xs None); [left; reflexivity|]);
  each_kind T; (match goal with |- denm _ _ (?a :: ?b :: _) _ = _ => go none [a; b] 1 AtEnd end; the_end H).
Qed.
Lemma v_tcon entries c : Permutation entries data_type_strings -> tcon_ok c -> v_table_constraint entries (tcon_tree c) = Ok (tcon_read c).
Proof. intros HP O. destruct c as [[] p]; [exact (v_pk entries p HP O)|reflexivity]. Qed.

(** ** Columns *)

Definition ccon_pieces (c : ccon) : list piece :=
  match c with
  | KPrimary b => kw (if b then ["PRIMARY"; "KEY"; "AUTOINCREMENT"] else ["PRIMARY"; "KEY"])%string
  | KNotNull => kw ["NOT"; "NULL"]%string
  | KNull => kw ["NULL"%string]
  | KUnique => kw ["UNIQUE"%string]
  | KDefault l => spaced [kw ["DEFAULT"%string]; lit_pieces l]
  end.
Definition klen_pieces (l : klen) : list piece :=
  match l with NoLen => [] | OneLen n => lp :: [PNum (show_N n)] ++ [rp] | TwoLen n m => lp :: ([PNum (show_N n)] ++ listed (fun x => [PNum (show_N x)]) [m]) ++ [rp] end.
Definition kdef_pieces (d : kdef) : list piece := spaced ([PWord (kd_name d)] :: ([PWord (kd_word d)] ++ klen_pieces (kd_len d)) :: map ccon_pieces (kd_cons d)).
(** literals that are printed in good pieces *)
Definition ccon_fine (c : ccon) : Prop := match c with KDefault l => lit_ok l /\ good (lit_pieces l) /\ shown (lit_pieces l) = lit_toks l | _ => True end.
Lemma fine_ok c : ccon_fine c -> ccon_ok c.
Proof. destruct c; intro H; try exact I. exact (proj1 H). Qed.
Definition kdef_fine (d : kdef) : Prop := column_word (kd_name d) /\ type_ok (kd_word d) /\ Forall ccon_fine (kd_cons d).
Lemma kdef_fine_ok d : kdef_fine d -> kdef_ok d.
Proof. intros (A & B & C). split; [exact A|]. split; [exact B|]. revert C. apply Forall_impl. exact fine_ok. Qed.
Lemma good_ccon c : ccon_fine c -> good (ccon_pieces c).
Proof. destruct c as [[]| | | |l]; intro F; cbn [ccon_pieces app]; goods. apply F. Qed.
Lemma shown_ccon c : ccon_fine c -> shown (ccon_pieces c) = ccon_toks c.
Proof.
  destruct c as [[]| | | |l]; intro F; try reflexivity. cbn [ccon_pieces]. rewrite shown_spaced. cbn [flat_map]. rewrite (proj2 (proj2 F)), app_nil_r. reflexivity.
Qed.
Lemma good_kdef d : kdef_fine d -> good (kdef_pieces d).
Proof.
  intros ((P & _) & (W & _) & C). unfold kdef_pieces. apply good_spaced. constructor; [apply good_name; exact P|]. constructor.
  - destruct (kd_len d) as [|n|n m]; cbn [klen_pieces]; [rewrite app_nil_r; apply good_word; exact W|..];
      (apply good_app_lp; [apply good_word; exact W|]; apply good_app_rp; [|apply good_nil]); [apply good_num, show_is_num|].
    apply good_then_listed; [apply good_num, show_is_num|]. constructor; [apply good_num, show_is_num|constructor].
  - apply Forall_map. revert C. apply Forall_impl. exact good_ccon.
Qed.
Lemma shown_kdef d : kdef_fine d -> shown (kdef_pieces d) = kdef_toks d.
Proof.
  intros ((P & _) & _ & C). unfold kdef_pieces, kdef_toks. rewrite shown_spaced. cbn [flat_map]. rewrite (shown_name _ P), shown_app.
  assert (flat_map shown (map ccon_pieces (kd_cons d)) = flat_map ccon_toks (kd_cons d)) as ->.
  { clear P. induction C as [|c cs F _ IH]; [reflexivity|]. cbn [map flat_map]. rewrite IH, (shown_ccon c F). reflexivity. }
  cbn [app]. f_equal. rewrite <- app_assoc. change (shown [PWord (kd_word d)]) with [word_tok (kd_word d)]. cbn [app]. f_equal. f_equal.
  destruct (kd_len d); reflexivity.
Qed.

(** ** The visitor *)

Definition klen_words (l : klen) : list string :=
  match l with NoLen => [] | OneLen n => ["("; show_N n; ")"]%string | TwoLen n m => ["("; (show_N n ++ ", " ++ show_N m); ")"]%string end.
Definition kdef_def entries (d : kdef) : data_def := match data_def_from_strings entries (kd_word d :: klen_words (kd_len d)) with Ok d => d | _ => unknown_data_def end.
Definition kdef_column entries (d : kdef) : column := new_def_column (unescape_name_string (kd_name d)) (kdef_def entries d).
Definition is_primary (c : ccon) : bool := match c with KPrimary _ => true | _ => false end.
Definition kdef_keys entries (d : kdef) : list ModelQuery.index := map (fun _ => primary_index [kdef_column entries d]) (filter is_primary (kd_cons d)).
Lemma word_text w : text (word_tree w) = w.
Proof. unfold word_tree. rewrite !text_one. destruct (String.eqb _ _); rewrite ?text_one; reflexivity. Qed.
Lemma ccon_named n cs : n <> "column_constraint"%string -> named n (flat_map cconc cs) = [].
Proof.
  intro N. induction cs as [|c cs IH]; [reflexivity|]. cbn [flat_map]. unfold cconc at 1. cbn [app]. rewrite named_cons, IH. cbn [is_rule ccon_tree].
  destruct (String.eqb_spec "column_constraint" n); [congruence|]. destruct (String.eqb_spec n "column_constraint"); [contradiction|reflexivity].
Qed.
Lemma ccon_subs cs : named "column_constraint" (flat_map cconc cs) = map ccon_tree cs.
Proof. induction cs as [|c cs IH]; [reflexivity|]. cbn [flat_map]. unfold cconc at 1. cbn [app]. rewrite named_cons, IH. reflexivity. Qed.
Lemma kdef_sub d n x : hd_error (named n [(""%string, Node "column_name" (ident (kd_name d))); (""%string, Node "type_name" ((""%string, word_tree (kd_word d)) :: klen_tree (kd_len d)))]) = Some x ->
  sub n (kdef_tree d) = Some x.
Proof.
  intro H. unfold sub, kdef_tree. rewrite subs_node, named_app. destruct (named n [_; _]); [discriminate H|]. exact H.
Qed.
Lemma v_column_kdef entries d : kdef_ok d -> v_column entries (kdef_tree d) = Ok (Some (kdef_column entries d)).
Proof.
  intros (P & _). unfold v_column. rewrite (kdef_sub d "column_name" (Node "column_name" (ident (kd_name d))) eq_refl).
  rewrite (kdef_sub d "type_name" (Node "type_name" ((""%string, word_tree (kd_word d)) :: klen_tree (kd_len d))) eq_refl).
  unfold name_of, text_of. cbn [need rbind]. rewrite text_ident. pose proof (proj2 P) as U. unfold special_words in U. rewrite U.
  unfold kdef_column, kdef_def. destruct d as [x w l cs]. cbn [kd_name kd_word kd_len kd_cons].
  assert (forall l, subs "name" (Node "type_name" ((""%string, word_tree w) :: klen_tree l)) = [word_tree w]) as -> by (intros []; reflexivity).
  cbn [map]. rewrite word_text.
  destruct l as [|n|n m]; cbn [klen_words klen_tree].
  - reflexivity.
  - match goal with |- context[if ?b then _ else _] => change b with true end. cbn iota.
    match goal with |- context[map text ?x] => change (map text x) with [(show_N n ++ "")%string] end. rewrite append_nil_r. reflexivity.
  - match goal with |- context[if ?b then _ else _] => change b with true end. cbn iota.
    match goal with |- context[map text ?x] => change (map text x) with [(show_N n ++ "")%string; (show_N m ++ "")%string] end. rewrite !append_nil_r. reflexivity.
Qed.
Lemma ccon_primary c : present (sub "primary_key_constraint" (ccon_tree c)) = is_primary c.
Proof. destruct c as [[]| | | |[]]; reflexivity. Qed.
Lemma v_kdefs entries ds : Forall kdef_ok ds -> forall cols idxs,
  v_column_defs entries (cols, idxs) (map kdef_tree ds) = Ok (cols ++ map (kdef_column entries) ds, idxs ++ flat_map (kdef_keys entries) ds).
Proof.
  intros F. induction F as [|d ds D Ds IH]; intros cols idxs; [cbn; rewrite !app_nil_r; reflexivity|].
  cbn [map v_column_defs flat_map]. unfold v_column_def at 1. rewrite (v_column_kdef entries d D). cbn [rbind].
  assert (subs "column_constraint" (kdef_tree d) = map ccon_tree (kd_cons d)) as -> by (unfold kdef_tree; rewrite subs_node, named_app, ccon_subs; reflexivity).
  assert (map (fun _ => primary_index [kdef_column entries d]) (filter (fun k => present (sub "primary_key_constraint" k)) (map ccon_tree (kd_cons d))) = kdef_keys entries d) as ->.
  { unfold kdef_keys. induction (kd_cons d) as [|c cs IHc]; [reflexivity|]. cbn [map filter]. rewrite ccon_primary. destruct (is_primary c); cbn [map]; rewrite IHc; reflexivity. }
  rewrite (kdef_sub d "column_name" (Node "column_name" (ident (kd_name d))) eq_refl). unfold text_of. cbn [need rbind]. rewrite text_ident.
  pose proof (not_special _ (proj1 (proj1 D))) as N. cbn [existsb] in N.
  destruct (String.eqb (kd_name d) "PRIMARY"); [discriminate N|]. cbn [orb] in N.
  destruct (String.eqb (kd_name d) "KEY"); [discriminate N|]. cbn [orb] in N |- *.
  destruct (String.eqb (kd_name d) "UNIQUE"); [discriminate N|]. cbn [orb] in N |- *.
  destruct (String.eqb (kd_name d) "INDEX"); [discriminate N|].
  cbn [rbind]. rewrite IH, <- !app_assoc. reflexivity.
Qed.

(** ** The statement *)

Definition ktable_pieces (d : kdef) (ds : list kdef) (ps : list tcon) : list piece :=
  lp :: (kdef_pieces d ++ listed kdef_pieces ds ++ listed tcon_pieces ps) ++ [rp].
Definition ktable_toks (d : kdef) (ds : list kdef) (ps : list tcon) : list token :=
  open_ :: kdef_toks d ++ clist kdef_toks ds ++ clist tcon_toks ps ++ [close_].
Lemma good_ktable d ds ps : kdef_fine d -> Forall kdef_fine ds -> Forall tcon_ok ps -> good (ktable_pieces d ds ps).
Proof.
  intros D Ds Ps. unfold ktable_pieces. apply good_lp, good_app_rp; [|apply good_nil]. rewrite app_assoc.
  apply good_then_listed; [apply good_then_listed|]; [apply good_kdef; exact D| |].
  - revert Ds. apply Forall_impl. exact good_kdef.
  - revert Ps. apply Forall_impl. exact good_tcon.
Qed.
Lemma shown_ktable d ds ps : kdef_fine d -> Forall kdef_fine ds -> Forall tcon_ok ps -> shown (ktable_pieces d ds ps) = ktable_toks d ds ps.
Proof.
  intros D Ds Ps. unfold ktable_pieces, ktable_toks.
  change (lp :: (kdef_pieces d ++ listed kdef_pieces ds ++ listed tcon_pieces ps) ++ [rp])
    with ([lp] ++ (kdef_pieces d ++ listed kdef_pieces ds ++ listed tcon_pieces ps) ++ [rp]).
  rewrite !shown_app, !shown_listed, (shown_kdef d D).
  rewrite (clist_ext _ kdef_toks ds (fun x I => shown_kdef x (proj1 (Forall_forall _ _) Ds x I))).
  rewrite (clist_ext _ tcon_toks ps (fun x I => shown_tcon x (proj1 (Forall_forall _ _) Ps x I))).
  rewrite <- !app_assoc. reflexivity.
Qed.
Lemma no_constraint2 k s : law (Some stmt_follow) k -> (forall cs x, may (Some stmt_follow) 2000 (MRet cs) [comma; idt x] s = false) -> forallb okf s = true ->
  forall cs d rest, den k s cs (comma :: kdef_toks d ++ rest) = NotFound.
Proof.
  intros K M O cs d rest. exact (may_false k (Some stmt_follow) K 2000 (MRet cs) [comma; idt (kd_name d)] s (M cs (kd_name d)) O _).
Qed.
Definition ktable_stmt_pieces (t : string) (d : kdef) (ds : list kdef) (ps : list tcon) (b : bool) : list piece :=
  spaced ([kw ["CREATE"; "TABLE"]] ++ (if b then [kw ["IF"; "NOT"; "EXISTS"]] else []) ++ [[PWord t]; ktable_pieces d ds ps]).
Lemma create_ktable entries t d ds ps b : Permutation entries data_type_strings -> plain t -> kdef_fine d -> Forall kdef_fine ds -> Forall tcon_ok ps ->
  reads_as entries (ktable_stmt_pieces t d ds ps b)
    (SCreateTable (new_schema (unescape_name_string t) (map (kdef_column entries) (d :: ds)) (flat_map (kdef_keys entries) (d :: ds) ++ flat_map tcon_read ps)) b).
Proof.
  intros HP P D Ds Ps. unfold ktable_stmt_pieces. pose proof (kdef_fine_ok d D) as D'. pose proof (Forall_impl _ kdef_fine_ok Ds) as Ds'.
  split; [apply good_spaced; repeat (apply Forall_app; split); [goods|destruct b; goods|goods; apply good_ktable; assumption]|].
  rewrite shown_spaced. destruct b; cbn [app flat_map]; rewrite (shown_ktable d ds ps D Ds Ps), app_nil_r; unfold ktable_toks;
  show_words; cbn [app]; (split; [starts_ok|]); eexists; (split; [intros k K tl r T H; toks; enter|]).
  1,3: remember (clist tcon_toks ps ++ close_ :: tl) as tl2 eqn:E2;
    remember (kdef_toks d ++ clist kdef_toks ds ++ tl2) as tl1 eqn:E1;
    go_known (Some stmt_follow) 0 (AtRule "column_def"); subst tl1;
    (by_reads (kdef_reads d D');
     [apply (heads_incl ["COMMA"; "COMMA"; "CLOSE_PAR"]%string); [in_list|subst tl2; apply heads_clist, heads_clist; left; reflexivity]|]);
    go (Some stmt_follow) (@nil token) 0 AtStarNG; apply leave_machine;
    (refine (starng_reads (Rule "column_def" 0) kdef_toks kdefc kdef_ends ds eq_refl
      (fun x Ix => kdef_reads x (proj1 (Forall_forall _ _) Ds' x Ix)) (or_introl eq_refl) _ tl2 r _ _ _);
     [intros cs' x rest _; apply no_constraint2; [exact K|intros; vm_compute; reflexivity|vm_compute; reflexivity]
     |apply (heads_incl ["COMMA"; "CLOSE_PAR"]%string); [in_list|subst tl2; apply heads_clist; left; reflexivity]
     |apply enter_ret; match goal with |- denm _ (MRet ?c) _ _ = _ => let X := fresh "cs" in let E := fresh "Ecs" in remember c as X eqn:E end]);
    go (Some stmt_follow) (@nil token) 0 AtStar; subst tl2;
    (by_reads (list_reads_any (Rule "table_constraint" 0) tcon_toks tconc None ["CLOSE_PAR"%string] ps eq_refl ltac:(not_in) (fun x _ => tcon_reads x None));
     [left; reflexivity|]);
    read_on T tl H.
  all: finds; change (named "table_constraint" (kdefc d)) with (@nil tree); change (named "if_not_exists" (kdefc d)) with (@nil tree); cbn [app hd_error];
    change (named "column_def" (kdefc d) ++ flat_map (fun x => named "column_def" (kdefc x)) ds) with (flat_map (fun x => [kdef_tree x]) (d :: ds));
    change (fun x => named "table_constraint" (tconc x)) with (fun x => [tcon_tree x]);
    rewrite !flat_map_one, (v_kdefs entries (d :: ds) (Forall_cons _ D' Ds'));
    rewrite (collect_map _ tcon_tree tcon_read ps (fun p Ip => v_tcon entries p HP (proj1 (Forall_forall _ _) Ps p Ip)));
    cbn [rbind fst snd app]; rewrite <- flat_map_concat_map, !append_nil_r; reflexivity.
Qed.
