(** Reading back printed statements: CREATE TABLE and ALTER TABLE ADD. *)
From Coq Require Import Lia Permutation.
From Verif Require Import GoBase ModelUtil ModelNum ModelFn ModelQuery ModelEbnf ModelGrammar ModelLex ModelVisitor
  SpecFn SpecQuery SpecParse SpecRound FactsBase ProofEbnf ProofMachine ProofFn ProofNum ProofQuery ProofParse ProofLex ProofRound ProofRound2 ProofRound3
  ProofRound4 ProofRound5 ProofRound6.

Lemma good_cdef d : cdef_ok d -> good (cdef_pieces d).
Proof.
  intros ((P & _) & N & L). destruct d as [x t l]. cbn [cd_name cd_type cd_len] in *. destruct (type_word t N) as (W & _).
  unfold cdef_pieces, len_pieces. cbn [cd_name cd_type cd_len]. goods.
  destruct (0 <? l)%Z eqn:E; [|apply good_word; exact W].
  change [lp; PNum (show_Z l); rp] with (lp :: [PNum (show_Z l)] ++ [rp]).
  change (PWord (data_type_string t) :: lp :: [PNum (show_Z l)] ++ [rp]) with ([PWord (data_type_string t)] ++ lp :: [PNum (show_Z l)] ++ [rp]).
  apply good_app_lp; [apply good_word; exact W|]. apply good_app_rp; [|apply good_nil]. apply good_num.
  apply Z.ltb_lt in E. rewrite show_Z_nonneg by lia. apply digits_num. unfold is_digits.
  pose proof (show_N_digits (Z.to_N l)) as D. destruct (digits_head _ D) as (c & r & Ec & _). rewrite Ec in D |- *.
  destruct D as [_ D]. unfold all_chars. apply forallb_forall. intros a Ia. rewrite Forall_forall in D. specialize (D a Ia).
  unfold is_digit in D. apply digit_b. unfold digit, nat_of_ascii. lia.
Qed.
Lemma glue_cdef d : glue (cdef_pieces d) = definition_string (cdef_column d).
Proof.
  destruct d as [x t l]. unfold cdef_pieces, cdef_column, definition_string, data_def_string, len_pieces. cbn [cd_name cd_type cd_len c_def c_name new_def_column d_length d_type new_data_def].
  rewrite glue_spaced. cbn [map]. rewrite glue_one, glue_cons'. cbn [ptext join].
  destruct (0 <? l)%Z; cbn [glue fold_right ptext lp rp]; rewrite ?append_nil_r; reflexivity.
Qed.
Lemma shown_cdef d : cdef_ok d -> shown (cdef_pieces d) = cdef_toks d.
Proof.
  intros (P & _). unfold cdef_pieces, cdef_toks, type_toks. rewrite shown_spaced. cbn [flat_map]. rewrite app_nil_r, (shown_name _ (proj1 P)).
  change (PWord (data_type_string (cd_type d)) :: len_pieces (cd_len d)) with ([PWord (data_type_string (cd_type d))] ++ len_pieces (cd_len d)).
  rewrite shown_app. reflexivity.
Qed.

(** what the visitor makes of a column definition *)
Lemma not_special x : plain x -> existsb (String.eqb x) ["PRIMARY"; "KEY"; "UNIQUE"; "INDEX"; "CONSTRAINT"]%string = false.
Proof.
  intros [_ K]. cbn [existsb]. 
  repeat match goal with |- context[String.eqb x ?s] => let E := fresh in destruct (String.eqb x s) eqn:E; [apply String.eqb_eq in E; subst x; vm_compute in K; discriminate K|] end.
  reflexivity.
Qed.
Lemma type_text t : text (type_tree t) = data_type_string t.
Proof. unfold type_tree. rewrite !text_one. destruct (String.eqb _ _); rewrite ?text_one; reflexivity. Qed.
Lemma v_column_cdef entries d : Permutation entries data_type_strings -> cdef_ok d -> v_column entries (cdef_tree d) = Ok (Some (cdef_read d)).
Proof.
  intros HP (P & N & L). destruct d as [x t l]. cbn [cd_name cd_type cd_len] in *. unfold v_column, cdef_tree, cdef_read. cbn [cd_name cd_type cd_len].
  change (sub "column_name" _) with (Some (Node "column_name" (ident x))).
  change (sub "type_name" _) with (Some (Node "type_name" ((""%string, type_tree t) :: len_tree l))).
  unfold name_of, text_of. cbn [need rbind]. rewrite text_ident. pose proof (proj2 P) as U. unfold special_words in U. rewrite U.
  destruct (type_word t N) as (_ & _ & I).
  assert (NT : named_type t (data_type_string t)) by exact I.
  assert (SP : spells (data_type_string t) (data_type_string t)) by (left; reflexivity).
  unfold len_tree. destruct L as [->|L].
  - change (0 <? -1)%Z with false. cbn iota.
    change (subs "name" _) with [type_tree t]. change (has_tok "OPEN_PAR" _) with false. cbn [andb map app]. rewrite type_text.
    destruct (data_def_alone entries t _ _ HP NT SP) as [E _]. rewrite E. reflexivity.
  - assert ((0 <? l)%Z = true) as -> by (apply Z.ltb_lt; lia).
    change (subs "name" _) with [type_tree t]. change (has_tok "OPEN_PAR" _) with true. change (has_tok "CLOSE_PAR" _) with true.
    change (subs "signed_number" _) with [Node "signed_number" [(""%string, Leaf (mkTok "NUMERIC_LITERAL" (show_Z l)))]].
    cbn [andb map app]. rewrite type_text, text_one. unfold join_with_comma. cbn [join text tx].
    cbn [data_def_from_strings length Nat.leb nth]. rewrite String.eqb_refl. cbn [orb]. rewrite atoi_show by lia.
    unfold data_def_from. destruct (data_type_parse entries (data_type_string t) HP) as [Q _]. rewrite (Q t _ NT SP). reflexivity.
Qed.

Lemma bare_column_word x : bare x -> column_word x.
Proof. intros [P E]. split; [exact P|]. rewrite E. exact (not_special x P). Qed.
Definition cdef_bare (d : cdef) : Prop :=
  bare (cd_name d) /\ ~ In (cd_type d) [UnknownData; BinaryType; DoublePrecisionType; NameType] /\ (cd_len d = (-1)%Z \/ (0 < cd_len d < 2 ^ 63)%Z).
Lemma cdef_bare_ok d : cdef_bare d -> cdef_ok d.
Proof. intros (P & R). split; [apply bare_column_word, P|exact R]. Qed.
Lemma cdef_bare_read d : cdef_bare d -> cdef_read d = cdef_column d.
Proof. intros (P & _). unfold cdef_read, cdef_column. rewrite (proj2 P). reflexivity. Qed.

(** ALTER TABLE ADD *)
Lemma alter_add_column_back entries s t d : Permutation entries data_type_strings -> full s t -> cdef_bare d ->
  comes_back entries (SAlterTable (mkAlter (mkTbl s t) None None (Some (cdef_column d)) None None None)).
Proof.
  intros HP [P S] B. pose proof (cdef_bare_ok d B) as D.
  exists (spaced ([kw ["ALTER"]; kw ["TABLE"]; match s with EmptyString => [PWord t] | _ => [PWord s; PSym "DOT" "."; PWord t] end;
                   kw ["ADD"]; cdef_pieces d])).
  split.
  { alters. unfold join_with_space. rewrite glue_spaced. cbn [map]. rewrite glue_cdef. cbn [cdef_column c_def new_def_column new_data_def d_consts N.eqb rbind app].
    destruct S as [->|[S Dt]].
    - change (mkTbl "" t) with (new_table t). rewrite full_name_of_name, ?glue_one. reflexivity.
    - rewrite (full_schema s t (proj1 S) P Dt). destruct s as [|a s]; [discriminate (proj1 (proj1 S))|]. rewrite glue_schema, ?glue_one. reflexivity. }
  split; [goods; [|apply good_cdef; assumption]; destruct S as [->|[S Dt]]; [goods|]; destruct s as [|a s]; [discriminate (proj1 (proj1 S))|]; goods|].
  destruct S as [->|[S Dt]]; [|destruct s as [|a s]; [discriminate (proj1 (proj1 S))|]]; rewrite shown_spaced; cbn [flat_map app]; rewrite (shown_cdef d D);
    show_words; cbn [app]; rewrite ?app_nil_r;
    (split; [starts_ok|]); eexists;
    (split; [intros k K tl r T H; toks; enter|]).
  1,3: unfold cdef_toks; toks; go_known (Some stmt_follow) 1 (AtRule "column_def");
    match goal with |- denm ?k ?m ?ts ?s = ?o => replace ts with (cdef_toks d ++ tl) by (unfold cdef_toks; toks; reflexivity) end;
    by_reads (cdef_reads d None D); [apply (heads_incl stmt_ends); [in_list|exact T]|]; read_on T tl H.
  all: cbn -[unescape_name_string unescape_string append v_column cdef_tree cdef_column cdef_read]; rewrite ?append_nil_r; unescapes;
    change (sub "column_def" _) with (Some (cdef_tree d)); cbn [need rbind]; rewrite (v_column_cdef entries d HP D), (cdef_bare_read d B); reflexivity.
Qed.

(** ** CREATE TABLE *)

(** a list that ends as soon as it can *)
Lemma starng_reads {A} g (f : A -> list token) (c : A -> children) follow xs : okg (StarNG (Seq (Tok "COMMA") g)) = true ->
  (forall x, In x xs -> reads g (f x) (c x) None follow) -> In "COMMA"%string follow ->
  forall k tl r, (forall cs x rest, In x xs -> k cs (comma :: f x ++ rest) = NotFound) -> heads follow tl -> k (ctree c xs) tl = Found r ->
  R (StarNG (Seq (Tok "COMMA") g)) (clist f xs ++ tl) k = Found r.
Proof.
  intros O Hx C. induction xs as [|x xs IH]; intros k tl r N T H.
  - rewrite R_starng by exact O. cbn [clist flat_map app]. cbn [ctree flat_map] in H. rewrite H. reflexivity.
  - rewrite R_starng by exact O. cbn [clist flat_map app]. rewrite <- app_assoc. rewrite (N [] x _ (or_introl eq_refl)).
    destruct (okg_starng _ O) as [O1 _]. rewrite R_seq by exact O1. rewrite R_tok. cbn [tk comma String.eqb Ascii.eqb Bool.eqb].
    refine (Hx x (or_introl eq_refl) _ I _ r _ _).
    + destruct xs as [|y ys]; [exact T|exact C].
    + refine (IH (fun y Hy => Hx y (or_intror Hy)) _ tl r _ T _).
      * intros cs y rest Iy. apply N. right. exact Iy.
      * cbn [ctree flat_map] in H. rewrite <- app_assoc. exact H.
Qed.

(** primary keys *)
Definition pk := (string * list string)%type.
Definition pk_ok (p : pk) : Prop := plain (fst p) /\ Forall plain (snd p).
Definition pk_bare (p : pk) : Prop := bare (fst p) /\ Forall bare (snd p).
Lemma pk_bare_ok p : pk_bare p -> pk_ok p.
Proof. intros [A B]. split; [apply bare_plain, A|apply bares_plain, B]. Qed.
Definition pk_index (p : pk) : ModelQuery.index := primary_index (map (fun c => new_def_column c unknown_data_def) (fst p :: snd p)).
Definition pk_read (p : pk) : ModelQuery.index := primary_index (map (fun c => new_def_column (unescape_name_string c) unknown_data_def) (fst p :: snd p)).
Definition pk_pieces (p : pk) : list piece := spaced [kw ["PRIMARY"; "KEY"]%string; par_names (fst p) (snd p)].
Definition pk_toks (p : pk) : list token :=
  [mkTok "PRIMARY_" "PRIMARY"; mkTok "KEY_" "KEY"; open_; idt (fst p)] ++ clist id1 (snd p) ++ [close_].
Definition pk_tree (p : pk) : tree :=
  Node "table_constraint" [(""%string, Node "primary_key_def"
    ([(""%string, Leaf (mkTok "PRIMARY_" "PRIMARY")); (""%string, Leaf (mkTok "KEY_" "KEY")); (""%string, Leaf open_)] ++ icol (fst p) ++ ctree icol (snd p)
     ++ [(""%string, Leaf close_)]))].
Definition pkc (p : pk) : children := [(""%string, pk_tree p)].
Lemma good_pk p : pk_ok p -> good (pk_pieces p).
Proof. intros [A B]. unfold pk_pieces. goods. apply good_par_names; assumption. Qed.
Lemma shown_pk p : pk_ok p -> shown (pk_pieces p) = pk_toks p.
Proof.
  intros [A B]. unfold pk_pieces, pk_toks. rewrite shown_spaced. cbn [flat_map]. rewrite (shown_par_names _ _ A B). show_words.
  cbn [app]. rewrite app_nil_r. reflexivity.
Qed.
Lemma glue_pk p : glue (pk_pieces p) = index_definition_string (pk_index p).
Proof.
  unfold pk_pieces. rewrite glue_spaced. cbn [map]. rewrite glue_par_names. unfold index_definition_string, pk_index.
  cbn [i_type i_name i_columns primary_index index_type_string]. unfold column_names. rewrite map_map. cbn [c_name new_def_column]. rewrite map_id. reflexivity.
Qed.
Lemma pk_reads p bot : reads (Rule "table_constraint" 0) (pk_toks p) (pkc p) bot ["COMMA"; "CLOSE_PAR"]%string.
Proof.
  intros k K [|[kd tx] rest] r T H; [contradiction|]. cbn [heads tk] in T. cbn [In] in T. unfold pk_toks. toks. enter.
  go_known none 1 (AtRule "indexed_column").
  by_reads (icol_reads (fst p) None); [apply (heads_clist id1 ["CLOSE_PAR"%string] (snd p)); left; reflexivity|].
  go none (@nil token) 0 AtStar.
  by_reads (icols_reads (snd p) None); [left; reflexivity|].
  each_kind T; (match goal with |- denm _ _ (?a :: ?b :: _) _ = _ => go none [a; b] 1 AtEnd end; the_end H).
Qed.
Lemma v_pk entries p : Permutation entries data_type_strings -> pk_ok p -> v_table_constraint entries (pk_tree p) = Ok [pk_read p].
Proof.
  intros HP [A B]. unfold v_table_constraint, pk_tree.
  change (sub "primary_key_def" _) with (Some (Node "primary_key_def"
    ([(""%string, Leaf (mkTok "PRIMARY_" "PRIMARY")); (""%string, Leaf (mkTok "KEY_" "KEY")); (""%string, Leaf open_)] ++ icol (fst p) ++ ctree icol (snd p)
     ++ [(""%string, Leaf close_)]))).
  cbn iota. rewrite subs_node, !named_app, named_ctree. change (named "indexed_column" [(""%string, Leaf close_)]) with (@nil tree). rewrite app_nil_r.
  change (named "indexed_column" [_; _; _]) with (@nil tree). cbn [app].
  change (named "indexed_column" (icol (fst p)) ++ flat_map (fun x => named "indexed_column" (icol x)) (snd p))
    with (flat_map (fun x => named "indexed_column" (icol x)) (fst p :: snd p)).
  rewrite (icol_texts _ (fun c => new_def_column (unescape_name_string c) unknown_data_def)); [reflexivity|].
  intros x. unfold v_indexed_column, name_of, text_of. change (sub "column_name" _) with (Some (Node "column_name" (ident x))).
  cbn [need rbind]. rewrite text_ident. unfold data_def_from.
  destruct (data_type_parse entries "" HP) as [_ Q]. rewrite Q; [reflexivity|].
  intros t n Hn Hs. assert (F : forallb (fun e => negb (String.eqb (no_spaces (snd e)) "")) type_names = true) by (vm_compute; reflexivity).
  rewrite forallb_forall in F. specialize (F (t, n) Hn). cbn [snd] in F. destruct Hs as [Hs|Hs].
  - unfold same_text in Hs. destruct n; [discriminate F|discriminate Hs].
  - unfold same_text in Hs. destruct (no_spaces n); [discriminate F|discriminate Hs].
Qed.

Lemma glue_more {A} (f : A -> list piece) xs : glue (listed f xs) = match xs with [] => ""%string | _ => (", " ++ join_with_comma (map (fun x => glue (f x)) xs))%string end.
Proof. destruct xs as [|x xs]; [reflexivity|]. rewrite <- glue_listed. reflexivity. Qed.

Definition table_pieces (d : cdef) (ds : list cdef) (ps : list pk) : list piece :=
  lp :: (cdef_pieces d ++ listed cdef_pieces ds ++ listed pk_pieces ps) ++ [rp].
Definition table_toks (d : cdef) (ds : list cdef) (ps : list pk) : list token :=
  open_ :: cdef_toks d ++ clist cdef_toks ds ++ clist pk_toks ps ++ [close_].
Lemma good_table d ds ps : cdef_ok d -> Forall cdef_ok ds -> Forall pk_ok ps -> good (table_pieces d ds ps).
Proof.
  intros D Ds Ps. unfold table_pieces. apply good_lp, good_app_rp; [|apply good_nil]. rewrite app_assoc.
  apply good_then_listed; [apply good_then_listed|]; [apply good_cdef; exact D| |].
  - revert Ds. apply Forall_impl. exact good_cdef.
  - revert Ps. apply Forall_impl. exact good_pk.
Qed.
Lemma shown_table d ds ps : cdef_ok d -> Forall cdef_ok ds -> Forall pk_ok ps -> shown (table_pieces d ds ps) = table_toks d ds ps.
Proof.
  intros D Ds Ps. unfold table_pieces, table_toks.
  change (lp :: (cdef_pieces d ++ listed cdef_pieces ds ++ listed pk_pieces ps) ++ [rp])
    with ([lp] ++ (cdef_pieces d ++ listed cdef_pieces ds ++ listed pk_pieces ps) ++ [rp]).
  rewrite !shown_app, !shown_listed, (shown_cdef d D).
  rewrite (clist_ext _ cdef_toks ds (fun x I => shown_cdef x (proj1 (Forall_forall _ _) Ds x I))).
  rewrite (clist_ext _ pk_toks ps (fun x I => shown_pk x (proj1 (Forall_forall _ _) Ps x I))).
  rewrite <- !app_assoc. reflexivity.
Qed.
Lemma glue_table d ds ps : glue (table_pieces d ds ps) =
  ("(" ++ columns_definition_string (map cdef_column (d :: ds))
   ++ (match map pk_index ps with [] => "" | is => ", " ++ indexes_definition_string is end) ++ ")")%string.
Proof.
  unfold table_pieces. rewrite glue_cons', glue_app, app_assoc, glue_app, glue_listed, glue_more, glue_one.
  unfold columns_definition_string, indexes_definition_string. cbn [ptext lp rp]. rewrite sapp_assoc, map_map, (map_ext _ _ glue_cdef), (map_ext _ _ glue_pk), <- (map_map pk_index index_definition_string ps).
  destruct ps; reflexivity.
Qed.

Lemma v_cdefs entries ds : Permutation entries data_type_strings -> Forall cdef_ok ds -> forall cols idxs,
  v_column_defs entries (cols, idxs) (map cdef_tree ds) = Ok (cols ++ map cdef_read ds, idxs).
Proof.
  intros HP F. induction F as [|d ds D Ds IH]; intros cols idxs; [cbn; rewrite app_nil_r; reflexivity|].
  cbn [map v_column_defs]. unfold v_column_def at 1. rewrite (v_column_cdef entries d HP D). cbn [rbind].
  change (subs "column_constraint" (cdef_tree d)) with (@nil tree). cbn [filter map]. rewrite app_nil_r.
  change (sub "column_name" (cdef_tree d)) with (Some (Node "column_name" (ident (cd_name d)))). unfold text_of. cbn [need rbind]. rewrite text_ident.
  pose proof (not_special _ (proj1 (proj1 D))) as N. cbn [existsb] in N.
  destruct (String.eqb (cd_name d) "PRIMARY"); [discriminate N|]. cbn [orb] in N.
  destruct (String.eqb (cd_name d) "KEY"); [discriminate N|]. cbn [orb] in N |- *.
  destruct (String.eqb (cd_name d) "UNIQUE"); [discriminate N|]. cbn [orb] in N |- *.
  destruct (String.eqb (cd_name d) "INDEX"); [discriminate N|].
  cbn [rbind]. rewrite IH, <- app_assoc. reflexivity.
Qed.

(** another definition is not the end of the definitions *)
Lemma no_constraint k s : law (Some stmt_follow) k -> (forall cs x, may (Some stmt_follow) 2000 (MRet cs) [comma; idt x] s = false) -> forallb okf s = true ->
  forall cs d rest, den k s cs (comma :: cdef_toks d ++ rest) = NotFound.
Proof.
  intros K M O cs d rest. exact (may_false k (Some stmt_follow) K 2000 (MRet cs) [comma; idt (cd_name d)] s (M cs (cd_name d)) O _).
Qed.
Definition create_table_pieces (t : string) (d : cdef) (ds : list cdef) (ps : list pk) (b : bool) : list piece :=
  spaced [kw ["CREATE"; "TABLE"]; (if b then kw ["IF"; "NOT"; "EXISTS"] else []); [PWord t]; table_pieces d ds ps].
Lemma create_table_any entries t d ds ps b : Permutation entries data_type_strings -> plain t -> cdef_ok d -> Forall cdef_ok ds -> Forall pk_ok ps ->
  reads_as entries (create_table_pieces t d ds ps b) (SCreateTable (new_schema (unescape_name_string t) (map cdef_read (d :: ds)) (map pk_read ps)) b).
Proof.
  intros HP P D Ds Ps. unfold create_table_pieces.
  split; [goods; [destruct b; goods|apply good_table; assumption]|].
  rewrite shown_spaced. cbn [flat_map]. rewrite (shown_table d ds ps D Ds Ps), app_nil_r. unfold table_toks.
  destruct b; show_words; cbn [app]; (split; [starts_ok|]); eexists; (split; [intros k K tl r T H; change (shown []) with (@nil token); toks; enter|]).
  1,3: remember (clist pk_toks ps ++ close_ :: tl) as tl2 eqn:E2;
    remember (cdef_toks d ++ clist cdef_toks ds ++ tl2) as tl1 eqn:E1;
    go_known (Some stmt_follow) 0 (AtRule "column_def"); subst tl1;
    (by_reads (cdef_reads d None D);
     [apply (heads_incl ["COMMA"; "COMMA"; "CLOSE_PAR"]%string); [in_list|subst tl2; apply heads_clist, heads_clist; left; reflexivity]|]);
    go (Some stmt_follow) (@nil token) 0 AtStarNG; apply leave_machine;
    (refine (starng_reads (Rule "column_def" 0) cdef_toks cdefc def_ends ds eq_refl
      (fun x Ix => cdef_reads x None (proj1 (Forall_forall _ _) Ds x Ix)) (or_introl eq_refl) _ tl2 r _ _ _);
     [intros cs' x rest _; apply no_constraint; [exact K|intros; vm_compute; reflexivity|vm_compute; reflexivity]
     |apply (heads_incl ["COMMA"; "CLOSE_PAR"]%string); [in_list|subst tl2; apply heads_clist; left; reflexivity]
     |apply enter_ret; match goal with |- denm _ (MRet ?c) _ _ = _ => let X := fresh "cs" in let E := fresh "Ecs" in remember c as X eqn:E end]);
    go (Some stmt_follow) (@nil token) 0 AtStar; subst tl2;
    (by_reads (list_reads_any (Rule "table_constraint" 0) pk_toks pkc None ["CLOSE_PAR"%string] ps eq_refl ltac:(not_in) (fun x _ => pk_reads x None));
     [left; reflexivity|]);
    read_on T tl H.
  all: finds; change (named "table_constraint" (cdefc d)) with (@nil tree); change (named "if_not_exists" (cdefc d)) with (@nil tree); cbn [app hd_error];
    change (named "column_def" (cdefc d) ++ flat_map (fun x => named "column_def" (cdefc x)) ds) with (flat_map (fun x => [cdef_tree x]) (d :: ds));
    change (fun x => named "table_constraint" (pkc x)) with (fun x => [pk_tree x]);
    rewrite !flat_map_one, (v_cdefs entries (d :: ds) HP (Forall_cons _ D Ds));
    rewrite (collect_map _ pk_tree (fun p => [pk_read p]) ps (fun p Ip => v_pk entries p HP (proj1 (Forall_forall _ _) Ps p Ip)));
    cbn [rbind fst snd app]; rewrite <- flat_map_concat_map, flat_map_one, !append_nil_r; unescapes; reflexivity.
Qed.
Lemma create_table_text t d ds ps b :
  stmt_string (SCreateTable (new_schema t (map cdef_column (d :: ds)) (map pk_index ps)) b) = Ok (glue (create_table_pieces t d ds ps b)).
Proof.
  unfold create_table_pieces, stmt_string, create_table_string, join_with_space. rewrite glue_spaced. cbn [map s_columns s_indexes s_table t_name new_schema new_table].
  change (cdef_column d :: map cdef_column ds) with (map cdef_column (d :: ds)).
  rewrite glue_table, glue_one. destruct b; reflexivity.
Qed.
Lemma create_table_back entries t d ds ps b : Permutation entries data_type_strings -> bare t -> cdef_bare d -> Forall cdef_bare ds -> Forall pk_bare ps ->
  comes_back entries (SCreateTable (new_schema t (map cdef_column (d :: ds)) (map pk_index ps)) b).
Proof.
  intros HP P D Ds Ps. exists (create_table_pieces t d ds ps b). split; [apply create_table_text|].
  pose proof (create_table_any entries t d ds ps b HP (proj1 P) (cdef_bare_ok d D) (Forall_impl _ cdef_bare_ok Ds) (Forall_impl _ pk_bare_ok Ps)) as H.
  rewrite (map_ext_in cdef_read cdef_column (d :: ds)) in H
    by (intros x I; apply cdef_bare_read; exact (proj1 (Forall_forall _ _) (Forall_cons _ D Ds) x I)).
  rewrite (map_ext_in pk_read pk_index ps) in H.
  - rewrite (proj2 P) in H. exact H.
  - intros p I. destruct (proj1 (Forall_forall _ _) Ps p I) as [A B]. unfold pk_read, pk_index. f_equal. apply map_ext_in. intros c C. f_equal.
    exact (proj2 (proj1 (Forall_forall _ _) (Forall_cons _ A B) c C)).
Qed.
