(** CREATE TABLE as users write it: its text, its types and its keys. *)
From Coq Require Import Lia Permutation DecimalString.
From Verif Require Import GoBase ModelUtil ModelNum ModelFn ModelQuery ModelEbnf ModelGrammar ModelLex ModelVisitor
  SpecFn SpecQuery SpecParse SpecRound SpecSelect SpecTable FactsBase ProofFn ProofNum ProofQuery ProofParse ProofLex ProofRound ProofRound2 ProofRound3
  ProofRound5 ProofRound6 ProofRound7 ProofRound11 ProofRound12 ProofRound13 ProofSelect2 ProofTable ProofTable2.

(** ** Declarations in the terms of the parser *)

Definition ccon_of (c : column_constraint) : ccon :=
  match c with PrimaryKey b => KPrimary b | NotNull => KNotNull | Nullable => KNull | Unique => KUnique | Default l => KDefault (lit_of l) end.
Definition klen_of (s : size) : klen := match s with NoSize => NoLen | Length n => OneLen n | Precision n m => TwoLen n m end.
Definition kdef_of (c : column_decl) : kdef := mkKdef (cl_name c) (cl_type c) (klen_of (cl_size c)) (map ccon_of (cl_constraints c)).
Definition pk_of (l : list string) : pk := (hd ""%string l, tl l).
Definition tcon_of (k : key) : tcon := match k with PrimaryOver l => (true, pk_of l) | UniqueOver l => (false, pk_of l) end.

Lemma upper_word s u : to_upper s = u -> is_word u = true -> is_word s = true.
Proof.
  destruct s as [|c s]; intros <- H; [discriminate|]. cbn [to_upper smap is_word] in *. rewrite ident_start_upper in H. apply andb_prop in H. destruct H as [A B].
  rewrite A. cbn [andb]. clear A. unfold all_chars in *. revert B. induction s as [|d s IH]; [reflexivity|].
  cbn [smap list_ascii_of_string forallb]. rewrite ident_char_upper. intro B. apply andb_prop in B. destruct B as [B C]. rewrite B. exact (IH C).
Qed.
Lemma type_name_ok w : type_name w -> type_ok w.
Proof.
  intros [N|L]; [destruct (name_solid w N) as [W K]; split; [exact W|rewrite K; left; reflexivity]|].
  cbn [In] in L. destruct L as [L|[L|[]]]; (split; [apply (upper_word w _ (eq_sym L)); vm_compute; reflexivity|]);
    unfold kind_of_word; rewrite <- L; vm_compute; tauto.
Qed.
Lemma ccon_of_fine c : constraint_ok c -> ccon_fine (ccon_of c).
Proof.
  destruct c as [| | | |l]; intro H; try exact I. destruct (literal_pieces l H) as (G & _ & S). split; [apply literal_lit, H|]. split; assumption.
Qed.
Lemma kdef_of_fine c : decl_ok c -> kdef_fine (kdef_of c).
Proof.
  intros (N & T & C). split; [apply bare_column_word, bare_is, N|]. split; [apply type_name_ok, T|]. apply Forall_map. revert C. apply Forall_impl. exact ccon_of_fine.
Qed.
Lemma tcon_of_ok k : some bare_name (key_columns k) -> tcon_ok (tcon_of k).
Proof.
  intro H. destruct (bares_some _ H) as (c & cs & E & B & Bs).
  destruct k as [l|l]; cbn [key_columns] in E; subst l; (split; [apply bare_plain, B|apply bares_plain, Bs]).
Qed.

(** ** The text *)

Lemma glue_ccon c : constraint_ok c -> glue (ccon_pieces (ccon_of c)) = constraint_text c.
Proof.
  destruct c as [[]| | | |l]; intro H; try reflexivity. cbn [ccon_of ccon_pieces constraint_text]. rewrite glue_spaced. cbn [map].
  destruct (literal_pieces l H) as (_ & -> & _). rewrite (literal_as l H). reflexivity.
Qed.
Lemma glue_klen s : glue (klen_pieces (klen_of s)) = size_text s.
Proof. destruct s as [|n|n m]; [reflexivity|cbn [klen_of klen_pieces size_text app]; rewrite !glue_cons'; reflexivity|].
  cbn [klen_of klen_pieces size_text app listed flat_map]. rewrite !glue_cons'. cbn [ptext glue fold_right append]. rewrite ?sapp_assoc. reflexivity. Qed.
Lemma glue_kdef c : decl_ok c -> glue (kdef_pieces (kdef_of c)) = decl_text c.
Proof.
  intros (_ & _ & C). unfold kdef_pieces. rewrite glue_spaced. cbn [map kdef_of kd_name kd_word kd_len kd_cons]. rewrite glue_app, glue_klen, !glue_one. cbn [ptext].
  rewrite join_led. unfold decl_text. f_equal. change (led (?a :: ?l)) with (" " ++ a ++ led l)%string. rewrite !sapp_assoc. do 3 f_equal.
  induction C as [|k ks K _ IH]; [reflexivity|]. cbn [map fold_right]. rewrite (glue_ccon k K). rewrite <- IH. reflexivity.
Qed.
Lemma glue_tcon k : some bare_name (key_columns k) -> glue (tcon_pieces (tcon_of k)) = key_text k.
Proof.
  intros [N _]. destruct k as [[|c l]|[|c l]]; try (destruct (N eq_refl)); unfold tcon_pieces; rewrite glue_spaced; cbn [map tcon_of pk_of fst snd hd tl];
    rewrite glue_par_names; reflexivity.
Qed.
Lemma join_app_more a x xs : join ", " ((x :: xs) ++ a) = (join ", " (x :: xs) ++ match a with [] => "" | _ => ", " ++ join ", " a end)%string.
Proof.
  revert x. induction xs as [|y xs IH]; intro x.
  - cbn [app]. destruct a as [|b a]; [cbn; rewrite append_nil_r; reflexivity|reflexivity].
  - cbn [app]. rewrite !join_cons. specialize (IH y). cbn [app] in IH. rewrite IH, !sapp_assoc. reflexivity.
Qed.
Lemma glue_kdefs ds : Forall decl_ok ds -> map (fun x => glue (kdef_pieces x)) (map kdef_of ds) = map decl_text ds.
Proof. intro F. rewrite map_map. induction F as [|d ds D _ IH]; [reflexivity|]. cbn [map]. rewrite IH, (glue_kdef d D). reflexivity. Qed.
Lemma glue_tcons ks : Forall (fun k => some bare_name (key_columns k)) ks -> map (fun x => glue (tcon_pieces x)) (map tcon_of ks) = map key_text ks.
Proof. intro F. rewrite map_map. induction F as [|d ds D _ IH]; [reflexivity|]. cbn [map]. rewrite IH, (glue_tcon d D). reflexivity. Qed.
Lemma glue_table n b d ds ks : Forall decl_ok (d :: ds) -> Forall (fun k => some bare_name (key_columns k)) ks ->
  glue (ktable_stmt_pieces n (kdef_of d) (map kdef_of ds) (map tcon_of ks) b) = table_text (mkTable n b (d :: ds) ks).
Proof.
  intros D K. unfold ktable_stmt_pieces, table_text. cbn [tb_name tb_if_not_exists tb_columns tb_keys]. rewrite glue_spaced.
  assert (E : glue (ktable_pieces (kdef_of d) (map kdef_of ds) (map tcon_of ks)) = ("(" ++ join ", " (map decl_text (d :: ds) ++ map key_text ks) ++ ")")%string).
  { unfold ktable_pieces. rewrite glue_cons', glue_app, app_assoc, glue_app, glue_listed, glue_more. unfold join_with_comma.
    change (kdef_of d :: map kdef_of ds) with (map kdef_of (d :: ds)). rewrite (glue_kdefs _ D), (glue_tcons _ K). cbn [map]. rewrite join_app_more.
    destruct ks; reflexivity. }
  destruct b; cbn [app map]; rewrite E; unfold join; cbn [fold_left join]; rewrite ?glue_one; reflexivity.
Qed.

(** ** The types *)

Lemma digits_text_no_comma a b : NilEmpty.uint_of_string (a ++ String "," b) = None.
Proof. induction a as [|c a IH]; cbn [append NilEmpty.uint_of_string]; [destruct (NilEmpty.uint_of_string b); reflexivity|]. rewrite IH. reflexivity. Qed.
Lemma atoi_comma n m : atoi (show_N n ++ ", " ++ show_N m) = None.
Proof.
  assert (R : read_digits (show_N n ++ ", " ++ show_N m) = None).
  { assert (Z : NilZero.uint_of_string (show_N n ++ ", " ++ show_N m) = None); [|unfold read_digits; rewrite Z; reflexivity].
    destruct (digits_head _ (show_N_digits n)) as (c & r & E & _). rewrite E.
    exact (digits_text_no_comma (String c r) (" " ++ show_N m)). }
  destruct (digits_head _ (show_N_digits n)) as (c & r & E & Hc). rewrite E in *. cbn [append] in *. unfold atoi.
  assert (N1 : c <> "+"%char) by (intros ->; unfold is_digit in Hc; vm_compute in Hc; destruct Hc; congruence).
  assert (N2 : c <> "-"%char) by (intros ->; unfold is_digit in Hc; vm_compute in Hc; destruct Hc; congruence).
  rewrite R. clear - N1 N2. destruct c as [[] [] [] [] [] [] [] []]; try reflexivity; congruence.
Qed.
Lemma atoi_N n : atoi (show_N n) = if (n <? 2 ^ 63)%N then Some (Z.of_N n) else None.
Proof.
  rewrite atoi_digits by apply show_N_digits. rewrite read_digits_show. unfold is_int64.
  destruct (N.ltb_spec n (2 ^ 63)) as [L|L].
  - replace ((- 2 ^ 63 <=? Z.of_N n) && (Z.of_N n <? 2 ^ 63))%Z with true; [reflexivity|]. symmetry. apply andb_true_intro. split; lia.
  - replace (Z.of_N n <? 2 ^ 63)%Z with false by lia. rewrite andb_false_r. reflexivity.
Qed.
Lemma declared_def entries w t l : Permutation entries data_type_strings -> declares w t -> data_def_from entries w l = Ok (new_data_def t l).
Proof. intros HP (n & N & S). unfold data_def_from. rewrite (proj1 (data_type_parse entries w HP) t n N S). reflexivity. Qed.
Lemma undeclared_def entries w l : Permutation entries data_type_strings -> (forall t, ~ declares w t) -> data_def_from entries w l = Err ErrInvalid.
Proof.
  intros HP U. unfold data_def_from. rewrite (proj2 (data_type_parse entries w HP)); [reflexivity|]. intros t n N S. apply (U t). exists n. auto.
Qed.
Lemma length_strings entries w x : data_def_from_strings entries [w; "("; x; ")"]%string = match atoi x with Some v => data_def_from entries w v | None => Err ErrInvalid end.
Proof. reflexivity. Qed.
Lemma kdef_declared entries c : Permutation entries data_type_strings -> decl_ok c -> fits c -> as_declared c (kdef_column entries (kdef_of c)).
Proof.
  intros HP (N & _) [(t & T) F]. unfold kdef_column, kdef_def. cbn [kdef_of kd_name kd_word kd_len]. rewrite (proj2 (bare_is _ N)).
  destruct (cl_size c) as [|n|n m] eqn:S; [| |contradiction]; cbn [klen_of klen_words].
  - change (data_def_from_strings entries [cl_type c]) with (data_def_from entries (cl_type c) (-1)). rewrite (declared_def entries _ t (-1) HP T). apply ad_plain; assumption.
  - rewrite length_strings, atoi_N. apply N.ltb_lt in F. rewrite F, (declared_def entries _ t _ HP T). apply ad_length; assumption.
Qed.
Lemma kdef_unfit entries c : Permutation entries data_type_strings -> decl_ok c -> ~ fits c -> kdef_column entries (kdef_of c) = new_def_column (cl_name c) unknown_data_def.
Proof.
  intros HP (N & _) F. unfold kdef_column, kdef_def. cbn [kdef_of kd_name kd_word kd_len]. rewrite (proj2 (bare_is _ N)). f_equal. unfold fits in F.
  destruct (cl_size c) as [|n|n m]; cbn [klen_of klen_words].
  - change (data_def_from_strings entries [cl_type c]) with (data_def_from entries (cl_type c) (-1)).
    rewrite undeclared_def; [reflexivity|exact HP|]. intros t T. apply F. split; [exists t; exact T|exact I].
  - rewrite length_strings, atoi_N. destruct (N.ltb_spec n (2 ^ 63)) as [L|L]; [|reflexivity].
    rewrite undeclared_def; [reflexivity|exact HP|]. intros t T. apply F. split; [exists t; exact T|exact L].
  - rewrite length_strings, atoi_comma. reflexivity.
Qed.

(** ** The statement *)

Definition table_schema entries (t : table_decl) : schema :=
  new_schema (tb_name t) (map (fun c => kdef_column entries (kdef_of c)) (tb_columns t))
    (flat_map (fun c => kdef_keys entries (kdef_of c)) (tb_columns t) ++ flat_map (fun k => tcon_read (tcon_of k)) (tb_keys t)).
Lemma table_reads entries t : Permutation entries data_type_strings -> table_decl_ok t ->
  parse entries (table_text t) = Ok [SCreateTable (table_schema entries t) (tb_if_not_exists t)].
Proof.
  intros HP [N [C F] K]. destruct t as [n b [|d ds] ks]; cbn [tb_name tb_if_not_exists tb_columns tb_keys] in *; [destruct (C eq_refl)|].
  rewrite <- (glue_table n b d ds ks F K). inversion F as [|? ? D Ds]; subst.
  rewrite (reads_parse entries _ _ (create_ktable entries n (kdef_of d) (map kdef_of ds) (map tcon_of ks) b HP (bare_plain _ (bare_is _ N)) (kdef_of_fine d D)
    (proj2 (Forall_map _ _ _) (Forall_impl _ kdef_of_fine Ds)) (proj2 (Forall_map _ _ _) (Forall_impl _ tcon_of_ok K)))).
  rewrite (proj2 (bare_is _ N)). unfold table_schema. cbn [tb_name tb_columns tb_keys]. cbn [map flat_map]. rewrite map_map.
  rewrite !flat_map_concat_map, !map_map. reflexivity.
Qed.
Lemma column_keys_read entries c : decl_ok c -> Forall2 is_primary_over (column_keys c) (kdef_keys entries (kdef_of c)).
Proof.
  intros (N & _). unfold column_keys, kdef_keys. remember (kdef_column entries (kdef_of c)) as col eqn:Ec.
  assert (E : c_name col = cl_name c) by (subst col; exact (proj2 (bare_is _ N))). clear Ec. cbn [kdef_of kd_cons].
  induction (cl_constraints c) as [|k ks IH]; [constructor|]. destruct k; cbn [map flat_map filter ccon_of is_primary app]; try exact IH.
  constructor; [|exact IH]. split; [reflexivity|]. cbn [primary_index i_columns map]. rewrite E. reflexivity.
Qed.
Lemma keys_app (a b : list (list string)) c d : Forall2 is_primary_over a c -> Forall2 is_primary_over b d -> Forall2 is_primary_over (a ++ b) (c ++ d).
Proof. apply Forall2_app. Qed.
Lemma bare_names_same l : Forall bare l -> map unescape_name_string l = l.
Proof. intro F. induction F as [|x l B _ IH]; [reflexivity|]. cbn [map]. rewrite IH, (proj2 B). reflexivity. Qed.
Lemma table_keys_read entries t : table_decl_ok t -> Forall2 is_primary_over (table_keys t) (s_indexes (table_schema entries t)).
Proof.
  intros [_ [_ C] K]. unfold table_keys, table_schema. cbn [s_indexes new_schema]. apply keys_app.
  - induction C as [|c cs D _ IH]; [constructor|]. cbn [flat_map]. apply keys_app; [apply column_keys_read; exact D|exact IH].
  - induction K as [|k ks D _ IH]; [constructor|]. cbn [flat_map]. destruct (bares_some _ D) as (x & xs & E & B & Bs).
    destruct k as [l|l]; cbn [key_columns] in E; subst l; cbn [app tcon_of tcon_read fst snd]; [|exact IH]. constructor; [|exact IH].
    split; [reflexivity|]. unfold pk_read. cbn [primary_index i_columns pk_of fst snd hd tl]. rewrite map_map. cbn [c_name new_def_column].
    exact (bare_names_same (x :: xs) (Forall_cons _ B Bs)).
Qed.
(** ** What is dropped *)

Lemma only_keys_ok t : table_decl_ok t -> table_decl_ok (only_keys t).
Proof.
  intros [N [C F] K]. split; cbn [only_keys tb_name tb_columns tb_keys]; [exact N|split|].
  - destruct (tb_columns t); [destruct (C eq_refl)|discriminate].
  - apply Forall_map. revert F. apply Forall_impl. intros c (A & B & _). split; [exact A|]. split; [exact B|]. cbn [cl_constraints].
    induction (cl_constraints c) as [|[] ks IH]; cbn [flat_map app]; try exact IH; constructor; [exact I|exact IH].
  - induction K as [|k ks D _ IH]; [constructor|]. cbn [flat_map]. destruct k; cbn [app]; [constructor; [exact D|exact IH]|exact IH].
Qed.
Lemma only_keys_schema entries t : table_schema entries (only_keys t) = table_schema entries t.
Proof.
  unfold table_schema, only_keys. cbn [tb_name tb_columns tb_keys]. f_equal; [rewrite map_map; reflexivity|]. f_equal.
  - rewrite flat_map_concat_map, map_map, <- flat_map_concat_map. apply flat_map_ext. intro c. unfold kdef_keys.
    change (kdef_column entries (kdef_of (mkDecl (cl_name c) (cl_type c) (cl_size c) ?l))) with (kdef_column entries (kdef_of c)).
    cbn [kdef_of kd_cons cl_constraints]. induction (cl_constraints c) as [|[] ks IH]; [reflexivity|..]; cbn [flat_map map filter ccon_of is_primary app]; try exact IH.
    exact (f_equal (cons _) IH).
  - induction (tb_keys t) as [|[l|l] ks IH]; [reflexivity| |exact IH]. cbn [flat_map app]. rewrite IH. reflexivity.
Qed.
