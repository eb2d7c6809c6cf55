(** Names in back quotes. *)
From Coq Require Import Lia Permutation.
From Verif Require Import GoBase FactsBase ModelUtil ModelNum ModelFn ModelQuery ModelEbnf ModelGrammar ModelLex ModelVisitor
  SpecFn SpecQuery SpecParse SpecRound SpecQuoted ProofFn ProofLex ProofRound ProofRound2 ProofRound3 ProofRound4 ProofRound5 ProofRound6 ProofRound7 ProofRound8
  ProofRound11 ProofRound12 ProofRound13 ProofWhere ProofInsert.

Lemma free_doubled q b : chars (fun c => c <> q) b -> doubled q b.
Proof. induction b as [|c b IH]; intro C; [constructor|]. apply db_char; [apply C; left; reflexivity|apply IH; intros d D; apply C; right; exact D]. Qed.
Lemma written_any x n : written x n -> any_name x.
Proof. intros [y N|b C _ _]; [left; left; exact N|right; constructor; apply free_doubled, C]. Qed.
Lemma edge_cut c : c <> "`"%char -> ~ edge c -> smem c "'`()" = false.
Proof.
  intros B E. unfold smem. cbn [sexists]. unfold edge in E. cbn [In] in E.
  repeat match goal with |- context[Ascii.eqb c ?d] => destruct (Ascii.eqb_spec c d) as [->|]; [exfalso; tauto|] end. reflexivity.
Qed.
Lemma srev_cons_last s : s <> ""%string -> exists c r, srev s = String c r /\ s = (srev r ++ String c "")%string.
Proof.
  intro N. destruct (srev s) as [|c r] eqn:E.
  - apply (f_equal srev) in E. rewrite srev_involutive in E. contradiction.
  - exists c, r. split; [reflexivity|]. apply (f_equal srev) in E. rewrite srev_involutive in E. rewrite E.
    change (String c r) with (String c "" ++ r)%string. rewrite srev_append. reflexivity.
Qed.
Lemma written_name x n : written x n -> unescape_name_string x = n.
Proof.
  intros [y N|b C F L]; [apply unescape_name_word; exact (proj1 (name_solid y N))|].
  unfold unescape_name_string, trim. change (trim_left "'`()" ("`" ++ b ++ "`")) with (trim_left "'`()" (b ++ "`")).
  destruct b as [|c b]; [reflexivity|]. cbn [append].
  rewrite trim_left_head by (apply edge_cut; [apply C; left; reflexivity|exact (F c b eq_refl)]).
  change (String c (b ++ "`")) with (String c b ++ "`")%string. rewrite srev_append. change (srev "`") with "`"%string.
  change (trim_left "'`()" ("`" ++ srev (String c b))) with (trim_left "'`()" (srev (String c b))).
  destruct (srev_cons_last (String c b) ltac:(discriminate)) as (d & r & E & E'). rewrite E, trim_left_head.
  - rewrite <- E. apply srev_involutive.
  - apply edge_cut; [|exact (L d (srev r) E')]. apply C. rewrite E'. apply no_char_app. right. left. reflexivity.
Qed.
Lemma written_plain x n : written x n -> plain x.
Proof. intros W. apply any_is, (written_any x n W). Qed.

Lemma written_list xs ns : Forall2 written xs ns -> Forall plain xs /\ map unescape_name_string xs = ns.
Proof.
  intros F. induction F as [|x n xs ns W F [A B]]; [split; constructor|]. split; [constructor; [exact (written_plain x n W)|exact A]|].
  cbn [map]. rewrite (written_name x n W), B. reflexivity.
Qed.

(** ** The statements that take the quotes off *)

Lemma ok_inj {A} (a b : A) : Ok a = Ok b -> a = b.
Proof. congruence. Qed.
Lemma drop_table_written entries xs ns : Forall2 written xs ns -> xs <> [] ->
  parse entries ("DROP TABLE " ++ join ", " xs) = Ok [SDropTable (map new_table ns) false].
Proof.
  intros F N. destruct (written_list xs ns F) as [P <-]. destruct xs as [|x xs]; [contradiction|]. inversion P as [|? ? Px Ps]; subst.
  pose proof (reads_parse _ _ _ (drop_table_any entries x xs false Px Ps)) as H. rewrite map_map. rewrite <- H. f_equal.
  pose proof (drop_table_text x xs false) as E. unfold stmt_string in E. rewrite tables_string_names in E. apply ok_inj in E. rewrite <- E. unfold join_with_space, join_with_comma. cbn [join]. rewrite ?sapp_assoc. reflexivity.
Qed.
Lemma insert_written entries x n cols rows : written x n -> some any_name cols -> some (some literal_ok) rows ->
  parse entries ("INSERT INTO " ++ x ++ " (" ++ join ", " cols ++ ") VALUES "
                 ++ join ", " (map (fun r => "(" ++ join ", " (map literal_string r) ++ ")") rows))%string
  = Ok [SInsert (new_table n) (map (fun r => map (fun p => new_value_column (fst p) (snd p)) (combine cols r)) rows)].
Proof. intros W C R. rewrite (insert_parse entries x cols rows (written_any x n W) C R), (written_name x n W). reflexivity. Qed.
Lemma drop_index_written entries x n : written x n -> parse entries ("DROP INDEX " ++ x) = Ok [SDropIndex "" n false].
Proof.
  intros W. pose proof (reads_parse _ _ _ (drop_index_any entries x (written_plain x n W))) as H. rewrite (written_name x n W) in H. rewrite <- H.
  f_equal. rewrite glue_spaced. cbn [map]. rewrite glue_one. reflexivity.
Qed.
Lemma rename_written entries t x n : any_name t -> written x n ->
  parse entries ("ALTER TABLE " ++ t ++ " RENAME TO " ++ x) = Ok [SAlterTable (mkAlter (new_table t) (Some (new_table n)) None None None None None)].
Proof.
  intros T W. pose proof (reads_parse _ _ _ (alter_rename_any entries t x (any_is t T) (written_plain x n W))) as H. rewrite (written_name x n W) in H. unfold new_table at 1. rewrite <- H.
  f_equal. rewrite glue_spaced. cbn [map]. rewrite !glue_one. cbn [join append]. rewrite ?sapp_assoc. reflexivity.
Qed.
Lemma create_index_written entries i j t u cs ds : written i j -> written t u -> Forall2 written cs ds -> cs <> [] ->
  parse entries ("CREATE INDEX " ++ i ++ " ON " ++ t ++ "(" ++ join ", " cs ++ ")") = Ok [SCreateIndex (new_schema u [] [secondary_index j (map new_column ds)]) false].
Proof.
  intros I T F N. destruct (written_list cs ds F) as [P <-]. destruct cs as [|c cs]; [contradiction|]. inversion P as [|? ? Pc Ps]; subst.
  pose proof (reads_parse _ _ _ (create_index_any entries t i c cs false (written_plain t u T) (written_plain i j I) Pc Ps)) as H.
  rewrite map_map. rewrite (written_name i j I), (written_name t u T) in H. rewrite <- H. f_equal.
  unfold create_index_pieces. rewrite glue_spaced, !map_app. cbn [map app]. rewrite glue_target, !glue_one. cbn [join append]. rewrite ?sapp_assoc. reflexivity.
Qed.
Lemma reads_same entries ps ps' s : good ps' -> shown ps' = shown ps -> reads_as entries ps s -> reads_as entries ps' s.
Proof. intros G E (_ & H). split; [exact G|]. rewrite E. exact H. Qed.
Lemma create_table_written entries t u cols : Permutation entries data_type_strings -> written t u -> Forall col_written cols -> cols <> [] ->
  parse entries ("CREATE TABLE " ++ t ++ " (" ++ columns_text cols ++ ")") = Ok [SCreateTable (new_schema u (columns_of cols) []) false].
Proof.
  intros HP T F N.
  assert (D : Forall cdef_ok (map (fun c => mkCdef (ct_text c) (ct_type c) (-1)) cols)).
  { apply Forall_map. revert F. apply Forall_impl. intros c (W & K & Ty). split; [|split; [exact Ty|left; reflexivity]].
    split; [exact (written_plain _ _ W)|]. cbn [cd_name]. rewrite (written_name _ _ W).
    destruct (existsb _ _) eqn:E; [|reflexivity]. apply existsb_exists in E. destruct E as (w & I & E). apply String.eqb_eq in E. subst w. destruct (K I). }
  assert (E : map cdef_read (map (fun c => mkCdef (ct_text c) (ct_type c) (-1)) cols) = columns_of cols).
  { rewrite map_map. apply map_ext_in. intros c I. rewrite Forall_forall in F. destruct (F c I) as (W & _). unfold cdef_read. cbn [cd_name cd_type cd_len].
    rewrite (written_name _ _ W). reflexivity. }
  assert (X : map definition_string (map cdef_column (map (fun c => mkCdef (ct_text c) (ct_type c) (-1)) cols)) = map (fun c => ct_text c ++ " " ++ data_type_string (ct_type c))%string cols).
  { rewrite !map_map. apply map_ext. intros c. reflexivity. }
  destruct (map (fun c => mkCdef (ct_text c) (ct_type c) (-1)) cols) as [|d ds] eqn:M; [destruct cols; [contradiction|discriminate M]|].
  inversion D as [|? ? D1 D2]; subst.
  pose proof (written_plain t u T) as Pt.
  pose proof (create_table_any entries t d ds [] false HP Pt D1 D2 (Forall_nil _)) as H.
  apply (reads_same _ _ (spaced [kw ["CREATE"; "TABLE"]; [PWord t]; table_pieces d ds []])) in H;
    [|goods; apply good_table; [assumption..|constructor]|unfold create_table_pieces; rewrite !shown_spaced; reflexivity].
  apply reads_parse in H.
  rewrite E, (written_name t u T) in H. cbn [map] in H. rewrite <- H. f_equal.
  rewrite glue_spaced. cbn [map]. rewrite glue_table, glue_one. unfold columns_definition_string. rewrite X. unfold columns_text, join_with_comma.
  generalize (join ", " (map (fun c => ct_text c ++ " " ++ data_type_string (ct_type c))%string cols)). intro w.
  cbn. rewrite ?sapp_assoc. reflexivity.
Qed.
