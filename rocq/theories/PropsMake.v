(** Properties C77, C78 and C79: columns, literals and statements made from options. *)
From Verif Require Import GoBase FactsBase ModelUtil ModelNum ModelAggr ModelFn ModelResultSet ModelQuery ModelEbnf ModelGrammar ModelLex ModelVisitor ModelSystem ModelFunc
  ModelMake SpecFunc SpecMake ProofFunc.

(** A literal has the value and the type set last; a column has the name, definition, literal, function and arguments of the last
    option of each kind. *)
Theorem C77_options : forall v steps opts, let l := new_literal v steps in let c := make_column opts in
  is_last set_value steps v (l_value l) /\ is_last set_type steps UnknownLiteral (l_type l)
  /\ is_last col_name opts "" (c_name c) /\ is_last col_def opts None (c_def c) /\ is_last col_lit opts None (c_lit c)
  /\ is_last col_fn opts None (c_fn c) /\ is_last col_args opts [] (c_args c).
Proof.
  intros v steps opts. cbv zeta. unfold new_literal, make_column. set (l0 := mkLit v UnknownLiteral). set (c0 := mkCol "" None None None []).
  split; [exact (is_last_fold lit_apply l_value set_value ltac:(intros c []; reflexivity) steps l0)|].
  split; [exact (is_last_fold lit_apply l_type set_type ltac:(intros c []; reflexivity) steps l0)|].
  split; [exact (is_last_fold colopt_apply c_name col_name ltac:(intros c []; reflexivity) opts c0)|].
  split; [exact (is_last_fold colopt_apply c_def col_def ltac:(intros c []; reflexivity) opts c0)|].
  split; [exact (is_last_fold colopt_apply c_lit col_lit ltac:(intros c []; reflexivity) opts c0)|].
  split; [exact (is_last_fold colopt_apply c_fn col_fn ltac:(intros c []; reflexivity) opts c0)|].
  exact (is_last_fold colopt_apply c_args col_args ltac:(intros c []; reflexivity) opts c0).
Qed.
Print Assumptions C77_options.
(** A column has a value iff it has a literal, and then answers with its value, type and text; it equals a value iff it holds one that
    is not NULL and equal to it. *)
Theorem C77_answers_partial : forall same c,
  (col_has_value c = true <-> c_lit c <> None) /\
  (forall l, c_lit c = Some l -> col_value c = Ok (l_value l) /\ col_value_type c = Ok (l_type l) /\ col_value_string c = literal_string l) /\
  (forall v, col_equal same c v = true <-> exists l, c_lit c = Some l /\ l_value l <> VNil /\ same (l_value l) v = true).
Proof.
  intros same c. unfold col_has_value, col_value, col_value_type, col_value_string, col_equal, lit_equal. destruct (c_lit c) as [l|].
  - split; [split; [discriminate|reflexivity]|]. split; [intros l' [= <-]; repeat split|]. intro v. destruct (l_value l) as [| | | | |] eqn:E.
    all: split; [intro H|intros (l' & [= <-] & N & H)]; try discriminate H; try (rewrite E in H; exact H); try (rewrite E in N; destruct (N eq_refl)).
    all: exists l; rewrite E; split; [reflexivity|]; split; [discriminate|exact H].
  - split; [split; [discriminate|intros []; reflexivity]|]. split; [discriminate|]. intro v. split; [discriminate|]. intros (l & [=] & _).
Qed.
Print Assumptions C77_answers_partial.
(** A list of columns, or of selectors, is an asterisk iff it is empty or just a column named by it. *)
Theorem C77_lists : forall cs sels,
  (columns_is_asterisk cs = true <-> cs = [] \/ exists c, cs = [c] /\ c_name c = "*"%string) /\
  (selectors_is_asterisk sels = true <-> sels = [] \/ exists s, sels = [s] /\ sel_name s = "*"%string).
Proof.
  intros cs sels. split.
  - destruct cs as [|c [|d cs]]; cbn [columns_is_asterisk]; split; intro H; try discriminate H; try tauto.
    + right. exists c. apply String.eqb_eq in H. tauto.
    + destruct H as [H|(c' & [= <-] & H)]; [discriminate H|]. apply String.eqb_eq. exact H.
    + destruct H as [H|(c' & H & _)]; discriminate H.
  - clear cs. destruct sels as [|c [|d cs]]; cbn [selectors_is_asterisk]; split; intro H; try discriminate H; try tauto.
    + right. exists c. apply String.eqb_eq in H. tauto.
    + destruct H as [H|(c' & [= <-] & H)]; [discriminate H|]. apply String.eqb_eq. exact H.
    + destruct H as [H|(c' & H & _)]; discriminate H.
Qed.
Print Assumptions C77_lists.
(** The value and the type of a column without literal cannot be asked for, and no column of that kind is an asterisk, the column named
    by it included; one that holds the text of an asterisk is, whatever its name. *)
Theorem C77_no_literal_refuted : forall c, c_lit c = None -> col_value c = Panic /\ col_value_type c = Panic.
Proof. intros c E. unfold col_value, col_value_type. rewrite E. split; reflexivity. Qed.
Print Assumptions C77_no_literal_refuted.
Theorem C77_asterisk_refuted : forall same : value -> value -> bool, (forall a b, same (VStr a) (VStr b) = String.eqb a b) ->
  (forall c, c_lit c = None -> col_is_asterisk same c = false) /\
  (forall c t, c_lit c = Some (mkLit (VStr "*") t) -> col_is_asterisk same c = true) /\
  (exists s, parse data_type_strings "SELECT * FROM t" = Ok [SSelect s] /\ exists c, sel_selectors s = [SelCol c] /\
     c_name c = "*"%string /\ selectors_is_asterisk [SelCol c] = true /\ col_is_asterisk same c = false) /\
  (exists c, parse data_type_strings "INSERT INTO t (a) VALUES ('*')" = Ok [SInsert (new_table "t") [[c]]] /\
     c_name c = "a"%string /\ col_is_asterisk same c = true).
Proof.
  intros same S. split; [|split; [|split]].
  - intros c E. unfold col_is_asterisk. rewrite E. reflexivity.
  - intros c t E. unfold col_is_asterisk, lit_is_asterisk, lit_equal. rewrite E. cbn [l_value]. rewrite S. reflexivity.
  - exists (new_select [SelCol (new_column "*")] [new_table "t"] None). split; [vm_compute; reflexivity|]. exists (new_column "*"). repeat split.
  - exists (new_value_column "a" (mkLit (VStr "*") StringLiteral)). split; [vm_compute; reflexivity|]. split; [reflexivity|].
    unfold col_is_asterisk, lit_is_asterisk, lit_equal. cbn [new_value_column c_lit l_value]. rewrite S. reflexivity.
Qed.
Print Assumptions C77_asterisk_refuted.
(** A string of a question mark is taken for a place holder. *)
Theorem C77_place_holder_refuted : forall same : value -> value -> bool, (forall a b, same (VStr a) (VStr b) = String.eqb a b) ->
  exists c, parse data_type_strings "INSERT INTO t (a) VALUES ('?')" = Ok [SInsert (new_table "t") [[c]]] /\ col_is_place_holder same c = true.
Proof.
  intros same S. exists (new_value_column "a" (mkLit (VStr "?") StringLiteral)). split; [vm_compute; reflexivity|].
  unfold col_is_place_holder, lit_is_place_holder, lit_equal. cbn [new_value_column c_lit l_value]. rewrite S. reflexivity.
Qed.
Print Assumptions C77_place_holder_refuted.
Example C77_example :
  make_column [CoName "a"; CoExecutor ABS ["a"]; CoName "b"; CoLiteral (Some (new_literal VNil [SetType StringLiteral; SetValue (VInt 5)]))]
  = mkCol "b" None (Some (mkLit (VInt 5) StringLiteral)) (Some (mkFunc MathFunction "ABS" (Some (ABS, ["a"])) None [])) [].
Proof. reflexivity. Qed.

(** ** C78 *)

Theorem C78_select : forall sels tbls w opts, let s := make_select sels tbls w opts in
  sel_selectors s = sels /\ sel_tables s = tbls /\ sel_where s = w
  /\ is_last sel_orders opts [] (sel_order_by s) /\ is_last sel_window opts (mkLimit 0 0) (sel_limit s) /\ is_last sel_group opts "" (sel_group_by s).
Proof.
  intros sels tbls w opts. cbv zeta. unfold make_select. set (s0 := new_select sels tbls w).
  assert (K : forall s, sel_selectors (fold_left selopt_apply opts s) = sel_selectors s /\ sel_tables (fold_left selopt_apply opts s) = sel_tables s
    /\ sel_where (fold_left selopt_apply opts s) = sel_where s).
  { induction opts as [|o opts IH]; intro s; [tauto|]. cbn [fold_left]. destruct (IH (selopt_apply s o)) as (-> & -> & ->). destruct o; cbn; tauto. }
  destruct (K s0) as (-> & -> & ->). split; [reflexivity|]. split; [reflexivity|]. split; [reflexivity|].
  split; [exact (is_last_fold selopt_apply sel_order_by sel_orders ltac:(intros c []; reflexivity) opts s0)|].
  split; [exact (is_last_fold selopt_apply sel_limit sel_window ltac:(intros c []; reflexivity) opts s0)|].
  exact (is_last_fold selopt_apply sel_group_by sel_group ltac:(intros c []; reflexivity) opts s0).
Qed.
Print Assumptions C78_select.
Theorem C78_alter_partial : forall name opts, let a := make_alter name opts in
  t_name (al_table a) = name /\ is_last alt_schema opts "" (t_schema (al_table a))
  /\ is_last alt_rename_to opts None (al_rename_to a) /\ is_last alt_rename_column opts None (al_rename_column a)
  /\ is_last alt_add_column opts None (al_add_column a) /\ is_last alt_add_index opts None (al_add_index a)
  /\ is_last alt_drop_column opts None (al_drop_column a) /\ is_last alt_drop_index opts None (al_drop_index a).
Proof.
  intros name opts. cbv zeta. unfold make_alter. set (p0 := mkParts "" None None None None None None None). cbn [al_table al_rename_to al_rename_column al_add_column al_add_index al_drop_column al_drop_index].
  set (p := fold_left altopt_apply opts p0).
  split; [destruct (0 <? _); reflexivity|].
  split.
  { replace (t_schema (if 0 <? String.length (ap_schema p) then mkTbl (ap_schema p) name else new_table name)) with (ap_schema p) by (destruct (ap_schema p); reflexivity).
    exact (is_last_fold altopt_apply ap_schema alt_schema ltac:(intros c []; reflexivity) opts p0). }
  split; [exact (is_last_fold altopt_apply ap_rename_to alt_rename_to ltac:(intros c []; reflexivity) opts p0)|].
  split; [exact (is_last_fold altopt_apply (fun p => match ap_from p, ap_to p with Some f, Some t => Some (f, t) | _, _ => None end) alt_rename_column
    ltac:(intros c [| |[f|] [t|]| | | |]; reflexivity) opts p0)|].
  split; [exact (is_last_fold altopt_apply ap_add_column alt_add_column ltac:(intros c []; reflexivity) opts p0)|].
  split; [exact (is_last_fold altopt_apply ap_add_index alt_add_index ltac:(intros c []; reflexivity) opts p0)|].
  split; [exact (is_last_fold altopt_apply ap_drop_column alt_drop_column ltac:(intros c []; reflexivity) opts p0)|].
  exact (is_last_fold altopt_apply ap_drop_index alt_drop_index ltac:(intros c []; reflexivity) opts p0).
Qed.
Print Assumptions C78_alter_partial.
Theorem C78_copy : forall name src opts, exists cols fmt, make_copy name src opts = SCopy (new_table name) cols src fmt
  /\ is_last copy_columns_of opts [] cols /\ is_last copy_format_of opts CopyText fmt.
Proof.
  intros name src opts. unfold make_copy. eexists _, _. split; [reflexivity|]. split.
  - exact (is_last_fold copyopt_apply fst copy_columns_of ltac:(intros c []; reflexivity) opts ([], CopyText)).
  - refine (is_last_fold copyopt_apply snd copy_format_of _ opts ([], CopyText)).
    intros c [l|s]; [reflexivity|]. cbn [copyopt_apply snd copy_format_of find copy_format_string]. unfold set_copy_format.
    destruct (String.eqb (to_upper s) "TEXT"); [reflexivity|]. destruct (String.eqb (to_upper s) "CSV"); [reflexivity|]. destruct (String.eqb (to_upper s) "BINARY"); reflexivity.
Qed.
Print Assumptions C78_copy.
(** An index to drop is not in the text of the statement, which is the same whichever it is, or without one. *)
Theorem C78_drop_index_refuted : forall name opts i, alter_string (make_alter name (opts ++ [AoDropIndex i])) = alter_string (make_alter name opts).
Proof. intros name opts i. unfold make_alter. rewrite fold_left_app. reflexivity. Qed.
Print Assumptions C78_drop_index_refuted.
(** Nor can one ask for the text if the column to add has no definition. *)
Theorem C78_no_definition_refuted : forall name opts c, c_def c = None -> alter_string (make_alter name (opts ++ [AoAddColumn (Some c)])) = Panic.
Proof. intros name opts c E. unfold make_alter. rewrite fold_left_app. cbn [fold_left altopt_apply ap_add_column]. unfold alter_string. cbn [al_add_column]. rewrite E. reflexivity. Qed.
Print Assumptions C78_no_definition_refuted.
Example C78_example :
  make_select [SelCol (new_column "a")] [new_table "t"] None [SoLimit 1 2; SoGroupBy "a"; SoLimit 3 4] = mkSelect [new_table "t"] [SelCol (new_column "a")] None [] (mkLimit 3 4) "a"
  /\ make_copy "t" "STDIN" [CpFormat "csv"; CpFormat "xml"] = SCopy (new_table "t") [] "STDIN" CopyCSV
  /\ alter_string (make_alter "t" [AoDropColumn (Some (new_column "a")); AoSchema "s"; AoRenameTo (Some (new_table "u"))]) = Ok "ALTER TABLE s.t RENAME TO u DROP a"%string.
Proof. repeat split. Qed.

(** ** C79 *)

Section Info.
Context {V : Type} (to_str : V -> option string) (to_type : V -> result dtype).
Notation make_info := (make_info to_str to_type).
Lemma info_err opts e : fold_left (fun r o => rbind r (fun c => infoopt_apply to_str to_type c o)) opts (Err e) = Err e.
Proof. induction opts as [|o opts IH]; [reflexivity|exact IH]. Qed.
Lemma info_panic opts : fold_left (fun r o => rbind r (fun c => infoopt_apply to_str to_type c o)) opts Panic = Panic.
Proof. induction opts as [|o opts IH]; [reflexivity|exact IH]. Qed.
Lemma info_last {X} (get : info_column -> X) (pick : infoopt V -> option X) :
  (forall c o c', infoopt_apply to_str to_type c o = Ok c' -> get c' = match pick o with Some x => x | None => get c end) ->
  forall opts c c', fold_left (fun r o => rbind r (fun c => infoopt_apply to_str to_type c o)) opts (Ok c) = Ok c' -> is_last pick opts (get c) (get c').
Proof.
  intros H opts. induction opts as [|o opts IH]; intros c c' E; [injection E as <-; right; split; [constructor|reflexivity]|].
  cbn [fold_left rbind] in E. destruct (infoopt_apply to_str to_type c o) as [d|e|] eqn:A; [|rewrite info_err in E; discriminate E|rewrite info_panic in E; discriminate E].
  destruct (IH d c' E) as [(b & p & a & E' & P & F)|[F E']].
  - left. exists (o :: b), p, a. rewrite E' at 1. split; [reflexivity|]. split; assumption.
  - rewrite E', (H _ _ _ A). destruct (pick o) as [x|] eqn:P.
    + left. exists [], o, opts. split; [reflexivity|]. split; [exact P|exact F].
    + right. split; [constructor; [exact P|exact F]|reflexivity].
Qed.

(** Catalog, schema, table, name and type are those of the last option of each kind ... *)
Theorem C79_options_partial : forall opts c, make_info opts = Ok c ->
  is_last (info_catalog to_str) opts "" (in_catalog c) /\ is_last (info_schema to_str) opts "" (in_schema c)
  /\ is_last (info_table to_str) opts "" (in_table c) /\ is_last (info_name to_str) opts "" (in_name c)
  /\ is_last (info_type to_type) opts UnknownData (in_type c).
Proof.
  intros opts c E. unfold ModelMake.make_info in E. set (c0 := mkInfo "" "" "" "" UnknownData 0%N) in E.
  assert (S : forall (pick : infoopt V -> option string) get, (forall c o c', infoopt_apply to_str to_type c o = Ok c' -> get c' = match pick o with Some x => x | None => get c end) ->
    get c0 = ""%string -> is_last pick opts "" (get c)).
  { intros pick get H Z. rewrite <- Z. exact (info_last get pick H opts c0 c E). }
  split; [|split; [|split; [|split]]]; try apply S; try reflexivity.
  1-4: intros d o d' A; destruct o; cbn [infoopt_apply info_catalog info_schema info_table info_name] in *; unfold info_str in A;
    try (destruct (to_str v); [injection A as <-; reflexivity|discriminate A]); try (destruct (to_type v); [injection A as <-; reflexivity|discriminate A|discriminate A]); injection A as <-; reflexivity.
  refine (info_last in_type (info_type to_type) _ opts c0 c E). intros d o d' A. destruct o; cbn [infoopt_apply info_type] in *; unfold info_str in A;
    try (destruct (to_str v); [injection A as <-; reflexivity|discriminate A]); try (destruct (to_type v); [injection A as <-; reflexivity|discriminate A|discriminate A]); injection A as <-; reflexivity.
Qed.
(** ... and making the column fails iff some option fails, with the error of the first. *)
Theorem C79_fails : forall opts e, (forall v, to_type v <> Panic) ->
  (make_info opts = Err e <-> exists before o after, opts = before ++ o :: after /\ info_fails to_str to_type o e /\
     forall p e', In p before -> ~ info_fails to_str to_type p e').
Proof.
  intros opts e NP. unfold ModelMake.make_info. generalize (mkInfo "" "" "" "" UnknownData 0%N) as c.
  assert (A : forall c o, (exists c', infoopt_apply to_str to_type c o = Ok c' /\ forall e', ~ info_fails to_str to_type o e')
    \/ (exists e', infoopt_apply to_str to_type c o = Err e' /\ info_fails to_str to_type o e' /\ forall e'', info_fails to_str to_type o e'' -> e'' = e')).
  { intros c [v|v|v|v|v|v]; cbn [infoopt_apply]; unfold info_str;
      try (destruct (to_str v) eqn:T; [left; eexists; split; [reflexivity|]; intros e' F; inversion F; congruence
                                      |right; eexists; split; [reflexivity|]; split; [constructor; exact T|]; intros e' F; inversion F; congruence]).
    - destruct (to_type v) as [t|e'|] eqn:T; [|  |destruct (NP v T)].
      + left. eexists. split; [reflexivity|]. intros e' F. inversion F. congruence.
      + right. exists e'. split; [reflexivity|]. split; [constructor; exact T|]. intros e'' F. inversion F. congruence.
    - left. eexists. split; [reflexivity|]. intros e' F. inversion F. }
  induction opts as [|o opts IH]; intro c; cbn [fold_left rbind].
  - split; [discriminate|]. intros ([|? ?] & o & a & [=] & _).
  - destruct (A c o) as [(c' & -> & N)|(e' & -> & F & U)].
    + rewrite IH. split.
      * intros (b & p & a & -> & F & B). exists (o :: b), p, a. split; [reflexivity|]. split; [exact F|]. intros q e' [<-|I]; [apply N|exact (B q e' I)].
      * intros ([|q b] & p & a & E & F & B); injection E as E1 E2; subst.
        -- destruct (N _ F).
        -- exists b, p, a. split; [reflexivity|]. split; [exact F|]. intros r e' I. apply B. right. exact I.
    + rewrite info_err. split.
      * intros [= ->]. exists [], o, opts. split; [reflexivity|]. split; [exact F|]. intros p e' [].
      * intros ([|q b] & p & a & E & F' & B); injection E as E1 E2; subst.
        -- rewrite (U _ F'). reflexivity.
        -- destruct (B q e' (or_introl eq_refl) F).
Qed.
(** The constraint is not kept. *)
Theorem C79_constraint_refuted : forall opts c, make_info opts = Ok c -> in_constraint c = 0%N.
Proof.
  intros opts c. unfold ModelMake.make_info. assert (Z : in_constraint (mkInfo "" "" "" "" UnknownData 0%N) = 0%N) by reflexivity. revert Z. generalize (mkInfo "" "" "" "" UnknownData 0%N) as d.
  induction opts as [|o opts IH]; intros d Z E; [injection E as <-; exact Z|]. cbn [fold_left rbind] in E.
  destruct (infoopt_apply to_str to_type d o) as [d'|e|] eqn:A; [|rewrite info_err in E; discriminate E|rewrite info_panic in E; discriminate E].
  refine (IH d' _ E). destruct o; cbn [infoopt_apply] in A; unfold info_str in A;
    try (destruct (to_str v); [injection A as <-; exact Z|discriminate A]); try (destruct (to_type v); [injection A as <-; exact Z|discriminate A|discriminate A]); injection A as <-; exact Z.
Qed.
End Info.
Print Assumptions C79_options_partial.
Print Assumptions C79_fails.
Print Assumptions C79_constraint_refuted.
(** The column read from a row of the information schema is the one made from the row's values. *)
Theorem C79_row : forall entries to_str other r catalog sch tbl nm typ,
  snd (row_value_by r "TABLE_CATALOG") = Ok catalog -> snd (row_value_by r "TABLE_SCHEMA") = Ok sch -> snd (row_value_by r "TABLE_NAME") = Ok tbl ->
  snd (row_value_by r "COLUMN_NAME") = Ok nm -> snd (row_value_by r "DATA_TYPE") = Ok typ ->
  column_of_row entries to_str other r =
    rbind (make_info to_str (data_type_from entries other) [IoCatalog catalog; IoSchema sch; IoTable tbl; IoName nm; IoType typ])
      (fun c => Ok (mkSysColumn (in_catalog c) (in_schema c) (in_table c) (in_name c) (in_type c))).
Proof.
  intros entries to_str other r catalog sch tbl nm typ E1 E2 E3 E4 E5. unfold column_of_row. rewrite E1, E2, E3, E4, E5. cbn [rbind]. unfold str_option, make_info.
  cbn [fold_left rbind infoopt_apply]. unfold info_str.
  destruct (to_str catalog); [|reflexivity]. destruct (to_str sch); [|reflexivity]. destruct (to_str tbl); [|reflexivity]. destruct (to_str nm); [|reflexivity].
  cbn [rbind]. destruct (data_type_from entries other typ); reflexivity.
Qed.
Print Assumptions C79_row.
Example C79_example :
  make_info (fun s : string => if String.eqb s "" then None else Some s) (data_type_from_string data_type_strings) [IoName "a"; IoType "bigint"; IoConstraint "NOT NULL"; IoName "b"]%string
  = Ok (mkInfo "" "" "" "b" BigIntType 0)
  /\ make_info (fun s : string => if String.eqb s "" then None else Some s) (data_type_from_string data_type_strings) [IoTable ""; IoType "none"]%string = Err ErrInvalid.
Proof. split; reflexivity. Qed.
