(** The values of INSERT and UPDATE in terms of SpecValue. *)
From Coq Require Import Lia.
From Verif Require Import GoBase ModelUtil ModelNum ModelFn ModelQuery ModelEbnf ModelGrammar ModelLex ModelVisitor
  SpecFn SpecQuery SpecParse SpecRound SpecSelect SpecValue FactsBase ProofFn ProofQuery ProofParse ProofLex ProofRound ProofRound2 ProofRound3
  ProofRound4 ProofRound5 ProofRound6 ProofRound7 ProofRound8 ProofRound9 ProofRound10 ProofRound12 ProofRound13 ProofSelect2 ProofValue.

Definition farg_of (a : argument) : farg := match a with Column c => (false, c) | Number n => (true, n) end.
Definition vexp_of (v : given) : vexp :=
  match v with
  | Literal l => VLit l | OfColumn c => VCol c | Arithmetic c o a => VAr c (operation o) (farg_of a)
  | Call f args => VFn f (map farg_of args) | InParentheses n => VPar n
  end.
Definition vrow_of (vs : list given) : vrow := (vexp_of (hd (InParentheses "") vs), map vexp_of (tl vs)).
Definition vset_of (a : string * given) : vset := (fst a, vexp_of (snd a)).

Lemma farg_of_ok a : argument_ok a -> farg_ok (farg_of a).
Proof. destruct a as [c|n]; intro H; [exact (any_is c H)|exact (number_is n H)]. Qed.
Lemma operation_in o : In (operation o) ops.
Proof. destruct o; cbn; tauto. Qed.
Lemma operation_name o : exe_name (operation o) = operator_sign o.
Proof. destruct o; reflexivity. Qed.
Lemma vexp_of_ok v : given_ok v -> vexp_ok (vexp_of v).
Proof.
  destruct v as [l|c|c o a|f args|n]; cbn [given_ok vexp_ok vexp_of].
  - exact (fun H => H).
  - apply any_is.
  - intros [C A]. split; [exact (any_is c C)|split; [apply operation_in|apply farg_of_ok; exact A]].
  - intros [F A]. split; [exact (any_is f F)|]. apply Forall_map. revert A. apply Forall_impl. exact farg_of_ok.
  - apply number_is.
Qed.
Lemma farg_of_text a : snd (farg_of a) = argument_text a.
Proof. destruct a; reflexivity. Qed.
Lemma farg_of_texts args : map (fun x => glue (farg_piece x)) (map farg_of args) = map argument_text args.
Proof. rewrite map_map. apply map_ext. intro a. rewrite farg_glue. apply farg_of_text. Qed.
Lemma glue_vexp v : given_ok v -> glue (vexp_pieces (vexp_of v)) = given_text v.
Proof.
  destruct v as [l|c|c o a|f args|n]; cbn [given_ok vexp_of vexp_pieces given_text].
  - intro L. rewrite (literal_as l L). apply literal_pieces. exact L.
  - intros _. apply glue_one.
  - intros _. rewrite glue_spaced. cbn [map join]. rewrite glue_one, !glue_cons', farg_glue, operation_name, farg_of_text. reflexivity.
  - intros _. destruct args as [|a args]; cbn [map]; [rewrite !glue_cons'; reflexivity|].
    rewrite !glue_cons', glue_app, glue_one, glue_listed. cbn [map]. rewrite farg_glue, farg_of_text, farg_of_texts. reflexivity.
  - intros _. rewrite !glue_cons'. reflexivity.
Qed.
Lemma glue_vexps vs : Forall given_ok vs -> map (fun x => glue (vexp_pieces x)) (map vexp_of vs) = map given_text vs.
Proof. intro F. rewrite map_map. induction F as [|v vs V _ IH]; [reflexivity|]. cbn [map]. rewrite IH, (glue_vexp v V). reflexivity. Qed.
Lemma vrow_of_ok vs : some given_ok vs -> vrow_ok (vrow_of vs).
Proof.
  intros [N F]. destruct vs as [|v vs]; [destruct (N eq_refl)|]. inversion F as [|? ? V Vs]; subst.
  split; [apply vexp_of_ok; exact V|]. apply Forall_map. revert Vs. apply Forall_impl. exact vexp_of_ok.
Qed.
Lemma glue_vrow vs : some given_ok vs -> glue (vrow_pieces (vrow_of vs)) = given_row_text vs.
Proof.
  intros [N F]. destruct vs as [|v vs]; [destruct (N eq_refl)|]. unfold vrow_pieces, vrow_of, given_row_text. cbn [fst snd hd tl].
  rewrite !glue_cons', glue_app, glue_one, glue_listed, <- (glue_vexps (v :: vs) F). reflexivity.
Qed.
Lemma glue_vrows rows : Forall (some given_ok) rows -> map (fun x => glue (vrow_pieces x)) (map vrow_of rows) = map given_row_text rows.
Proof. intro F. rewrite map_map. induction F as [|v vs V _ IH]; [reflexivity|]. cbn [map]. rewrite IH, (glue_vrow v V). reflexivity. Qed.
Lemma literals_vexps vs : literals (map vexp_of vs) = literals_of vs.
Proof. unfold literals, literals_of. induction vs as [|[] vs IH]; [reflexivity|..]; cbn [map flat_map vexp_of]; rewrite IH; reflexivity. Qed.
Lemma glue_vinsert t cols w ws : Forall (some given_ok) (w :: ws) ->
  glue (vinsert_pieces t cols (vrow_of w) (map vrow_of ws)) = insert_text t cols (w :: ws).
Proof.
  intro F. unfold vinsert_pieces, insert_text, columns_text.
  destruct cols as [|c cs]; cbn [vcols_pieces app]; rewrite glue_spaced; cbn [map]; rewrite ?glue_par_names, glue_one, glue_listed.
  - change (vrow_of w :: map vrow_of ws) with (map vrow_of (w :: ws)). rewrite (glue_vrows _ F). unfold kw, join_with_comma. cbn [map spaced app join]. reflexivity.
  - change (vrow_of w :: map vrow_of ws) with (map vrow_of (w :: ws)). rewrite (glue_vrows _ F). unfold kw, join_with_comma. cbn [map spaced app].
    rewrite !join_cons. cbn [join ptext glue]. rewrite ?sapp_assoc. reflexivity.
Qed.
(** The rows that come out of an INSERT: the columns with the literals, in order. *)
Lemma insert_reads entries t cols rows : bare_name t -> Forall any_name cols -> some (some given_ok) rows ->
  parse entries (insert_text t cols rows)
  = Ok [SInsert (new_table t) (map (fun r => map (fun p => new_value_column (fst p) (snd p)) (combine cols (literals_of r))) rows)].
Proof.
  intros T C [N F]. destruct rows as [|w ws]; [destruct (N eq_refl)|]. rewrite <- (glue_vinsert t cols w ws F).
  rewrite (reads_parse entries _ _ (insert_vrows entries t cols (vrow_of w) (map vrow_of ws) (bare_plain _ (bare_is _ T))
    (Forall_impl _ any_is C) (proj2 (Forall_map vrow_of vrow_ok (w :: ws)) (Forall_impl _ vrow_of_ok F)))).
  rewrite (proj2 (bare_is _ T)). do 3 f_equal. change (vrow_of w :: map vrow_of ws) with (map vrow_of (w :: ws)). rewrite map_map. apply map_ext_in.
  intros r I. unfold pair_row. do 2 f_equal. destruct (proj1 (Forall_forall _ _) F r I) as [R _]. destruct r as [|v vs]; [destruct (R eq_refl)|].
  exact (literals_vexps (v :: vs)).
Qed.

(** ** UPDATE *)

Lemma vset_of_ok a : assignment_ok a -> vset_ok (vset_of a).
Proof. intros [N V]. split; [exact (any_is _ N)|apply vexp_of_ok; exact V]. Qed.
Lemma glue_vset a : assignment_ok a -> glue (vset_pieces (vset_of a)) = assignment_text a.
Proof.
  intros [_ V]. unfold vset_pieces, vset_of, assignment_text. cbn [fst snd]. rewrite glue_spaced. cbn [map join].
  rewrite glue_one, !glue_cons', (glue_vexp _ V). reflexivity.
Qed.
Lemma glue_vsets sets : Forall assignment_ok sets -> map (fun x => glue (vset_pieces x)) (map vset_of sets) = map assignment_text sets.
Proof. intro F. rewrite map_map. induction F as [|v vs V _ IH]; [reflexivity|]. cbn [map]. rewrite IH, (glue_vset v V). reflexivity. Qed.
Definition assigned (a : string * given) : column := vset_column (vset_of a).
Lemma update_reads entries t sets w : any_name t -> some assignment_ok sets -> condition_ok w ->
  parse entries (update_text t sets w) = Ok [SUpdate (new_table t) (map assigned sets) w].
Proof.
  intros T [N F] W. destruct sets as [|u us]; [destruct (N eq_refl)|].
  destruct (update_vsets entries t (vset_of u) (map vset_of us) (any_is _ T) (proj2 (Forall_map vset_of vset_ok (u :: us)) (Forall_impl _ vset_of_ok F))) as [R0 R1].
  change (map vset_column (vset_of u :: map vset_of us)) with (map vset_column (map vset_of (u :: us))) in R0, R1. rewrite map_map in R0, R1.
  assert (E : forall ps, glue (vupdate_pieces t (vset_of u) (map vset_of us) ps)
    = ("UPDATE " ++ t ++ " SET " ++ join ", " (map assignment_text (u :: us)) ++ led (map glue (vwhere_pieces ps)))%string).
  { intro ps. unfold vupdate_pieces. rewrite glue_spaced, map_app. cbn [map app]. rewrite join_led. cbn [led]. unfold vsets_pieces.
    rewrite glue_one, glue_listed. change (vset_of u :: map vset_of us) with (map vset_of (u :: us)). rewrite (glue_vsets _ F).
    unfold kw, join_with_comma. cbn [map spaced]. rewrite !glue_one. cbn [ptext]. rewrite ?sapp_assoc. reflexivity. }
  unfold update_text. destruct w as [e|].
  - destruct (R1 e W) as (ps & G & R). pose proof (reads_parse entries _ _ R) as Q. rewrite E in Q. cbn [vwhere_pieces map led] in Q.
    cbn [conditions clause join]. rewrite (condition_as e W), <- G. unfold kw in Q. cbn [map spaced] in Q. rewrite glue_one, append_nil_r in Q. exact Q.
  - pose proof (reads_parse entries _ _ R0) as Q. rewrite E in Q. exact Q.
Qed.
