(** CREATE TABLE as it is written: columns with constraints, and constraints of the table. *)
From Coq Require Import Lia Permutation.
From Verif Require Import GoBase ModelUtil ModelNum ModelFn ModelQuery ModelEbnf ModelGrammar ModelLex ModelVisitor
  SpecQuery SpecParse SpecRound FactsBase ProofEbnf ProofMachine ProofFn ProofNum ProofQuery ProofParse ProofLex ProofRound ProofRound2 ProofRound3
  ProofRound4 ProofRound5 ProofRound6 ProofRound7.

(** a list without commas *)
Lemma star_reads {A} g (f : A -> list token) (c : A -> children) firsts ends xs : okg (Star g) = true ->
  (forall k tl, heads ends tl -> R g tl k = NotFound) ->
  (forall x, In x xs -> exists t l, f x = t :: l /\ In (tk t) firsts) ->
  (forall x, In x xs -> reads g (f x) (c x) None (firsts ++ ends)) ->
  reads (Star g) (flat_map f xs) (flat_map c xs) None ends.
Proof.
  intros O E. induction xs as [|x xs IH]; intros F Hx k K tl r T H.
  - cbn [flat_map app] in *. rewrite R_star by exact O. rewrite (E _ tl T). exact H.
  - cbn [flat_map]. rewrite <- app_assoc, R_star by exact O.
    rewrite (Hx x (or_introl eq_refl) _ I (flat_map f xs ++ tl) r); [reflexivity| |].
    + destruct xs as [|y ys]; [apply (heads_incl ends); [intros a I0; apply in_or_app; right; exact I0|exact T]|].
      destruct (F y (or_intror (or_introl eq_refl))) as (t & l & Ey & It). cbn [flat_map]. rewrite Ey. cbn [app heads]. apply in_or_app. left. exact It.
    + apply (IH (fun y Iy => F y (or_intror Iy)) (fun y Iy => Hx y (or_intror Iy)) _ I tl r T). cbn [flat_map] in H. exact H.
Qed.

(** ** Constraints of columns *)

Inductive ccon := KPrimary (auto : bool) | KNotNull | KNull | KUnique | KDefault (l : lit).
Definition ccon_ok (c : ccon) : Prop := match c with KDefault l => lit_ok l | _ => True end.
Definition auto_toks (b : bool) : list token := if b then [mkTok "AUTOINCREMENT_" "AUTOINCREMENT"] else [].
Definition ccon_toks (c : ccon) : list token :=
  match c with
  | KPrimary b => mkTok "PRIMARY_" "PRIMARY" :: mkTok "KEY_" "KEY" :: auto_toks b
  | KNotNull => [mkTok "NOT_" "NOT"; mkTok "NULL_" "NULL"]
  | KNull => [mkTok "NULL_" "NULL"]
  | KUnique => [mkTok "UNIQUE_" "UNIQUE"]
  | KDefault l => mkTok "DEFAULT_" "DEFAULT" :: lit_toks l
  end.
Definition default_tree (l : lit) : tree :=
  match l with LNum _ | LNeg _ => Node "signed_number" (leafs (lit_toks l)) | _ => lit_tree l end.
Definition ccon_tree (c : ccon) : tree :=
  Node "column_constraint"
    match c with
    | KPrimary _ => [(""%string, Node "primary_key_constraint" (leafs (ccon_toks c)))]
    | KDefault l => [(""%string, Leaf (mkTok "DEFAULT_" "DEFAULT")); (""%string, default_tree l)]
    | _ => leafs (ccon_toks c)
    end.
Definition cconc (c : ccon) : children := [(""%string, ccon_tree c)].
Definition ccon_firsts : list string := ["PRIMARY_"; "NOT_"; "NULL_"; "UNIQUE_"; "DEFAULT_"].
Definition kdef_ends : list string := ["COMMA"; "CLOSE_PAR"].
Lemma ccon_reads c : ccon_ok c -> reads (Rule "column_constraint" 0) (ccon_toks c) (cconc c) None (ccon_firsts ++ kdef_ends).
Proof.
  intros O k K [|[kd tx] rest] r T H; [contradiction|]. cbn [heads tk] in T. unfold ccon_firsts, kdef_ends in T. cbn [In app] in T.
  destruct c as [[]| | | |[n|n|b|kind w]]; unfold ccon_toks, auto_toks, lit_toks; cbn [app]; enter.
  1-8: each_kind T; go_known none 1 AtEnd; exact H.
  cbn [ccon_ok lit_ok lit_words In] in O. each_kind O; each_kind T; go_known none 1 AtEnd; exact H.
Qed.
Lemma no_ccon k tl : heads kdef_ends tl -> R (Rule "column_constraint" 0) tl k = NotFound.
Proof.
  intro T. destruct tl as [|[kd tx] tl]; [contradiction|]. cbn [heads tk] in T. unfold kdef_ends in T. cbn [In] in T. enter.
  each_kind T; apply (may_false k None I 2000 _ [_] []); vm_compute; reflexivity.
Qed.
Lemma ccons_reads cs : Forall ccon_ok cs -> reads (Star (Rule "column_constraint" 0)) (flat_map ccon_toks cs) (flat_map cconc cs) None kdef_ends.
Proof.
  intro F. apply (star_reads _ ccon_toks cconc ccon_firsts); [vm_compute; reflexivity|exact no_ccon|..].
  - intros x _. destruct x; (eexists _, _; split; [reflexivity|vm_compute; tauto]).
  - intros x I0. apply ccon_reads. exact (proj1 (Forall_forall _ _) F x I0).
Qed.

(** ** Columns *)

Inductive klen := NoLen | OneLen (n : N) | TwoLen (n m : N).
Record kdef := mkKdef { kd_name : string; kd_word : string; kd_len : klen; kd_cons : list ccon }.
Definition type_kinds : list string := ["IDENTIFIER"; "TEXT_"; "SET_"].
Definition type_ok (w : string) : Prop := is_word w = true /\ In (kind_of_word w) type_kinds.
Definition kdef_ok (d : kdef) : Prop := column_word (kd_name d) /\ type_ok (kd_word d) /\ Forall ccon_ok (kd_cons d).
Definition klen_toks (l : klen) : list token :=
  match l with
  | NoLen => []
  | OneLen n => [open_; mkTok "NUMERIC_LITERAL" (show_N n); close_]
  | TwoLen n m => [open_; mkTok "NUMERIC_LITERAL" (show_N n); comma; mkTok "NUMERIC_LITERAL" (show_N m); close_]
  end.
Definition signed (n : N) : string * tree := (""%string, Node "signed_number" [(""%string, Leaf (mkTok "NUMERIC_LITERAL" (show_N n)))]).
Definition klen_tree (l : klen) : children :=
  match l with
  | NoLen => []
  | OneLen n => [(""%string, Leaf open_); signed n; (""%string, Leaf close_)]
  | TwoLen n m => [(""%string, Leaf open_); signed n; (""%string, Leaf comma); signed m; (""%string, Leaf close_)]
  end.
Definition word_tok (w : string) : token := mkTok (kind_of_word w) w.
Definition word_tree (w : string) : tree :=
  Node "name" [(""%string, Node "any_name"
    [(""%string, if String.eqb (kind_of_word w) "IDENTIFIER" then Leaf (word_tok w) else Node "keyword" [(""%string, Leaf (word_tok w))])])].
Definition kdef_toks (d : kdef) : list token := idt (kd_name d) :: word_tok (kd_word d) :: klen_toks (kd_len d) ++ flat_map ccon_toks (kd_cons d).
Definition kdef_tree (d : kdef) : tree :=
  Node "column_def" ([(""%string, Node "column_name" (ident (kd_name d))); (""%string, Node "type_name" ((""%string, word_tree (kd_word d)) :: klen_tree (kd_len d)))]
    ++ flat_map cconc (kd_cons d)).
Definition kdefc (d : kdef) : children := [(""%string, kdef_tree d)].
Lemma ccons_heads cs tl : heads kdef_ends tl -> heads (ccon_firsts ++ kdef_ends) (flat_map ccon_toks cs ++ tl).
Proof.
  intro T. destruct cs as [|[] cs]; cbn [flat_map app]; [|vm_compute; tauto..]. apply (heads_incl kdef_ends); [in_list|exact T].
Qed.
Lemma kdef_reads d : kdef_ok d -> reads (Rule "column_def" 0) (kdef_toks d) (kdefc d) None kdef_ends.
Proof.
  intros (_ & (_ & W) & C) k K tl r T H. destruct d as [x w l cs]. cbn [kd_name kd_word kd_len kd_cons] in *.
  unfold kdef_toks, kdefc, kdef_tree, word_tree, word_tok in *. cbn [kd_name kd_word kd_len kd_cons] in *.
  remember (kind_of_word w) as kw_ eqn:Ek. clear Ek. pose proof (ccons_heads cs tl T) as T'.
  remember (flat_map ccon_toks cs ++ tl) as rest eqn:E. destruct rest as [|[kd tx] rest]; [contradiction|]. cbn [heads tk] in T'.
  unfold ccon_firsts, kdef_ends in T'. cbn [In app] in T'. unfold type_kinds in W. cbn [In] in W. cbn [app]. rewrite <- app_assoc, <- E.
  destruct l as [|n|n m]; cbn [klen_toks klen_tree app] in *; enter;
    each_kind W; cbn [String.eqb Ascii.eqb Bool.eqb] in H; each_kind T'; go_known none 1 AtStar; rewrite E;
    (by_reads (ccons_reads cs C); [exact T|]);
    (refine (machine_end _ _ _ _ _ _ H); subst; cbn [app]; rewrite ?app_nil_r; reflexivity).
Qed.
