(** Reading back printed statements, continued: lists and the statements. *)
From Coq Require Import Lia.
From Verif Require Import GoBase ModelUtil ModelNum ModelFn ModelQuery ModelEbnf ModelGrammar ModelLex ModelVisitor
  SpecParse ProofEbnf ProofMachine ProofParse ProofLex ProofRound.

(** ** Lists with commas *)

Definition clist {A} (f : A -> list token) (xs : list A) : list token := flat_map (fun x => comma :: f x) xs.
Definition ctree {A} (c : A -> children) (xs : list A) : children := flat_map (fun x => (""%string, Leaf comma) :: c x) xs.
Definition commas (g : gram) : gram := Star (Seq (Tok "COMMA") g).

Lemma law_star g bot k : okg (commas g) = true -> law bot k ->
  law (option_map (cons "COMMA"%string) bot) (fun ca r => R (commas g) r (fun cb r' => k (ca ++ cb) r')).
Proof.
  intros O K. destruct bot as [ks|]; [|exact I]. intros cs t ts N. cbn [In] in N.
  unfold commas. rewrite R_star by exact O. destruct (okg_star _ O) as [O1 _].
  rewrite R_seq by exact O1. rewrite R_tok.
  destruct (String.eqb (tk t) "COMMA") eqn:E; [apply String.eqb_eq in E; exfalso; apply N; left; symmetry; exact E|].
  apply K. intro H. apply N. right. exact H.
Qed.

Lemma heads_clist {A} (f : A -> list token) follow xs tl : heads follow tl -> heads ("COMMA"%string :: follow) (clist f xs ++ tl).
Proof.
  intro H. destruct xs as [|x xs]; [|left; reflexivity]. apply (heads_incl follow); [|exact H]. intros y Hy. right. exact Hy.
Qed.
Lemma list_reads {A} g (f : A -> list token) (c : A -> children) bot follow xs :
  okg (commas g) = true -> ~ In "COMMA"%string follow ->
  (forall x, In x xs -> reads g (f x) (c x) (option_map (cons "COMMA"%string) bot) ("COMMA"%string :: follow)) ->
  reads (commas g) (clist f xs) (ctree c xs) bot follow.
Proof.
  intros O NC. induction xs as [|x xs IH]; intros Hx k K tl r T H.
  - cbn [clist ctree flat_map app] in *. unfold commas. rewrite R_star by exact O. destruct (okg_star _ O) as [O1 _].
    rewrite R_seq by exact O1. rewrite R_tok. destruct tl as [|t rest]; [contradiction|]. cbn [heads] in T.
    destruct (String.eqb (tk t) "COMMA") eqn:E; [apply String.eqb_eq in E; exfalso; apply NC; rewrite <- E; exact T|].
    exact H.
  - cbn [clist flat_map app]. unfold commas. rewrite R_star by exact O. destruct (okg_star _ O) as [O1 _].
    rewrite R_seq by exact O1. rewrite R_tok. cbn [tk comma String.eqb Ascii.eqb Bool.eqb].
    assert (F : R g (f x ++ clist f xs ++ tl)
                  (fun cb r' => R (commas g) r' (fun cb' r'' => k ((((""%string, Leaf comma) :: nil) ++ cb) ++ cb') r'')) = Found r).
    { apply (Hx x (or_introl eq_refl)); [|apply heads_clist; exact T|].
      - exact (law_star g bot (fun cb' r'' => k (((""%string, Leaf comma) :: nil) ++ cb') r'') O
                 ltac:(destruct bot; [intros cs t0 ts0 N0; apply K; exact N0|exact I])).
      - refine (IH (fun y Hy => Hx y (or_intror Hy)) _ _ tl r T _).
        + destruct bot; [intros cs t0 ts0 N0; apply K; exact N0|exact I].
        + cbn [ctree flat_map] in H. rewrite <- app_assoc. exact H. }
    rewrite <- app_assoc. unfold commas in F. unfold clist in F. rewrite F. reflexivity.
Qed.
(** a list with nothing special about the end *)
Lemma list_reads_any {A} g (f : A -> list token) (c : A -> children) bot follow xs :
  okg (commas g) = true -> ~ In "COMMA"%string follow ->
  (forall x, In x xs -> reads g (f x) (c x) None ("COMMA"%string :: follow)) ->
  reads (commas g) (clist f xs) (ctree c xs) bot follow.
Proof. intros O N H. apply list_reads; [exact O|exact N|]. intros x Ix. apply reads_any. exact (H x Ix). Qed.

(** ** Statements *)

Definition stmt_ends : list string := ["SCOL"; "EOF"].
Definition starts : list string :=
  ["ALTER_"; "BEGIN_"; "COMMIT_"; "CREATE_"; "DELETE_"; "DROP_"; "INSERT_"; "ROLLBACK_"; "SELECT_"; "UPDATE_"; "USE_"; "VACUUM_";
   "COPY_"; "TRUNCATE_"; "REPLACE_"; "END_"].
Definition stmt_reads (ts : list token) (T : tree) : Prop :=
  reads (Rule "sql_stmt" 0) ts [(""%string, T)] (Some stmt_follow) stmt_ends.
Ltac case_end T tl :=
  destruct tl as [|[kd_ tx_] rest_]; [contradiction T|]; cbn [heads tk] in T; unfold stmt_ends in T; cbn [In] in T; each_in T.

(** apply a [reads] at the current state *)
Ltac by_reads H :=
  apply leave_machine; refine (H _ _ _ _ _ _);
    [first [exact I|idtac]| |
     match goal with |- den ?k ?s ?cs ?ts = ?o => apply enter_ret; let X := fresh "cs" in let E := fresh "Ecs" in remember cs as X eqn:E end].
Ltac the_end H := refine (machine_end _ _ _ _ _ _ H); subst; cbn [app]; repeat rewrite <- app_assoc; cbn [app]; rewrite ?app_nil_r; reflexivity.
Ltac in_list := let x := fresh in let H := fresh in intros x H; cbn [In] in H; each_in H; vm_compute; tauto.

Definition open_ : token := mkTok "OPEN_PAR" "(".
Definition close_ : token := mkTok "CLOSE_PAR" ")".
Definition col (x : string) : children := [(""%string, Node "column_name" (ident x))].
Definition lite (l : lit) : children := [(""%string, Node "expr" [(""%string, lit_tree l)])].

Lemma name_reads x bot follow : reads (Rule "column_name" 0) [idt x] (col x) bot follow.
Proof. intros k K tl r T H. cbn [app]. rewrite name_column. exact H. Qed.

Definition row_toks (l0 : lit) (ls : list lit) : list token := open_ :: lit_toks l0 ++ clist lit_toks ls ++ [close_].
Definition row_tree (l0 : lit) (ls : list lit) : tree :=
  Node "value_row" ((""%string, Leaf open_) :: lite l0 ++ ctree lite ls ++ [(""%string, Leaf close_)]).

Lemma row_reads l0 ls bot follow : lit_ok l0 -> Forall lit_ok ls ->
  reads (Rule "value_row" 0) (row_toks l0 ls) [(""%string, row_tree l0 ls)] bot follow.
Proof.
  intros L0 Ls k K tl r T H. unfold row_toks. cbn [app]. rewrite <- !app_assoc. cbn [app]. enter.
  go none [open_] 0 (AtRule "expr").
  by_reads (lit_expr l0 None L0).
  { apply (heads_incl ["COMMA"; "CLOSE_PAR"]%string); [in_list|]. apply heads_clist. left. reflexivity. }
  go none (@nil token) 0 AtStar.
  by_reads (list_reads_any (Rule "expr" 0) lit_toks lite None ["CLOSE_PAR"%string] ls ltac:(vm_compute; reflexivity) ltac:(cbn; intros [E|[]]; discriminate)
    (fun x Ix => reads_incl _ _ _ _ ["COMMA"; "CLOSE_PAR"]%string expr_ends ltac:(in_list) (lit_expr x None (proj1 (Forall_forall _ _) Ls x Ix)))).
  { left. reflexivity. }
  go none [close_] 0 AtEnd. subst. exact H.
Qed.

Definition id1 (x : string) : list token := [idt x].
Lemma names_reads xs bot follow : ~ In "COMMA"%string follow -> reads (commas (Rule "column_name" 0)) (clist id1 xs) (ctree col xs) bot follow.
Proof.
  intro N. apply list_reads_any; [vm_compute; reflexivity|exact N|]. intros x _. apply name_reads.
Qed.
Ltac not_in := let H := fresh in intro H; vm_compute in H; repeat (destruct H as [H|H]; [discriminate H|]); contradiction H.
