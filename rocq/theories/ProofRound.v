(** Reading back printed statements, the parser's half: what the parser makes of the tokens of a
    printed statement, one lemma per construct. *)
From Coq Require Import Lia.
From Verif Require Import GoBase ModelUtil ModelNum ModelFn ModelQuery ModelEbnf ModelGrammar ModelLex ModelVisitor
  SpecParse ProofEbnf ProofMachine ProofParse ProofLex.

(** ** Running the machine over a segment *)

(** the machine stops here: with so many known tokens left, in front of the given piece of grammar *)
Inductive place := AtRule (name : string) | AtStar | AtStarNG | AtAlt (name : string) | AtRet | AtEnd.
Definition at_place (n : nat) (p : place) (m : mode) (l : list token) (s : list frame) : bool :=
  (length l =? n) &&
  match p, m with
  | AtRule name, MEval (Rule r _) => String.eqb r name
  | AtStar, MEval (Star _) => true
  | AtStarNG, MEval (StarNG _) => true
  | AtAlt name, MEval (Alt (Rule r _) _) => String.eqb r name
  | AtRet, MRet _ => true
  | AtEnd, MRet _ => match s with [] => true | _ => false end
  | _, _ => false
  end.

Definition law (bot : option (list string)) (k : children -> list token -> outcome) : Prop :=
  match bot with
  | Some ks => forall cs t ts, ~ In (tk t) ks -> k cs (t :: ts) = NotFound
  | None => True
  end.

Lemma seg bot k n p m l s m' l' s' rest ts r : law bot k -> ts = l ++ rest ->
  exec bot (at_place n p) 14 2000 5000 m l s = Some (m', l', s') -> ok m s = true ->
  denm k m' (l' ++ rest) s' = Found r -> denm k m ts s = Found r.
Proof. intros L -> E O. destruct (exec_sound k bot L _ _ _ _ _ _ _ _ _ _ E O) as [_ F]. apply F. Qed.
Lemma dseg bot k n p m l s m' l' s' rest ts o : law bot k -> ts = l ++ rest ->
  dexec bot (at_place n p) 2000 5000 m l s = Some (m', l', s') -> ok m s = true ->
  denm k m' (l' ++ rest) s' = o -> denm k m ts s = o.
Proof. intros L -> E O <-. symmetry. destruct (dexec_sound k bot L _ _ _ _ _ _ _ _ _ E O) as [_ F]. apply F. Qed.


(** read the tokens l, until n of them are left at place p *)
Ltac go bot l n p :=
  match goal with |- denm ?k ?m ?ts ?s = Found ?r =>
    let e0 := eval vm_compute in (exec bot (at_place n p) 14 2000 5000 m l s) in
    let e := eval fold (@app (string * tree)) in e0 in
    match e with
    | Some (?m', ?l', ?s') =>
        refine (seg bot k n p m l s m' l' s' _ ts r _ _ _ _ _);
        [first [exact I|assumption]|cbn [app]; reflexivity|vm_cast_no_check (eq_refl (Some (m', l', s')))|vm_cast_no_check (eq_refl true)|cbn [app]]
    end
  end.
(** the same where nothing else is possible: the goal is an equality *)
Ltac dgo bot l n p :=
  match goal with |- denm ?k ?m ?ts ?s = ?o =>
    let e := eval vm_compute in (dexec bot (at_place n p) 2000 5000 m l s) in
    match e with
    | Some (?m', ?l', ?s') =>
        refine (dseg bot k n p m l s m' l' s' _ ts o _ _ _ _ _);
        [first [exact I|assumption]|cbn [app]; reflexivity|vm_cast_no_check (eq_refl (Some (m', l', s')))|vm_cast_no_check (eq_refl true)|cbn [app]]
    end
  end.
(** from R to the machine and back *)
Lemma enter_machine g ts k o : denm k (MEval g) ts [] = o -> R g ts k = o.
Proof. exact (fun H => H). Qed.
Lemma leave_machine g ts k s o : R g ts (den k s) = o -> denm k (MEval g) ts s = o.
Proof. exact (fun H => H). Qed.
Lemma enter_ret ts k s cs o : denm k (MRet cs) ts s = o -> den k s cs ts = o.
Proof. exact (fun H => H). Qed.
Lemma machine_end X Y ts k o : X = Y -> k Y ts = o -> denm k (MRet X) ts [] = o.
Proof. intros ->. exact (fun H => H). Qed.
Ltac enter := apply enter_machine.
Ltac leave := apply leave_machine.

(** ** Tokens *)

Definition idt (x : string) : token := mkTok "IDENTIFIER" x.
Definition comma : token := mkTok "COMMA" ",".

(** names *)
Definition ident (x : string) : children := [(""%string, Node "any_name" [(""%string, Leaf (idt x))])].
Ltac name_eq := intros; enter; match goal with |- denm ?k _ (?t :: _) _ = _ => dgo (@None (list string)) [t] 0 AtEnd end; reflexivity.
Lemma name_column x rest k : R (Rule "column_name" 0) (idt x :: rest) k = k [(""%string, Node "column_name" (ident x))] rest.
Proof. name_eq. Qed.

(** literals: a number, a negative number, a text in quotes, a word that is a literal *)
Inductive lit := LNum (n : string) | LNeg (n : string) | LText (b : string) | LWord (kind w : string).
Definition lit_words : list string := ["NULL_"; "TRUE_"; "FALSE_"; "CURRENT_TIME_"; "CURRENT_DATE_"; "CURRENT_TIMESTAMP_"].
Definition lit_ok (l : lit) : Prop := match l with LWord k _ => In k lit_words | _ => True end.
Definition lit_toks (l : lit) : list token :=
  match l with
  | LNum n => [mkTok "NUMERIC_LITERAL" n]
  | LNeg n => [mkTok "MINUS" "-"; mkTok "NUMERIC_LITERAL" n]
  | LText b => [mkTok "STRING_LITERAL" ("'" ++ b ++ "'")]
  | LWord k w => [mkTok k w]
  end.
Definition leafs (ts : list token) : children := map (fun t => (""%string, Leaf t)) ts.
Definition lit_tree (l : lit) : tree :=
  Node "literal_value"
    match l with
    | LNum _ | LNeg _ => [(""%string, Node "signed_number" (leafs (lit_toks l)))]
    | LText _ => [(""%string, Node "string_literal" (leafs (lit_toks l)))]
    | LWord _ _ => leafs (lit_toks l)
    end.

Ltac each_in H := repeat (destruct H as [H|H]; [subst|]); [..|contradiction H].
Lemma lit_value l rest k : lit_ok l -> R (Rule "literal_value" 0) (lit_toks l ++ rest) k = k [(""%string, lit_tree l)] rest.
Proof.
  intro O. destruct l as [n|n|b|kd w]; cbn [lit_toks app]; [| | |cbn [lit_ok lit_words In] in O; each_in O]; enter.
  - dgo (@None (list string)) [mkTok "NUMERIC_LITERAL" n] 0 AtEnd. reflexivity.
  - dgo (@None (list string)) [mkTok "MINUS" "-"; mkTok "NUMERIC_LITERAL" n] 0 AtEnd. reflexivity.
  - dgo (@None (list string)) [mkTok "STRING_LITERAL" ("'" ++ b ++ "'")] 0 AtEnd. reflexivity.
  - dgo (@None (list string)) [mkTok "NULL_" w] 0 AtEnd. reflexivity.
  - dgo (@None (list string)) [mkTok "TRUE_" w] 0 AtEnd. reflexivity.
  - dgo (@None (list string)) [mkTok "FALSE_" w] 0 AtEnd. reflexivity.
  - dgo (@None (list string)) [mkTok "CURRENT_TIME_" w] 0 AtEnd. reflexivity.
  - dgo (@None (list string)) [mkTok "CURRENT_DATE_" w] 0 AtEnd. reflexivity.
  - dgo (@None (list string)) [mkTok "CURRENT_TIMESTAMP_" w] 0 AtEnd. reflexivity.
Qed.

(** comparisons *)
Definition cmp_kinds : list (cmp_op * (string * string)) :=
  [(OpEQ, ("ASSIGN", "=")); (OpNEQ, ("NOT_EQ1", "!=")); (OpLT, ("LT", "<")); (OpGT, ("GT", ">")); (OpLE, ("LT_EQ", "<="));
   (OpGE, ("GT_EQ", ">="))].
Record cmp := mkCmp { cm_col : string; cm_op : string * string; cm_lit : lit }.
Definition cmp_ok (c : cmp) : Prop := In (cm_op c) (map snd cmp_kinds) /\ lit_ok (cm_lit c).
Definition op_tok (o : string * string) : token := mkTok (fst o) (snd o).
Definition cmp_toks (c : cmp) : list token := idt (cm_col c) :: op_tok (cm_op c) :: lit_toks (cm_lit c).
Definition cmp_tree (c : cmp) : tree :=
  Node "comparison_expr"
    [(""%string, Node "column_name" (ident (cm_col c))); ("ope"%string, Leaf (op_tok (cm_op c))); (""%string, lit_tree (cm_lit c))].
Ltac each_op O := cbn [map snd cmp_kinds In] in O; each_in O.
Lemma cmp_value c rest k : cmp_ok c -> R (Rule "comparison_expr" 0) (cmp_toks c ++ rest) k = k [(""%string, cmp_tree c)] rest.
Proof.
  destruct c as [x o l]. intros [O L]. unfold cmp_toks. cbn [cm_col cm_op cm_lit app] in *. enter.
  each_op O; unfold op_tok; cbn [fst snd];
    (match goal with |- denm _ _ (?a :: ?b :: _) _ = _ => dgo (@None (list string)) [a; b] 0 (AtRule "literal_value") end;
     leave; rewrite lit_value by exact L; reflexivity).
Qed.

Definition heads (follow : list string) (tl : list token) : Prop := match tl with t :: _ => In (tk t) follow | [] => False end.
(** g reads the tokens ts and leaves the nodes cs, before a token of one of the kinds in follow, as long as what comes afterwards
    cannot do with other tokens than those in bot *)
Definition reads (g : gram) (ts : list token) (cs : children) (bot : option (list string)) (follow : list string) : Prop :=
  forall k, law bot k -> forall tl r, heads follow tl -> k cs tl = Found r -> R g (ts ++ tl) k = Found r.

(** what may follow an expression in a printed statement *)
Definition expr_ends : list string := ["COMMA"; "CLOSE_PAR"; "SCOL"; "EOF"; "WHERE_"; "ORDER_"; "LIMIT_"; "GROUP_"; "OFFSET_"; "ASC_"; "DESC_"; "FROM_"].

Ltac case_kind T t := destruct t as [kd_ tx_]; cbn [tk] in T; unfold expr_ends in T; cbn [In] in T; each_in T.
Definition none : option (list string) := None.
Lemma lit_expr l bot : lit_ok l -> reads (Rule "expr" 0) (lit_toks l) [(""%string, Node "expr" [(""%string, lit_tree l)])] bot expr_ends.
Proof.
  intros L k K [|t rest] r T H; [contradiction|]. cbn [heads] in T.
  assert (E : denm k (MEval (Rule "literal_value" 0)) (lit_toks l ++ t :: rest)
                [FLeft "expr" (match rule "expr" 0 with LeftRec _ _ b => b | _ => Fail end); FRule "expr"] = Found r).
  { leave. rewrite lit_value by exact L.
    apply enter_ret.
    case_kind T t; (match goal with |- denm _ _ (?a :: _) _ = _ => go none [a] 1 AtEnd end; exact H). }
  enter. destruct l as [n|n|b|kd w].
  - go none (lit_toks (LNum n)) 1 (AtRule "literal_value"). exact E.
  - go none (lit_toks (LNeg n)) 2 (AtRule "literal_value"). exact E.
  - go none (lit_toks (LText b)) 1 (AtRule "literal_value"). exact E.
  - cbn [lit_ok lit_words In] in L. each_in L; match goal with |- denm _ _ (lit_toks ?l ++ _) _ = _ => go none (lit_toks l) 1 (AtRule "literal_value") end; exact E.
Qed.

(** ** Conditions *)

(** what may follow a statement in a list of statements *)
Definition stmt_follow : list string :=
  ["SCOL"; "EXPLAIN_"; "ALTER_"; "ANALYZE_"; "ATTACH_"; "BEGIN_"; "COMMIT_"; "END_"; "CREATE_"; "WITH_"; "DELETE_"; "DETACH_";
   "DROP_"; "INSERT_"; "REPLACE_"; "PRAGMA_"; "REINDEX_"; "RELEASE_"; "ROLLBACK_"; "SAVEPOINT_"; "SELECT_"; "VALUES_"; "UPDATE_";
   "USE_"; "VACUUM_"; "COPY_"; "TRUNCATE_"; "EOF"].
(** and a condition in a statement *)
Definition where_follow : list string :=
  ["RETURNING_"; "GROUP_"; "WINDOW_"; "ORDER_"; "LIMIT_"; "UNION_"; "INTERSECT_"; "EXCEPT_"] ++ stmt_follow.
Definition where_ends : list string := ["SCOL"; "EOF"; "ORDER_"; "LIMIT_"; "GROUP_"].

Lemma law_weaken a b k : incl a b -> law (Some a) k -> law (Some b) k.
Proof. intros I L cs t ts N. apply L. intro H. apply N. apply I. exact H. Qed.
Lemma law_den bot n s ks k : law bot k -> forallb okf s = true -> (forall cs, firsts bot n (MRet cs) s = Some ks) -> law (Some ks) (den k s).
Proof.
  intros L O F cs t ts N.
  refine (firsts_sound k bot L n (MRet cs) s ks (F cs) _ t ts N). exact O.
Qed.

Definition loop_of (g : gram) : gram := match g with LeftRec _ _ b => b | _ => Fail end.
Definition head_of (g : gram) : gram := match g with LeftRec _ a _ => a | _ => Fail end.
Fixpoint alts_from (n : nat) (g : gram) : gram := match n, g with S n', Alt _ b => alts_from n' b | _, _ => g end.
Definition expr_frames : list frame := Eval vm_compute in [FLeft "expr" (loop_of (rule "expr" 0)); FRule "expr"].
Definition cmp_alts : gram := Eval vm_compute in alts_from 7 (head_of (rule "expr" 0)).

Lemma expr_start k x o rest r : law (Some where_follow) k -> In o (map snd cmp_kinds) ->
  denm k (MEval cmp_alts) (idt x :: op_tok o :: rest) expr_frames = Found r -> R (Rule "expr" 0) (idt x :: op_tok o :: rest) k = Found r.
Proof.
  intros K O H. enter.
  each_op O; unfold op_tok in *; cbn [fst snd] in *;
    (match goal with |- denm _ _ (?a :: ?b :: _) _ = _ => go (Some where_follow) [a; b] 2 (AtAlt "comparison_expr") end; exact H).
Qed.

Lemma expr_over k cs t rest r : In (tk t) expr_ends -> k [(""%string, Node "expr" cs)] (t :: rest) = Found r -> den k expr_frames cs (t :: rest) = Found r.
Proof.
  intros T H. apply enter_ret.
  case_kind T t; (match goal with |- denm _ _ (?a :: _) _ = _ => go none [a] 1 AtEnd end; exact H).
Qed.
Lemma where_ends_expr x : In x where_ends -> In x expr_ends.
Proof. intro H. cbn [where_ends In] in H. each_in H; cbn; auto 12. Qed.

Lemma cmp_expr c : cmp_ok c -> reads (Rule "expr" 0) (cmp_toks c) [(""%string, Node "expr" [(""%string, cmp_tree c)])] (Some where_follow) where_ends.
Proof.
  intros C k K [|t rest] r T H; [contradiction|]. cbn [heads] in T. unfold cmp_toks. cbn [app].
  apply expr_start; [exact K|apply C|]. cbn [denm].
  change cmp_alts with (Alt (Rule "comparison_expr" 0) (alts_from 1 cmp_alts)).
  rewrite R_alt by (vm_compute; reflexivity).
  pose proof (cmp_value c (t :: rest) (den k expr_frames) C) as V. unfold cmp_toks in V. cbn [app] in V. rewrite V.
  rewrite (expr_over k _ t rest r (where_ends_expr _ T) H). reflexivity.
Qed.

Definition conn_toks (kind w : string) (a b : cmp) : list token := cmp_toks a ++ mkTok kind w :: cmp_toks b.
Definition conn_tree (rule kind w : string) (a b : cmp) : tree :=
  Node rule [("left"%string, cmp_tree a); (""%string, Leaf (mkTok kind w)); ("right"%string, cmp_tree b)].

Lemma cmp_then k t rest : law (Some where_follow) k -> tk t = "AND_"%string \/ tk t = "OR_"%string ->
  forall c, cmp_ok c -> R (Rule "comparison_expr" 0) (cmp_toks c ++ t :: rest) (den k expr_frames) = NotFound.
Proof.
  intros K T c C. rewrite cmp_value by exact C.
  destruct t as [kd tx_]. cbn [tk] in T. destruct T as [->| ->].
  - apply (may_false k (Some where_follow) K 2000 (MRet _) [mkTok "AND_" tx_] expr_frames); vm_compute; reflexivity.
  - apply (may_false k (Some where_follow) K 2000 (MRet _) [mkTok "OR_" tx_] expr_frames); vm_compute; reflexivity.
Qed.

Lemma and_value w a b rest k : cmp_ok a -> cmp_ok b ->
  R (Rule "and_expr" 0) (conn_toks "AND_" w a b ++ rest) k = k [(""%string, conn_tree "and_expr" "AND_" w a b)] rest.
Proof.
  intros A B. unfold conn_toks. rewrite <- app_assoc. cbn [app].
  rewrite R_rule by reflexivity. change (rule "and_expr" 0) with g_and_expr. unfold g_and_expr. cbn [seq].
  rewrite R_seq by reflexivity. rewrite R_lab by reflexivity. rewrite cmp_value by exact A.
  rewrite R_seq by reflexivity. rewrite R_tok. cbn [tk String.eqb Ascii.eqb Bool.eqb].
  rewrite R_lab by reflexivity. rewrite cmp_value by exact B. reflexivity.
Qed.
Lemma or_value w a b rest k : cmp_ok a -> cmp_ok b ->
  R (Rule "or_expr" 0) (conn_toks "OR_" w a b ++ rest) k = k [(""%string, conn_tree "or_expr" "OR_" w a b)] rest.
Proof.
  intros A B. unfold conn_toks. rewrite <- app_assoc. cbn [app].
  rewrite R_rule by reflexivity. change (rule "or_expr" 0) with g_or_expr. unfold g_or_expr. cbn [seq].
  rewrite R_seq by reflexivity. rewrite R_lab by reflexivity. rewrite cmp_value by exact A.
  rewrite R_seq by reflexivity. rewrite R_tok. cbn [tk String.eqb Ascii.eqb Bool.eqb].
  rewrite R_lab by reflexivity. rewrite cmp_value by exact B. reflexivity.
Qed.
(** with OR in place of AND *)
Lemma and_not w a rest k : cmp_ok a -> R (Rule "and_expr" 0) (cmp_toks a ++ mkTok "OR_" w :: rest) k = NotFound.
Proof.
  intros A. rewrite R_rule by reflexivity. change (rule "and_expr" 0) with g_and_expr. unfold g_and_expr. cbn [seq].
  rewrite R_seq by reflexivity. rewrite R_lab by reflexivity. rewrite cmp_value by exact A.
  rewrite R_seq by reflexivity. rewrite R_tok. reflexivity.
Qed.

Lemma and_expr_reads w a b : cmp_ok a -> cmp_ok b ->
  reads (Rule "expr" 0) (conn_toks "AND_" w a b) [(""%string, Node "expr" [(""%string, conn_tree "and_expr" "AND_" w a b)])] (Some where_follow) where_ends.
Proof.
  intros A B k K [|t rest] r T H; [contradiction|]. cbn [heads] in T.
  change (conn_toks "AND_" w a b ++ t :: rest) with (idt (cm_col a) :: op_tok (cm_op a) :: (lit_toks (cm_lit a) ++ mkTok "AND_" w :: cmp_toks b) ++ t :: rest).
  apply expr_start; [exact K|apply A|]. cbn [denm].
  change (idt (cm_col a) :: op_tok (cm_op a) :: (lit_toks (cm_lit a) ++ mkTok "AND_" w :: cmp_toks b) ++ t :: rest) with (conn_toks "AND_" w a b ++ t :: rest).
  change cmp_alts with (Alt (Rule "comparison_expr" 0) (Alt (Rule "and_expr" 0) (alts_from 2 cmp_alts))).
  rewrite R_alt by (vm_compute; reflexivity).
  pose proof (cmp_then k (mkTok "AND_" w) (cmp_toks b ++ t :: rest) K (or_introl eq_refl) a A) as N.
  replace (cmp_toks a ++ mkTok "AND_" w :: cmp_toks b ++ t :: rest) with (conn_toks "AND_" w a b ++ t :: rest) in N by (unfold conn_toks; rewrite <- app_assoc; reflexivity).
  rewrite N. rewrite R_alt by (vm_compute; reflexivity).
  rewrite and_value by assumption. rewrite (expr_over k _ t rest r (where_ends_expr _ T) H). reflexivity.
Qed.
Lemma or_expr_reads w a b : cmp_ok a -> cmp_ok b ->
  reads (Rule "expr" 0) (conn_toks "OR_" w a b) [(""%string, Node "expr" [(""%string, conn_tree "or_expr" "OR_" w a b)])] (Some where_follow) where_ends.
Proof.
  intros A B k K [|t rest] r T H; [contradiction|]. cbn [heads] in T.
  change (conn_toks "OR_" w a b ++ t :: rest) with (idt (cm_col a) :: op_tok (cm_op a) :: (lit_toks (cm_lit a) ++ mkTok "OR_" w :: cmp_toks b) ++ t :: rest).
  apply expr_start; [exact K|apply A|]. cbn [denm].
  change (idt (cm_col a) :: op_tok (cm_op a) :: (lit_toks (cm_lit a) ++ mkTok "OR_" w :: cmp_toks b) ++ t :: rest) with (conn_toks "OR_" w a b ++ t :: rest).
  change cmp_alts with (Alt (Rule "comparison_expr" 0) (Alt (Rule "and_expr" 0) (Alt (Rule "or_expr" 0) (alts_from 3 cmp_alts)))).
  rewrite R_alt by (vm_compute; reflexivity).
  pose proof (cmp_then k (mkTok "OR_" w) (cmp_toks b ++ t :: rest) K (or_intror eq_refl) a A) as N.
  replace (cmp_toks a ++ mkTok "OR_" w :: cmp_toks b ++ t :: rest) with (conn_toks "OR_" w a b ++ t :: rest) in N by (unfold conn_toks; rewrite <- app_assoc; reflexivity).
  rewrite N. rewrite R_alt by (vm_compute; reflexivity).
  pose proof (and_not w a (cmp_toks b ++ t :: rest) (den k expr_frames) A) as N2.
  replace (cmp_toks a ++ mkTok "OR_" w :: cmp_toks b ++ t :: rest) with (conn_toks "OR_" w a b ++ t :: rest) in N2 by (unfold conn_toks; rewrite <- app_assoc; reflexivity).
  rewrite N2. rewrite R_alt by (vm_compute; reflexivity).
  rewrite or_value by assumption. rewrite (expr_over k _ t rest r (where_ends_expr _ T) H). reflexivity.
Qed.

(** the conditions of printed statements *)
Inductive cond := CCmp (a : cmp) | CAnd (w : string) (a b : cmp) | COr (w : string) (a b : cmp).
Definition cond_ok (c : cond) : Prop := match c with CCmp a => cmp_ok a | CAnd _ a b | COr _ a b => cmp_ok a /\ cmp_ok b end.
Definition cond_toks (c : cond) : list token :=
  match c with CCmp a => cmp_toks a | CAnd w a b => conn_toks "AND_" w a b | COr w a b => conn_toks "OR_" w a b end.
Definition cond_tree (c : cond) : tree :=
  Node "expr" [(""%string, match c with
                           | CCmp a => cmp_tree a
                           | CAnd w a b => conn_tree "and_expr" "AND_" w a b
                           | COr w a b => conn_tree "or_expr" "OR_" w a b
                           end)].
Lemma cond_reads c : cond_ok c -> reads (Rule "expr" 0) (cond_toks c) [(""%string, cond_tree c)] (Some where_follow) where_ends.
Proof.
  destruct c as [a|w a b|w a b]; intro O.
  - apply cmp_expr. exact O.
  - destruct O. apply and_expr_reads; assumption.
  - destruct O. apply or_expr_reads; assumption.
Qed.

Lemma heads_incl a b tl : incl a b -> heads a tl -> heads b tl.
Proof. destruct tl as [|t tl]; [auto|]. intros I H. exact (I _ H). Qed.
Lemma reads_incl g ts cs bot a b : incl a b -> reads g ts cs bot b -> reads g ts cs bot a.
Proof. intros I H k K tl r T. apply H; [exact K|]. exact (heads_incl _ _ _ I T). Qed.
Lemma reads_any g ts cs bot follow : reads g ts cs None follow -> reads g ts cs bot follow.
Proof. intros H k K. apply H. exact I. Qed.
