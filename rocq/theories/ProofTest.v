(** Tests other than comparisons in a WHERE clause: what the parser makes of them. *)
From Coq Require Import Lia Permutation.
From Verif Require Import GoBase ModelUtil ModelNum ModelFn ModelQuery ModelEbnf ModelGrammar ModelLex ModelVisitor
  SpecFn SpecQuery SpecParse SpecRound FactsBase ProofEbnf ProofMachine ProofFn ProofNum ProofQuery ProofParse ProofLex ProofRound ProofRound2 ProofRound3
  ProofRound4 ProofRound5 ProofRound6 ProofRound7 ProofRound8 ProofRound9 ProofRound10 ProofRound13.

(** ** Conditions inside other expressions *)

(** what may follow an expression inside another one *)
Definition inner_follow : list string :=
  ["COMMA"; "CLOSE_PAR"; "PIPE2"; "LT2"; "GT2"; "AMP"; "PIPE"; "EQ"; "IS_"; "IN_"; "LIKE_"; "GLOB_"; "MATCH_"; "REGEXP_"; "NOT_"; "BETWEEN_"; "COLLATE_"; "ISNULL_"; "NOTNULL_"] ++ where_follow.
Definition inner_ends : list string := "CLOSE_PAR"%string :: where_ends.
Definition frames_at (p : nat) : list frame := [FLeft "expr" (loop_of (rule "expr" p)); FRule "expr"].
Definition levels : list nat := [0; 19].

Ltac each_level P := unfold levels in P; cbn [In] in P; repeat (destruct P as [<-|P]; [|]); [..|contradiction P].
Lemma inner_start p k x o rest r : In p levels -> law (Some inner_follow) k -> In o (map snd cmp_kinds) ->
  denm k (MEval cmp_alts) (idt x :: op_tok o :: rest) (frames_at p) = Found r -> R (Rule "expr" p) (idt x :: op_tok o :: rest) k = Found r.
Proof.
  intros P K O H. enter. each_level P;
  (each_op O; unfold op_tok in *; cbn [fst snd] in *;
    (match goal with |- denm _ _ (?a :: ?b :: _) _ = _ => go (Some inner_follow) [a; b] 2 (AtAlt "comparison_expr") end; exact H)).
Qed.
Lemma inner_over p k cs t rest r : In p levels -> In (tk t) inner_ends -> k [(""%string, Node "expr" cs)] (t :: rest) = Found r -> den k (frames_at p) cs (t :: rest) = Found r.
Proof.
  intros P T H. apply enter_ret. destruct t as [kd tx]. cbn [tk] in T. unfold inner_ends, where_ends in T. cbn [In] in T.
  each_level P; each_kind T; (match goal with |- denm _ _ (?a :: _) _ = _ => go none [a] 1 AtEnd end; exact H).
Qed.
Lemma inner_cmp_then p k t rest : In p levels -> law (Some inner_follow) k -> tk t = "AND_"%string \/ tk t = "OR_"%string ->
  forall c, cmp_ok c -> R (Rule "comparison_expr" 0) (cmp_toks c ++ t :: rest) (den k (frames_at p)) = NotFound.
Proof.
  intros P K T c C. rewrite cmp_value by exact C.
  destruct t as [kd tx_]. cbn [tk] in T. each_level P; (destruct T as [->| ->];
  [apply (may_false k (Some inner_follow) K 2000 (MRet _) [mkTok "AND_" tx_] _)
  |apply (may_false k (Some inner_follow) K 2000 (MRet _) [mkTok "OR_" tx_] _)]; vm_compute; reflexivity).
Qed.
Lemma inner_cond p c : In p levels -> cond_ok c -> reads (Rule "expr" p) (cond_toks c) [(""%string, cond_tree c)] (Some inner_follow) inner_ends.
Proof.
  intros P C k K [|t rest] r T H; [contradiction|]. cbn [heads] in T. destruct c as [a|w a b|w a b]; cbn [cond_ok cond_toks] in *.
  - unfold cmp_toks. cbn [app]. apply inner_start; [exact P|exact K|apply C|]. cbn [denm].
    change cmp_alts with (Alt (Rule "comparison_expr" 0) (alts_from 1 cmp_alts)).
    rewrite R_alt by (vm_compute; reflexivity).
    pose proof (cmp_value a (t :: rest) (den k (frames_at p)) C) as V. unfold cmp_toks in V. cbn [app] in V. rewrite V.
    rewrite (inner_over p k _ t rest r P T H). reflexivity.
  - destruct C as [A B].
    change (conn_toks "AND_" w a b ++ t :: rest) with (idt (cm_col a) :: op_tok (cm_op a) :: (lit_toks (cm_lit a) ++ mkTok "AND_" w :: cmp_toks b) ++ t :: rest).
    apply inner_start; [exact P|exact K|apply A|]. cbn [denm].
    change (idt (cm_col a) :: op_tok (cm_op a) :: (lit_toks (cm_lit a) ++ mkTok "AND_" w :: cmp_toks b) ++ t :: rest) with (conn_toks "AND_" w a b ++ t :: rest).
    change cmp_alts with (Alt (Rule "comparison_expr" 0) (Alt (Rule "and_expr" 0) (alts_from 2 cmp_alts))).
    rewrite R_alt by (vm_compute; reflexivity).
    pose proof (inner_cmp_then p k (mkTok "AND_" w) (cmp_toks b ++ t :: rest) P K (or_introl eq_refl) a A) as N.
    replace (cmp_toks a ++ mkTok "AND_" w :: cmp_toks b ++ t :: rest) with (conn_toks "AND_" w a b ++ t :: rest) in N by (unfold conn_toks; rewrite <- app_assoc; reflexivity).
    rewrite N. rewrite R_alt by (vm_compute; reflexivity).
    rewrite and_value by assumption. rewrite (inner_over p k _ t rest r P T H). reflexivity.
  - destruct C as [A B].
    change (conn_toks "OR_" w a b ++ t :: rest) with (idt (cm_col a) :: op_tok (cm_op a) :: (lit_toks (cm_lit a) ++ mkTok "OR_" w :: cmp_toks b) ++ t :: rest).
    apply inner_start; [exact P|exact K|apply A|]. cbn [denm].
    change (idt (cm_col a) :: op_tok (cm_op a) :: (lit_toks (cm_lit a) ++ mkTok "OR_" w :: cmp_toks b) ++ t :: rest) with (conn_toks "OR_" w a b ++ t :: rest).
    change cmp_alts with (Alt (Rule "comparison_expr" 0) (Alt (Rule "and_expr" 0) (Alt (Rule "or_expr" 0) (alts_from 3 cmp_alts)))).
    rewrite R_alt by (vm_compute; reflexivity).
    pose proof (inner_cmp_then p k (mkTok "OR_" w) (cmp_toks b ++ t :: rest) P K (or_intror eq_refl) a A) as N.
    replace (cmp_toks a ++ mkTok "OR_" w :: cmp_toks b ++ t :: rest) with (conn_toks "OR_" w a b ++ t :: rest) in N by (unfold conn_toks; rewrite <- app_assoc; reflexivity).
    rewrite N. rewrite R_alt by (vm_compute; reflexivity).
    pose proof (and_not w a (cmp_toks b ++ t :: rest) (den k (frames_at p)) A) as N2.
    replace (cmp_toks a ++ mkTok "OR_" w :: cmp_toks b ++ t :: rest) with (conn_toks "OR_" w a b ++ t :: rest) in N2 by (unfold conn_toks; rewrite <- app_assoc; reflexivity).
    rewrite N2. rewrite R_alt by (vm_compute; reflexivity).
    rewrite or_value by assumption. rewrite (inner_over p k _ t rest r P T H). reflexivity.
Qed.

(** ** Tests *)

Inductive dtest :=
| DCond (c : cond) | DName (c : string) | DRel (c : string) (r : list (string * string)) (l : lit) | DNull (c : string) (r : list (string * string))
| DBetween (n : bool) (c : string) (l l' : lit) | DAmong (n : bool) (c : string) (l : lit) (ls : list lit) | DNot (c : cond) | DPar (d : dtest).
Definition rels : list (list (string * string)) :=
  [[("EQ", "==")]; [("IS_", "IS")]; [("IS_", "IS"); ("NOT_", "NOT")]; [("LIKE_", "LIKE")]; [("NOT_", "NOT"); ("LIKE_", "LIKE")];
   [("GLOB_", "GLOB")]; [("NOT_", "NOT"); ("GLOB_", "GLOB")]; [("REGEXP_", "REGEXP")]; [("NOT_", "NOT"); ("REGEXP_", "REGEXP")];
   [("MATCH_", "MATCH")]; [("NOT_", "NOT"); ("MATCH_", "MATCH")]]%string.
Definition nulls : list (list (string * string)) := [[("ISNULL_", "ISNULL")]; [("NOTNULL_", "NOTNULL")]; [("NOT_", "NOT"); ("NULL_", "NULL")]]%string.
Fixpoint dtest_ok (d : dtest) : Prop :=
  match d with
  | DCond c | DNot c => cond_ok c
  | DName _ => True
  | DRel _ r l => In r rels /\ lit_ok l
  | DNull _ r => In r nulls
  | DBetween _ _ l l' => lit_ok l /\ lit_ok l'
  | DAmong _ _ l ls => lit_ok l /\ Forall lit_ok ls
  | DPar d => dtest_ok d /\ match d with DPar _ => False | _ => True end
  end.
Definition not_ : token := mkTok "NOT_" "NOT".
Definition nots (n : bool) : list token := if n then [not_] else [].
Fixpoint dtest_toks (d : dtest) : list token :=
  match d with
  | DCond c => cond_toks c
  | DName c => [idt c]
  | DRel c r l => idt c :: map op_tok r ++ lit_toks l
  | DNull c r => idt c :: map op_tok r
  | DBetween n c l l' => idt c :: nots n ++ mkTok "BETWEEN_" "BETWEEN" :: lit_toks l ++ mkTok "AND_" "AND" :: lit_toks l'
  | DAmong n c l ls => idt c :: nots n ++ mkTok "IN_" "IN" :: open_ :: lit_toks l ++ clist lit_toks ls ++ [close_]
  | DNot c => not_ :: cond_toks c
  | DPar d => open_ :: dtest_toks d ++ [close_]
  end.
(** it is read as an expression in which the visitor finds nothing *)
Definition unseen (cs : children) : Prop := Forall (fun c => existsb (fun n => is_rule n (snd c)) ["and_expr"; "or_expr"; "comparison_expr"]%string = false) cs.
Definition read_away (ts : list token) : Prop :=
  exists cs, reads (Rule "expr" 0) ts [(""%string, Node "expr" cs)] (Some inner_follow) inner_ends /\ unseen cs.
Ltac see := repeat (apply Forall_cons; [reflexivity|]); apply Forall_nil.
Ltac ends T tl := let kd := fresh "kd" in let tx := fresh "tx" in destruct tl as [|[kd tx] tl]; [contradiction T|]; cbn [heads tk] in T; unfold inner_ends, where_ends in T; cbn [In] in T.
Ltac each_lit L := match type of L with lit_ok ?l => destruct l as [?|?|?|? ?]; [| | |cbn [lit_ok lit_words In] in L; each_kind L] end.
Lemma away_name c : read_away [idt c].
Proof.
  eexists. split.
  - intros k K tl r T H. ends T tl. cbn [app]. enter. each_kind T; (go_known (Some inner_follow) 1 AtEnd; exact H).
  - see.
Qed.
Ltac in_here := vm_compute; tauto.
Ltac each_of S H := unfold S in H; cbn [In] in H; each_kind H.
Lemma away_null c r : In r nulls -> read_away (dtest_toks (DNull c r)).
Proof.
  intro N. each_of nulls N; (eexists; split;
  [intros k K tl r T H; ends T tl; cbn [dtest_toks map op_tok fst snd app]; enter; each_kind T; (go_known (Some inner_follow) 1 AtEnd; exact H)
  |see]).
Qed.

(** a literal at a level of precedence *)
Definition lit_levels : list nat := [0; 6; 14; 19].
Lemma lit_over p k cs t rest r : In p lit_levels -> In (tk t) ("AND_" :: inner_ends)%string -> k [(""%string, Node "expr" cs)] (t :: rest) = Found r -> den k (frames_at p) cs (t :: rest) = Found r.
Proof.
  intros P T H. apply enter_ret. destruct t as [kd tx]. cbn [tk] in T. unfold inner_ends, where_ends in T. cbn [In] in T.
  each_of lit_levels P; each_kind T; (match goal with |- denm _ _ (?a :: _) _ = _ => go none [a] 1 AtEnd end; exact H).
Qed.
Lemma lit_level p l bot : In p lit_levels -> lit_ok l -> reads (Rule "expr" p) (lit_toks l) [(""%string, Node "expr" [(""%string, lit_tree l)])] bot ("AND_" :: inner_ends)%string.
Proof.
  intros P L k K [|t rest] r T H; [contradiction|]. cbn [heads] in T.
  assert (E : denm k (MEval (Rule "literal_value" 0)) (lit_toks l ++ t :: rest) (frames_at p) = Found r).
  { leave. rewrite lit_value by exact L. apply lit_over; assumption. }
  enter. each_of lit_levels P; each_lit L;
    match goal with |- denm _ _ (lit_toks ?l ++ _) _ = _ => let n := eval compute in (length (lit_toks l)) in go none (lit_toks l) n (AtRule "literal_value") end; exact E.
Qed.
Lemma lit_start l : lit_ok l -> exists kd tx ts, lit_toks l = mkTok kd tx :: ts /\ In kd ["NUMERIC_LITERAL"; "MINUS"; "STRING_LITERAL"; "NULL_"; "TRUE_"; "FALSE_"; "CURRENT_TIME_"; "CURRENT_DATE_"; "CURRENT_TIMESTAMP_"]%string.
Proof. intro L. each_lit L; eexists _, _, _; (split; [reflexivity|cbn [In]; tauto]). Qed.
(** on to the literal after the tokens ts *)
Ltac to_literal L ts :=
  match type of L with lit_ok ?l =>
  match goal with |- denm ?k ?m (_ ++ lit_toks l ++ ?rest) ?s = Found ?r =>
    match eval vm_compute in (exec (Some inner_follow) (at_place 1 (AtRule "expr")) 14 2000 5000 m (ts ++ [mkTok "NUMERIC_LITERAL" "1"]) s) with
    | Some (?m', _, ?s') =>
      let G := fresh "G" in assert (G : denm k m' (lit_toks l ++ rest) s' = Found r);
      [|let kd := fresh "kd" in let tx := fresh "tx" in let us := fresh "us" in let E := fresh "E" in let I := fresh "I" in
        destruct (lit_start l L) as (kd & tx & us & E & I); rewrite E in G |- *; cbn [app In] in *; each_kind I; (go_known (Some inner_follow) 1 (AtRule "expr"); exact G)]
    end
  end end.
(** NOT before a negative number is read as the name of a column *)
Lemma away_is_not c l : lit_ok l -> read_away (dtest_toks (DRel c [("IS_", "IS"); ("NOT_", "NOT")]%string l)).
Proof.
  intro L. each_lit L; (eexists; split;
  [intros k K tl r0 T H; ends T tl; cbn [dtest_toks map op_tok fst snd app lit_toks]; enter; each_kind T; (go_known (Some inner_follow) 1 AtEnd; exact H)
  |see]).
Qed.
Lemma away_rel c r l : In r rels -> lit_ok l -> read_away (dtest_toks (DRel c r l)).
Proof.
  intros N L. each_of rels N; lazymatch goal with |- context[("IS_"%string, _) :: _ :: _] => exact (away_is_not c l L) | _ => (eexists; split;
  [intros k K tl r0 T H; cbn [dtest_toks]; cbn [map op_tok fst snd]; enter;
   match goal with |- denm _ _ ((idt c :: ?ts ++ _) ++ _) _ = _ => change ((idt c :: ts ++ lit_toks l) ++ tl) with (((idt c :: ts) ++ lit_toks l) ++ tl); rewrite <- app_assoc; to_literal L (idt c :: ts) end;
   match goal with |- denm _ (MEval (Rule _ ?p)) _ _ = _ => by_reads (lit_level p l None ltac:(in_here) L) end; [apply (heads_incl inner_ends); [intros ? ?; right; assumption|exact T]|];
   ends T tl; each_kind T; (go_known (Some inner_follow) 1 AtEnd; subst; exact H)
  |see]) end.
Qed.
Lemma away_between n c l l' : lit_ok l -> lit_ok l' -> read_away (dtest_toks (DBetween n c l l')).
Proof.
  intros L L'. destruct n; (eexists; split;
  [intros k K tl r T H; cbn [dtest_toks nots app]; enter; cbn [app]; rewrite <- app_assoc; cbn [app];
   (match goal with |- denm _ _ ?ts _ = _ => match ts with
    | ?a :: ?b :: lit_toks _ ++ _ => change ts with ([a; b] ++ lit_toks l ++ mkTok "AND_" "AND" :: lit_toks l' ++ tl); to_literal L [a; b]
    | ?a :: ?b :: ?c :: lit_toks _ ++ _ => change ts with ([a; b; c] ++ lit_toks l ++ mkTok "AND_" "AND" :: lit_toks l' ++ tl); to_literal L [a; b; c]
    end end;
    match goal with |- denm _ (MEval (Rule _ ?p)) _ _ = _ => by_reads (lit_level p l None ltac:(in_here) L) end; [left; reflexivity|];
    change (mkTok "AND_" "AND" :: lit_toks l' ++ tl) with ([mkTok "AND_" "AND"] ++ lit_toks l' ++ tl); to_literal L' [mkTok "AND_" "AND"];
    match goal with |- denm _ (MEval (Rule _ ?p)) _ _ = _ => by_reads (lit_level p l' None ltac:(in_here) L') end; [apply (heads_incl inner_ends); [intros ? ?; right; assumption|exact T]|];
    ends T tl; each_kind T; (go_known (Some inner_follow) 1 AtEnd; subst; exact H))
  |see]).
Qed.
