(** Reading statements of given words, with parentheses. *)
From Verif Require Import GoBase ModelUtil ModelNum ModelFn ModelQuery ModelEbnf ModelGrammar ModelLex ModelVisitor SpecRound SpecSelect SpecSpell SpecNone SpecSource
  FactsBase ProofFn ProofEbnf ProofMachine ProofLex ProofParse ProofRound ProofRound2 ProofRound3 ProofRound4 ProofRound5 ProofRound8 ProofRound10 ProofRound11 ProofRound13 ProofSelect2 ProofSpell ProofNone ProofNone3.
Local Open Scope string_scope.
Local Open Scope list_scope.

(** an opening parenthesis before a word, a closing one after a name, and both *)
Definition open (w : string) : list piece := lp :: kw [w].
Definition openx (w : string) : list piece := [lp; PWord w].
Definition close (x : string) : list piece := [PWord x; rp].
Definition both (x : string) : list piece := [lp; PWord x; rp].
Lemma good_open w : is_word w = true -> good (open w).
Proof. intro W. apply good_lp, good_kw. cbn [forallb]. rewrite W. reflexivity. Qed.
Lemma good_openx w : plain w -> good (openx w).
Proof. intro W. apply good_lp, good_name, W. Qed.
Lemma good_close x : plain x -> good (close x).
Proof. intro P. apply (good_app_rp [PWord x] []); [apply good_name, P|apply good_nil]. Qed.
Lemma good_both x : plain x -> good (both x).
Proof. intro P. apply good_lp. exact (good_close x P). Qed.
Lemma shown_openx x : plain x -> shown (openx x) = [mkTok "OPEN_PAR" "("; idt x].
Proof. intro P. change (shown (openx x)) with (mkTok "OPEN_PAR" "(" :: shown [PWord x]). rewrite (shown_name x P). reflexivity. Qed.
Lemma shown_close x : plain x -> shown (close x) = [idt x; mkTok "CLOSE_PAR" ")"].
Proof. intro P. change (shown (close x)) with (shown [PWord x] ++ [mkTok "CLOSE_PAR" ")"]). rewrite (shown_name x P). reflexivity. Qed.
Lemma shown_both x : plain x -> shown (both x) = [mkTok "OPEN_PAR" "("; idt x; mkTok "CLOSE_PAR" ")"].
Proof. intro P. change (shown (both x)) with (mkTok "OPEN_PAR" "(" :: shown (close x)). rewrite (shown_close x P). reflexivity. Qed.
Lemma glue_open w : glue (open w) = ("(" ++ w)%string.
Proof. cbn. rewrite ?append_nil_r. reflexivity. Qed.
Lemma glue_openx w : glue (openx w) = ("(" ++ w)%string.
Proof. cbn. rewrite ?append_nil_r. reflexivity. Qed.
Lemma glue_close x : glue (close x) = (x ++ ")")%string.
Proof. reflexivity. Qed.
Definition follow_on (x : string) : list piece := [PWord x; cm].
Lemma good_follow_on x : plain x -> good (follow_on x).
Proof. intro P. apply (good_app_cm [PWord x] []); [apply good_name, P|apply good_nil]. Qed.
Lemma shown_follow_on x : plain x -> shown (follow_on x) = [idt x; mkTok "COMMA" ","].
Proof. intro P. change (shown (follow_on x)) with (shown [PWord x] ++ [mkTok "COMMA" ","]). rewrite (shown_name x P). reflexivity. Qed.
Lemma glue_follow_on x : glue (follow_on x) = (x ++ ",")%string.
Proof. reflexivity. Qed.
Lemma glue_both x : glue (both x) = ("(" ++ x ++ ")")%string.
Proof. reflexivity. Qed.
Definition closen (n : string) : list piece := [PNum n; rp].
Definition bothn (n : string) : list piece := [lp; PNum n; rp].
Lemma good_closen n : is_num n = true -> good (closen n).
Proof. intro N. apply (good_app_rp [PNum n] []); [apply good_num, N|apply good_nil]. Qed.
Lemma good_bothn n : is_num n = true -> good (bothn n).
Proof. intro N. apply good_lp. exact (good_closen n N). Qed.
Lemma glue_closen n : glue (closen n) = (n ++ ")")%string.
Proof. reflexivity. Qed.
Lemma glue_bothn n : glue (bothn n) = ("(" ++ n ++ ")")%string.
Proof. reflexivity. Qed.
Lemma shown_closen n : shown (closen n) = [mkTok "NUMERIC_LITERAL" n; mkTok "CLOSE_PAR" ")"].
Proof. reflexivity. Qed.
Lemma shown_bothn n : shown (bothn n) = [mkTok "OPEN_PAR" "("; mkTok "NUMERIC_LITERAL" n; mkTok "CLOSE_PAR" ")"].
Proof. reflexivity. Qed.
Definition opnc (k t n : string) : list piece := PSym k t :: sp :: closen n.
Lemma good_opnc k t n : ok_piece (PSym k t) = true -> is_num n = true -> good (opnc k t n).
Proof. intros O N. apply good_op; [exact O|apply good_closen, N]. Qed.
Lemma glue_opnc k t n : glue (opnc k t n) = (t ++ " " ++ n ++ ")")%string.
Proof. unfold opnc. rewrite glue_cons', glue_cons', glue_closen. reflexivity. Qed.
Ltac goods' := apply good_spaced; repeat match goal with
  | |- Forall good [] => apply Forall_nil
  | |- Forall good (_ :: _) => apply Forall_cons
  | |- good (kw _) => apply good_kw; vm_compute; reflexivity
  | |- good [PWord _] => apply good_name; assumption
  | |- good [PNum _] => apply good_num; assumption
  | |- good (open _) => apply good_open; reflexivity
  | |- good (openx _) => apply good_openx; assumption
  | |- good (close _) => apply good_close; assumption
  | |- good (both _) => apply good_both; assumption
  | |- good (follow_on _) => apply good_follow_on; assumption
  | |- good (closen _) => apply good_closen; assumption
  | |- good (bothn _) => apply good_bothn; assumption
  | |- good (opnc _ _ _) => apply good_opnc; [reflexivity|assumption]
  | |- good (opn _ _ _) => apply good_opn; [reflexivity|assumption]
  end.
Ltac shows' := rewrite shown_spaced; cbn [flat_map]; rewrite ?shown_app; show_words;
  repeat match goal with
  | P : plain ?x |- context[shown (openx ?x)] => rewrite (shown_openx x P)
  | P : plain ?x |- context[shown (close ?x)] => rewrite (shown_close x P)
  | P : plain ?x |- context[shown (follow_on ?x)] => rewrite (shown_follow_on x P)
  | P : plain ?x |- context[shown (both ?x)] => rewrite (shown_both x P)
  | |- context[shown (open ?w)] => let e := eval vm_compute in (shown (open w)) in change (shown (open w)) with e
  end; rewrite ?shown_closen, ?shown_bothn; repeat match goal with |- context[shown (opnc ?k ?t ?m)] => change (shown (opnc k t m)) with [mkTok k t; mkTok "NUMERIC_LITERAL" m; mkTok "CLOSE_PAR" ")"] end; numbers; rewrite ?app_nil_r; cbn [app].
Ltac simply' := split; [goods'|]; shows'; split; [not_end|]; eexists; split; [read_all|first [visits|cbn -[unescape_name_string unescape_string append]; rewrite ?append_nil_r, ?sapp_assoc; unescapes; reflexivity]].
Ltac text' := rewrite glue_spaced; cbn [map app given]; rewrite ?glue_schema, ?glue_open, ?glue_openx, ?glue_close, ?glue_both, ?glue_closen, ?glue_bothn, ?glue_opnc, ?glue_follow_on, ?glue_opn, ?glue_one; reflexivity.
Ltac is_read ps := match goal with |- parse ?e _ = Ok [?s] => exact (by_into e (Ok (Some s)) (spaced ps) _ ltac:(simply') ltac:(text')) end.

Definition query (ts : list string) (c : string) (w : condition) : stmt := SSelect (mkSelect (map new_table ts) [SelCol (new_column c)] w [] (mkLimit 0 0) "").

Definition number_is_text (x n : string) : condition := Some (ECmp OpEQ (new_column x) (Some (mkLit (VStr n) UnknownLiteral))).
Definition set_number (t c v : string) (w : condition) : stmt := SUpdate (new_table t) [new_value_column c (mkLit (VStr v) UnknownLiteral)] w.
Ltac known := repeat match goal with H : any_name _ |- _ => apply any_is in H | H : number _ |- _ => apply number_is in H end.
