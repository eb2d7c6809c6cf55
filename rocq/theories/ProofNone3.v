(** UPDATE and DELETE with a LIMIT: accepted, and nothing is reported. *)
From Verif Require Import GoBase ModelUtil ModelNum ModelFn ModelQuery ModelEbnf ModelGrammar ModelLex ModelVisitor SpecRound SpecSelect SpecSpell SpecNone SpecType
  FactsBase ProofFn ProofEbnf ProofMachine ProofLex ProofParse ProofRound ProofRound2 ProofRound3 ProofRound4 ProofRound5 ProofRound8 ProofRound10 ProofRound11 ProofRound13 ProofSelect2 ProofSpell ProofSpell3 ProofNone.
Local Open Scope string_scope.
Local Open Scope list_scope.

Definition opn (k t v : string) : list piece := [PSym k t; sp; PNum v].
Lemma glue_opn k t x : glue (opn k t x) = (t ++ " " ++ x)%string.
Proof. unfold opn. rewrite glue_cons', glue_cons', glue_one. reflexivity. Qed.
Lemma good_opn k t x : ok_piece (PSym k t) = true -> is_num x = true -> good (opn k t x).
Proof. intros O X. apply good_op; [exact O|apply good_num; exact X]. Qed.
Ltac numbers := repeat match goal with
  | |- context[shown [PNum ?m]] => change (shown [PNum m]) with [mkTok "NUMERIC_LITERAL" m]
  | |- context[shown (opn ?k ?t ?m)] => change (shown (opn k t m)) with [mkTok k t; mkTok "NUMERIC_LITERAL" m]
  end; cbn [app].
Ltac quiet ps := eapply (by_into _ (Ok None) (spaced ps)); unfold dot;
  [split; [goods; solve [apply good_num; assumption|apply good_opn; [reflexivity|assumption]]|]; shows; numbers; split; [not_end|]; eexists; split; [read_all|vm_compute; reflexivity]
  |rewrite glue_spaced; cbn [map app given]; rewrite ?glue_schema, ?glue_opn, ?glue_one; reflexivity].
Lemma limited_none entries ws : limited ws -> parse entries (line ws) = Ok [].
Proof.
  intros [n m N M|n c v m N C V M|n c v m N C V M|n c v d w m N C V D W M]; repeat match goal with H : any_name _ |- _ => apply any_is in H | H : number _ |- _ => apply number_is in H end; obj N s x.
  - quiet [kw ["DELETE"]; kw ["FROM"]; [PWord n]; kw ["LIMIT"]; [PNum m]].
  - quiet [kw ["DELETE"]; kw ["FROM"]; dot s x; kw ["LIMIT"]; [PNum m]].
  - quiet [kw ["DELETE"]; kw ["FROM"]; [PWord n]; kw ["WHERE"]; [PWord c]; opn "ASSIGN" "=" v; kw ["LIMIT"]; [PNum m]].
  - quiet [kw ["DELETE"]; kw ["FROM"]; dot s x; kw ["WHERE"]; [PWord c]; opn "ASSIGN" "=" v; kw ["LIMIT"]; [PNum m]].
  - quiet [kw ["UPDATE"]; [PWord n]; kw ["SET"]; [PWord c]; opn "ASSIGN" "=" v; kw ["LIMIT"]; [PNum m]].
  - quiet [kw ["UPDATE"]; dot s x; kw ["SET"]; [PWord c]; opn "ASSIGN" "=" v; kw ["LIMIT"]; [PNum m]].
  - quiet [kw ["UPDATE"]; [PWord n]; kw ["SET"]; [PWord c]; opn "ASSIGN" "=" v; kw ["WHERE"]; [PWord d]; opn "ASSIGN" "=" w; kw ["LIMIT"]; [PNum m]].
  - quiet [kw ["UPDATE"]; dot s x; kw ["SET"]; [PWord c]; opn "ASSIGN" "=" v; kw ["WHERE"]; [PWord d]; opn "ASSIGN" "=" w; kw ["LIMIT"]; [PNum m]].
Qed.
