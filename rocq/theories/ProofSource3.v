(** Names with an alias; modifiers of statements that change data. *)
From Verif Require Import GoBase ModelUtil ModelNum ModelFn ModelQuery ModelEbnf ModelGrammar ModelLex ModelVisitor SpecRound SpecSelect SpecSpell SpecNone SpecSource
  FactsBase ProofFn ProofEbnf ProofMachine ProofLex ProofParse ProofRound ProofRound2 ProofRound3 ProofRound4 ProofRound5 ProofRound8 ProofRound10 ProofRound11 ProofRound13 ProofSelect2 ProofSpell ProofNone ProofNone3 ProofAlias.
Local Open Scope string_scope.
Local Open Scope list_scope.

Ltac is_so ps := unfold subquery, opened, closed, in_parentheses, listed_name, insert_one, alias_words, restricted; cbn [app given]; is_read ps.
Ltac alias_is A := match type of A with alias_ok ?a => destruct a as [|?|?]; cbn [alias_ok] in A; [|apply any_is in A..] end.
Lemma alias_read entries c a t b : plain c -> alias_ok a -> plain t -> alias_ok b ->
  parse entries (line (["SELECT"; c] ++ alias_words a ++ ["FROM"; t] ++ alias_words b)) = Ok [query [glued t b] (glued c a) None].
Proof.
  intros Pc A Pt B. alias_is A; alias_is B.
  - is_so [kw ["SELECT"]; [PWord c]; kw ["FROM"]; [PWord t]].
  - is_so [kw ["SELECT"]; [PWord c]; kw ["FROM"]; [PWord t]; [PWord b]].
  - is_so [kw ["SELECT"]; [PWord c]; kw ["FROM"]; [PWord t]; kw ["AS"]; [PWord b]].
  - is_so [kw ["SELECT"]; [PWord c]; [PWord b0]; kw ["FROM"]; [PWord t]].
  - is_so [kw ["SELECT"]; [PWord c]; [PWord b0]; kw ["FROM"]; [PWord t]; [PWord b]].
  - is_so [kw ["SELECT"]; [PWord c]; [PWord b0]; kw ["FROM"]; [PWord t]; kw ["AS"]; [PWord b]].
  - is_so [kw ["SELECT"]; [PWord c]; kw ["AS"]; [PWord b0]; kw ["FROM"]; [PWord t]].
  - is_so [kw ["SELECT"]; [PWord c]; kw ["AS"]; [PWord b0]; kw ["FROM"]; [PWord t]; [PWord b]].
  - is_so [kw ["SELECT"]; [PWord c]; kw ["AS"]; [PWord b0]; kw ["FROM"]; [PWord t]; kw ["AS"]; [PWord b]].
Qed.
Lemma about_u entries t c v w : plain t -> plain c -> is_num v = true -> (forall x n, w = Some (x, n) -> plain x /\ is_num n = true) ->
  parse entries (line (["UPDATE"; t; "SET"; c; "="; v] ++ restricted w)) = Ok [set_number t c v (match w with Some (x, n) => number_is_text x n | None => None end)].
Proof.
  intros Pt Pc Nv W. destruct w as [[x n]|].
  - destruct (W x n eq_refl) as [Px Nn]. is_so [kw ["UPDATE"]; [PWord t]; kw ["SET"]; [PWord c]; opn "ASSIGN" "=" v; kw ["WHERE"]; [PWord x]; opn "ASSIGN" "=" n].
  - is_so [kw ["UPDATE"]; [PWord t]; kw ["SET"]; [PWord c]; opn "ASSIGN" "=" v].
Qed.
Lemma from_u entries t c v u w : plain t -> plain c -> is_num v = true -> plain u -> (forall x n, w = Some (x, n) -> plain x /\ is_num n = true) ->
  parse entries (line (["UPDATE"; t; "SET"; c; "="; v; "FROM"; u] ++ restricted w)) = Ok [set_number t c v (match w with Some (x, n) => number_is_text x n | None => None end)].
Proof.
  intros Pt Pc Nv Pu W. destruct w as [[x n]|].
  - destruct (W x n eq_refl) as [Px Nn]. is_so [kw ["UPDATE"]; [PWord t]; kw ["SET"]; [PWord c]; opn "ASSIGN" "=" v; kw ["FROM"]; [PWord u]; kw ["WHERE"]; [PWord x]; opn "ASSIGN" "=" n].
  - is_so [kw ["UPDATE"]; [PWord t]; kw ["SET"]; [PWord c]; opn "ASSIGN" "=" v; kw ["FROM"]; [PWord u]].
Qed.
Lemma returning_u entries t c v w z : plain t -> plain c -> is_num v = true -> (forall x n, w = Some (x, n) -> plain x /\ is_num n = true) -> plain z ->
  parse entries (line (["UPDATE"; t; "SET"; c; "="; v] ++ restricted w ++ ["RETURNING"; z])) = Ok [set_number t c v (match w with Some (x, n) => number_is_text x n | None => None end)].
Proof.
  intros Pt Pc Nv W Pz. destruct w as [[x n]|].
  - destruct (W x n eq_refl) as [Px Nn]. is_so [kw ["UPDATE"]; [PWord t]; kw ["SET"]; [PWord c]; opn "ASSIGN" "=" v; kw ["WHERE"]; [PWord x]; opn "ASSIGN" "=" n; kw ["RETURNING"]; [PWord z]].
  - is_so [kw ["UPDATE"]; [PWord t]; kw ["SET"]; [PWord c]; opn "ASSIGN" "=" v; kw ["RETURNING"]; [PWord z]].
Qed.
Lemma about_d entries t w : plain t -> (forall x n, w = Some (x, n) -> plain x /\ is_num n = true) ->
  parse entries (line (["DELETE"; "FROM"; t] ++ restricted w)) = Ok [SDelete (new_table t) (match w with Some (x, n) => number_is_text x n | None => None end)].
Proof.
  intros Pt W. destruct w as [[x n]|].
  - destruct (W x n eq_refl) as [Px Nn]. is_so [kw ["DELETE"]; kw ["FROM"]; [PWord t]; kw ["WHERE"]; [PWord x]; opn "ASSIGN" "=" n].
  - is_so [kw ["DELETE"]; kw ["FROM"]; [PWord t]].
Qed.
Lemma returning_d entries t w z : plain t -> (forall x n, w = Some (x, n) -> plain x /\ is_num n = true) -> plain z ->
  parse entries (line (["DELETE"; "FROM"; t] ++ restricted w ++ ["RETURNING"; z])) = Ok [SDelete (new_table t) (match w with Some (x, n) => number_is_text x n | None => None end)].
Proof.
  intros Pt W Pz. destruct w as [[x n]|].
  - destruct (W x n eq_refl) as [Px Nn]. is_so [kw ["DELETE"]; kw ["FROM"]; [PWord t]; kw ["WHERE"]; [PWord x]; opn "ASSIGN" "=" n; kw ["RETURNING"]; [PWord z]].
  - is_so [kw ["DELETE"]; kw ["FROM"]; [PWord t]; kw ["RETURNING"]; [PWord z]].
Qed.
Lemma or_u entries k t c v : In k ["REPLACE"; "ROLLBACK"; "ABORT"; "FAIL"; "IGNORE"] -> plain t -> plain c -> is_num v = true ->
  parse entries (line ["UPDATE"; "OR"; k; t; "SET"; c; "="; v]) = Ok [set_number t c v None].
Proof.
  intros K Pt Pc Nv. cbn [In] in K. repeat (destruct K as [<-|K]); [..|contradiction K].
  - is_so [kw ["UPDATE"]; kw ["OR"]; kw ["REPLACE"]; [PWord t]; kw ["SET"]; [PWord c]; opn "ASSIGN" "=" v].
  - is_so [kw ["UPDATE"]; kw ["OR"]; kw ["ROLLBACK"]; [PWord t]; kw ["SET"]; [PWord c]; opn "ASSIGN" "=" v].
  - is_so [kw ["UPDATE"]; kw ["OR"]; kw ["ABORT"]; [PWord t]; kw ["SET"]; [PWord c]; opn "ASSIGN" "=" v].
  - is_so [kw ["UPDATE"]; kw ["OR"]; kw ["FAIL"]; [PWord t]; kw ["SET"]; [PWord c]; opn "ASSIGN" "=" v].
  - is_so [kw ["UPDATE"]; kw ["OR"]; kw ["IGNORE"]; [PWord t]; kw ["SET"]; [PWord c]; opn "ASSIGN" "=" v].
Qed.
Definition insert_number (t c v : string) : stmt := SInsert (new_table (unescape_name_string t)) [[new_value_column c (mkLit (VStr v) UnknownLiteral)]].
Lemma insert_1 entries t c v : plain t -> plain c -> is_num v = true -> parse entries (line (insert_one t c v Unnamed)) = Ok [insert_number t c v].
Proof. intros Pt Pc Nv. is_so [kw ["INSERT"]; kw ["INTO"]; [PWord t]; both c; kw ["VALUES"]; bothn v]. Qed.
Lemma insert_2 entries t u c v : plain t -> plain u -> plain c -> is_num v = true -> parse entries (line (insert_one t c v (As u))) = Ok [insert_number t c v].
Proof. intros Pt Pu Pc Nv. is_so [kw ["INSERT"]; kw ["INTO"]; [PWord t]; kw ["AS"]; [PWord u]; both c; kw ["VALUES"]; bothn v]. Qed.
Lemma insert_3 entries t c v ws : plain t -> plain c -> is_num v = true -> after_insert ws -> parse entries (line (insert_one t c v Unnamed ++ ws)) = Ok [insert_number t c v].
Proof.
  intros Pt Pc Nv [|d D|e m E M|d e m D E M|z Z]; known.
  - is_so [kw ["INSERT"]; kw ["INTO"]; [PWord t]; both c; kw ["VALUES"]; bothn v; kw ["ON"]; kw ["CONFLICT"]; kw ["DO"]; kw ["NOTHING"]].
  - is_so [kw ["INSERT"]; kw ["INTO"]; [PWord t]; both c; kw ["VALUES"]; bothn v; kw ["ON"]; kw ["CONFLICT"]; both d; kw ["DO"]; kw ["NOTHING"]].
  - is_so [kw ["INSERT"]; kw ["INTO"]; [PWord t]; both c; kw ["VALUES"]; bothn v; kw ["ON"]; kw ["CONFLICT"]; kw ["DO"]; kw ["UPDATE"]; kw ["SET"]; [PWord e]; opn "ASSIGN" "=" m].
  - is_so [kw ["INSERT"]; kw ["INTO"]; [PWord t]; both c; kw ["VALUES"]; bothn v; kw ["ON"]; kw ["CONFLICT"]; both d; kw ["DO"]; kw ["UPDATE"]; kw ["SET"]; [PWord e]; opn "ASSIGN" "=" m].
  - is_so [kw ["INSERT"]; kw ["INTO"]; [PWord t]; both c; kw ["VALUES"]; bothn v; kw ["RETURNING"]; [PWord z]].
Qed.
Lemma restricted_is w : restricted_ok w -> forall x n, w = Some (x, n) -> plain x /\ is_num n = true.
Proof. intros W x n ->. destruct W as [X N]. known. split; assumption. Qed.
Lemma unheeded_read entries ws ws' : unheeded ws ws' -> exists s, parse entries (line ws) = Ok [s] /\ parse entries (line ws') = Ok [s].
Proof.
  intros [t c v q Ht C V A|t u c v Ht U C V|k t c v K Ht C V|t c v u w Ht C V U W|t c v w r Ht C V W R|t w r Ht W R]; known; eexists.
  - split; [apply insert_3|apply insert_1]; assumption.
  - split; [apply insert_2|apply insert_1]; assumption.
  - split; [apply or_u|exact (about_u entries t c v None Ht C V ltac:(discriminate))]; assumption.
  - split; [apply from_u|apply about_u]; try assumption; apply restricted_is, W.
  - split; [apply returning_u|apply about_u]; try assumption; apply restricted_is, W.
  - split; [apply returning_d|apply about_d]; try assumption; apply restricted_is, W.
Qed.
Definition no_columns (t : string) : stmt := SCreateTable (new_schema (unescape_name_string t) [] []) false.
Lemma create_as entries p t a u : In p [[]; ["TEMP"]; ["TEMPORARY"]] -> plain t -> plain a -> plain u -> parse entries (line (["CREATE"] ++ p ++ ["TABLE"; t; "AS"; "SELECT"; a; "FROM"; u])) = Ok [no_columns t].
Proof.
  intros K Pt Pa Pu. cbn [In] in K. repeat (destruct K as [<-|K]); [..|contradiction K].
  - is_so [kw ["CREATE"]; kw ["TABLE"]; [PWord t]; kw ["AS"]; kw ["SELECT"]; [PWord a]; kw ["FROM"]; [PWord u]].
  - is_so [kw ["CREATE"]; kw ["TEMP"]; kw ["TABLE"]; [PWord t]; kw ["AS"]; kw ["SELECT"]; [PWord a]; kw ["FROM"]; [PWord u]].
  - is_so [kw ["CREATE"]; kw ["TEMPORARY"]; kw ["TABLE"]; [PWord t]; kw ["AS"]; kw ["SELECT"]; [PWord a]; kw ["FROM"]; [PWord u]].
Qed.
