(** Statements of which a part is dropped: conditions on other queries, WITH, set operations. *)
From Verif Require Import GoBase ModelUtil ModelNum ModelFn ModelQuery ModelEbnf ModelGrammar ModelLex ModelVisitor SpecRound SpecSelect SpecSpell SpecNone SpecSource
  FactsBase ProofFn ProofEbnf ProofMachine ProofLex ProofParse ProofRound ProofRound2 ProofRound3 ProofRound4 ProofRound5 ProofRound8 ProofRound10 ProofRound11 ProofRound13 ProofSelect2 ProofSpell ProofNone ProofNone3 ProofAlias ProofSource.
Local Open Scope string_scope.
Local Open Scope list_scope.

Lemma about_1 entries t c : plain c -> plain t -> parse entries (line ["SELECT"; c; "FROM"; t]) = Ok [query [t] c None].
Proof. intros Pc Pt. is_so [kw ["SELECT"]; [PWord c]; kw ["FROM"]; [PWord t]]. Qed.
Lemma about_2 entries t : plain t -> parse entries (line ["DELETE"; "FROM"; t]) = Ok [SDelete (new_table t) None].
Proof. intros Pt. is_so [kw ["DELETE"]; kw ["FROM"]; [PWord t]]. Qed.
Lemma about_3 entries t c v : plain t -> plain c -> is_num v = true -> parse entries (line ["UPDATE"; t; "SET"; c; "="; v]) = Ok [set_number t c v None].
Proof. intros Pt Pc Nv. is_so [kw ["UPDATE"]; [PWord t]; kw ["SET"]; [PWord c]; opn "ASSIGN" "=" v]. Qed.

Lemma with_1 entries w a t c : plain w -> plain a -> plain t -> plain c -> parse entries (line (["WITH"; w; "AS"] ++ subquery a t ++ ["SELECT"; c; "FROM"; w])) = Ok [query [w] c None].
Proof. intros Pw Pa Pt Pc. is_so [kw ["WITH"]; [PWord w]; kw ["AS"]; open "SELECT"; [PWord a]; kw ["FROM"]; close t; kw ["SELECT"]; [PWord c]; kw ["FROM"]; [PWord w]]. Qed.
Lemma with_2 entries w a t : plain w -> plain a -> plain t -> parse entries (line (["WITH"; w; "AS"] ++ subquery a t ++ ["DELETE"; "FROM"; w])) = Ok [SDelete (new_table w) None].
Proof. intros Pw Pa Pt. is_so [kw ["WITH"]; [PWord w]; kw ["AS"]; open "SELECT"; [PWord a]; kw ["FROM"]; close t; kw ["DELETE"]; kw ["FROM"]; [PWord w]]. Qed.
Lemma with_3 entries w a t c v : plain w -> plain a -> plain t -> plain c -> is_num v = true -> parse entries (line (["WITH"; w; "AS"] ++ subquery a t ++ ["UPDATE"; w; "SET"; c; "="; v])) = Ok [set_number w c v None].
Proof. intros Pw Pa Pt Pc Nv. is_so [kw ["WITH"]; [PWord w]; kw ["AS"]; open "SELECT"; [PWord a]; kw ["FROM"]; close t; kw ["UPDATE"]; [PWord w]; kw ["SET"]; [PWord c]; opn "ASSIGN" "=" v]. Qed.

Lemma test_1 entries n t c x b u : plain t -> plain c -> plain x -> plain b -> plain u ->
  parse entries (line (["SELECT"; c; "FROM"; t] ++ "WHERE" :: x :: given n "NOT" ++ "IN" :: subquery b u)) = Ok [query [t] c None].
Proof.
  intros Pt Pc Px Pb Pu; destruct n.
  - is_so [kw ["SELECT"]; [PWord c]; kw ["FROM"]; [PWord t]; kw ["WHERE"]; [PWord x]; kw ["NOT"]; kw ["IN"]; open "SELECT"; [PWord b]; kw ["FROM"]; close u].
  - is_so [kw ["SELECT"]; [PWord c]; kw ["FROM"]; [PWord t]; kw ["WHERE"]; [PWord x]; kw ["IN"]; open "SELECT"; [PWord b]; kw ["FROM"]; close u].
Qed.
Lemma test_2 entries n t x b u : plain t -> plain x -> plain b -> plain u ->
  parse entries (line (["DELETE"; "FROM"; t] ++ "WHERE" :: x :: given n "NOT" ++ "IN" :: subquery b u)) = Ok [SDelete (new_table t) None].
Proof.
  intros Pt Px Pb Pu; destruct n.
  - is_so [kw ["DELETE"]; kw ["FROM"]; [PWord t]; kw ["WHERE"]; [PWord x]; kw ["NOT"]; kw ["IN"]; open "SELECT"; [PWord b]; kw ["FROM"]; close u].
  - is_so [kw ["DELETE"]; kw ["FROM"]; [PWord t]; kw ["WHERE"]; [PWord x]; kw ["IN"]; open "SELECT"; [PWord b]; kw ["FROM"]; close u].
Qed.
Lemma test_3 entries n t c v x b u : plain t -> plain c -> is_num v = true -> plain x -> plain b -> plain u ->
  parse entries (line (["UPDATE"; t; "SET"; c; "="; v] ++ "WHERE" :: x :: given n "NOT" ++ "IN" :: subquery b u)) = Ok [set_number t c v None].
Proof.
  intros Pt Pc Nv Px Pb Pu; destruct n.
  - is_so [kw ["UPDATE"]; [PWord t]; kw ["SET"]; [PWord c]; opn "ASSIGN" "=" v; kw ["WHERE"]; [PWord x]; kw ["NOT"]; kw ["IN"]; open "SELECT"; [PWord b]; kw ["FROM"]; close u].
  - is_so [kw ["UPDATE"]; [PWord t]; kw ["SET"]; [PWord c]; opn "ASSIGN" "=" v; kw ["WHERE"]; [PWord x]; kw ["IN"]; open "SELECT"; [PWord b]; kw ["FROM"]; close u].
Qed.
Lemma test_4 entries n t c b u : plain t -> plain c -> plain b -> plain u ->
  parse entries (line (["SELECT"; c; "FROM"; t] ++ "WHERE" :: given n "NOT" ++ "EXISTS" :: subquery b u)) = Ok [query [t] c None].
Proof.
  intros Pt Pc Pb Pu; destruct n.
  - is_so [kw ["SELECT"]; [PWord c]; kw ["FROM"]; [PWord t]; kw ["WHERE"]; kw ["NOT"]; kw ["EXISTS"]; open "SELECT"; [PWord b]; kw ["FROM"]; close u].
  - is_so [kw ["SELECT"]; [PWord c]; kw ["FROM"]; [PWord t]; kw ["WHERE"]; kw ["EXISTS"]; open "SELECT"; [PWord b]; kw ["FROM"]; close u].
Qed.
Lemma test_5 entries n t b u : plain t -> plain b -> plain u ->
  parse entries (line (["DELETE"; "FROM"; t] ++ "WHERE" :: given n "NOT" ++ "EXISTS" :: subquery b u)) = Ok [SDelete (new_table t) None].
Proof.
  intros Pt Pb Pu; destruct n.
  - is_so [kw ["DELETE"]; kw ["FROM"]; [PWord t]; kw ["WHERE"]; kw ["NOT"]; kw ["EXISTS"]; open "SELECT"; [PWord b]; kw ["FROM"]; close u].
  - is_so [kw ["DELETE"]; kw ["FROM"]; [PWord t]; kw ["WHERE"]; kw ["EXISTS"]; open "SELECT"; [PWord b]; kw ["FROM"]; close u].
Qed.
Lemma test_6 entries n t c v b u : plain t -> plain c -> is_num v = true -> plain b -> plain u ->
  parse entries (line (["UPDATE"; t; "SET"; c; "="; v] ++ "WHERE" :: given n "NOT" ++ "EXISTS" :: subquery b u)) = Ok [set_number t c v None].
Proof.
  intros Pt Pc Nv Pb Pu; destruct n.
  - is_so [kw ["UPDATE"]; [PWord t]; kw ["SET"]; [PWord c]; opn "ASSIGN" "=" v; kw ["WHERE"]; kw ["NOT"]; kw ["EXISTS"]; open "SELECT"; [PWord b]; kw ["FROM"]; close u].
  - is_so [kw ["UPDATE"]; [PWord t]; kw ["SET"]; [PWord c]; opn "ASSIGN" "=" v; kw ["WHERE"]; kw ["EXISTS"]; open "SELECT"; [PWord b]; kw ["FROM"]; close u].
Qed.
Lemma set_0 entries a t x n : plain a -> plain t -> plain x -> is_num n = true ->
  parse entries (line ["SELECT"; a; "FROM"; t; "WHERE"; x; "="; n]) = Ok [query [t] a (number_is_text x n)].
Proof. intros Pa Pt Px Nn. is_so [kw ["SELECT"]; [PWord a]; kw ["FROM"]; [PWord t]; kw ["WHERE"]; [PWord x]; opn "ASSIGN" "=" n]. Qed.
Lemma set_1 entries o a t x n b u : In o set_operations -> plain a -> plain t -> plain x -> is_num n = true -> plain b -> plain u ->
  parse entries (line (["SELECT"; a; "FROM"; t; "WHERE"; x; "="; n] ++ o ++ ["SELECT"; b; "FROM"; u])) = Ok [query [t] a (number_is_text x n)].
Proof.
  intros Ho Pa Pt Px Nn Pb Pu. cbn [set_operations In] in Ho. repeat (destruct Ho as [<-|Ho]); [..|contradiction Ho].
  - is_so [kw ["SELECT"]; [PWord a]; kw ["FROM"]; [PWord t]; kw ["WHERE"]; [PWord x]; opn "ASSIGN" "=" n; kw ["UNION"]; kw ["SELECT"]; [PWord b]; kw ["FROM"]; [PWord u]].
  - is_so [kw ["SELECT"]; [PWord a]; kw ["FROM"]; [PWord t]; kw ["WHERE"]; [PWord x]; opn "ASSIGN" "=" n; kw ["UNION"]; kw ["ALL"]; kw ["SELECT"]; [PWord b]; kw ["FROM"]; [PWord u]].
  - is_so [kw ["SELECT"]; [PWord a]; kw ["FROM"]; [PWord t]; kw ["WHERE"]; [PWord x]; opn "ASSIGN" "=" n; kw ["INTERSECT"]; kw ["SELECT"]; [PWord b]; kw ["FROM"]; [PWord u]].
  - is_so [kw ["SELECT"]; [PWord a]; kw ["FROM"]; [PWord t]; kw ["WHERE"]; [PWord x]; opn "ASSIGN" "=" n; kw ["EXCEPT"]; kw ["SELECT"]; [PWord b]; kw ["FROM"]; [PWord u]].
Qed.
Lemma set_2 entries a t b u : plain a -> plain t -> plain b -> plain u ->
  parse entries (line (["SELECT"; a; "FROM"; t] ++ ["UNION"; "ALL"] ++ ["SELECT"; b; "FROM"; u])) = Ok [query [t] a None].
Proof. intros Pa Pt Pb Pu. is_so [kw ["SELECT"]; [PWord a]; kw ["FROM"]; [PWord t]; kw ["UNION"]; kw ["ALL"]; kw ["SELECT"]; [PWord b]; kw ["FROM"]; [PWord u]]. Qed.

Lemma narrowed_read entries ws ws' : narrowed ws ws' -> exists s, parse entries (line ws) = Ok [s] /\ parse entries (line ws') = Ok [s].
Proof.
  intros [t ws1 q Ht A Q|w a t ws1 W A Ht Ab|o a t x n b u Ho A Ht X N B U|a t b u A Ht B U|c t b u C Ht B U].
  - destruct Q as [n x b u X B U|n b u B U]; destruct A as [t c C|t|t c v C V]; known; eexists.
    + split; [apply test_1|apply about_1]; assumption.
    + split; [apply test_2|apply about_2]; assumption.
    + split; [apply test_3|apply about_3]; assumption.
    + split; [apply test_4|apply about_1]; assumption.
    + split; [apply test_5|apply about_2]; assumption.
    + split; [apply test_6|apply about_3]; assumption.
  - destruct Ab as [w c C|w|w c v C V]; known; eexists.
    + split; [apply with_1|apply about_1]; assumption.
    + split; [apply with_2|apply about_2]; assumption.
    + split; [apply with_3|apply about_3]; assumption.
  - known. eexists. split; [apply set_1|apply set_0]; assumption.
  - known. eexists. split; [apply set_2|apply about_1]; assumption.
  - known. eexists. split; [apply also_read|apply about_1]; assumption.
Qed.
