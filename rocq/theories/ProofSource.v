(** What a query reads from: joins, subqueries, set operations and WITH; aliases. *)
From Verif Require Import GoBase ModelUtil ModelNum ModelFn ModelQuery ModelEbnf ModelGrammar ModelLex ModelVisitor SpecRound SpecSelect SpecSpell SpecNone SpecSource
  FactsBase ProofFn ProofEbnf ProofMachine ProofLex ProofParse ProofRound ProofRound2 ProofRound3 ProofRound4 ProofRound5 ProofRound8 ProofRound10 ProofRound11 ProofRound13 ProofSelect2 ProofSpell ProofNone ProofNone3 ProofAlias.
Local Open Scope string_scope.
Local Open Scope list_scope.

Definition sel (c : string) := [kw ["SELECT"]; [PWord c]; kw ["FROM"]].
Definition sub (b u : string) := [open "SELECT"; [PWord b]; kw ["FROM"]; close u].
Ltac is_so ps := unfold subquery, opened, closed, in_parentheses, listed_name; cbn [app given]; is_read ps.
Ltac kws ws := let e := eval cbv [map] in (map (fun w => kw [w]) ws) in e.
Lemma join_read entries j c t u : In j joins -> plain c -> plain t -> plain u -> parse entries (line (["SELECT"; c; "FROM"; t] ++ j ++ [u])) = Ok [query [] c None].
Proof.
  intros J Pc Pt Pu. cbn [joins In] in J. repeat (destruct J as [<-|J]); [..|contradiction J].
  - is_so [kw ["SELECT"]; [PWord c]; kw ["FROM"]; [PWord t]; kw ["JOIN"]; [PWord u]].
  - is_so [kw ["SELECT"]; [PWord c]; kw ["FROM"]; [PWord t]; kw ["INNER"]; kw ["JOIN"]; [PWord u]].
  - is_so [kw ["SELECT"]; [PWord c]; kw ["FROM"]; [PWord t]; kw ["LEFT"]; kw ["JOIN"]; [PWord u]].
  - is_so [kw ["SELECT"]; [PWord c]; kw ["FROM"]; [PWord t]; kw ["LEFT"]; kw ["OUTER"]; kw ["JOIN"]; [PWord u]].
  - is_so [kw ["SELECT"]; [PWord c]; kw ["FROM"]; [PWord t]; kw ["CROSS"]; kw ["JOIN"]; [PWord u]].
  - is_so [kw ["SELECT"]; [PWord c]; kw ["FROM"]; [PWord t]; kw ["NATURAL"]; kw ["JOIN"]; [PWord u]].
Qed.
Lemma using_read entries j c t u x : In j joins -> plain c -> plain t -> plain u -> plain x -> parse entries (line (["SELECT"; c; "FROM"; t] ++ j ++ [u; "USING"; in_parentheses x])) = Ok [query [] c None].
Proof.
  intros J Pc Pt Pu Px. cbn [joins In] in J. repeat (destruct J as [<-|J]); [..|contradiction J].
  - is_so [kw ["SELECT"]; [PWord c]; kw ["FROM"]; [PWord t]; kw ["JOIN"]; [PWord u]; kw ["USING"]; both x].
  - is_so [kw ["SELECT"]; [PWord c]; kw ["FROM"]; [PWord t]; kw ["INNER"]; kw ["JOIN"]; [PWord u]; kw ["USING"]; both x].
  - is_so [kw ["SELECT"]; [PWord c]; kw ["FROM"]; [PWord t]; kw ["LEFT"]; kw ["JOIN"]; [PWord u]; kw ["USING"]; both x].
  - is_so [kw ["SELECT"]; [PWord c]; kw ["FROM"]; [PWord t]; kw ["LEFT"]; kw ["OUTER"]; kw ["JOIN"]; [PWord u]; kw ["USING"]; both x].
  - is_so [kw ["SELECT"]; [PWord c]; kw ["FROM"]; [PWord t]; kw ["CROSS"]; kw ["JOIN"]; [PWord u]; kw ["USING"]; both x].
  - is_so [kw ["SELECT"]; [PWord c]; kw ["FROM"]; [PWord t]; kw ["NATURAL"]; kw ["JOIN"]; [PWord u]; kw ["USING"]; both x].
Qed.
Lemma sourceless_read entries ws : sourceless ws -> exists c, parse entries (line ws) = Ok [query [] c None].
Proof.
  intros [j c t u J C U V|j c t u x J C U V X|c b u C B U|c b u v C B U V]; known; exists c.
  - apply join_read; assumption.
  - apply using_read; assumption.
  - is_so [kw ["SELECT"]; [PWord c]; kw ["FROM"]; open "SELECT"; [PWord b]; kw ["FROM"]; close u].
  - is_so [kw ["SELECT"]; [PWord c]; kw ["FROM"]; open "SELECT"; [PWord b]; kw ["FROM"]; close u; kw ["AS"]; [PWord v]].
Qed.
Lemma also_read entries c t b u : plain c -> plain t -> plain b -> plain u -> parse entries (line (["SELECT"; c; "FROM"; listed_name t] ++ subquery b u)) = Ok [query [t] c None].
Proof. intros Pc Pt Pb Pu. is_so [kw ["SELECT"]; [PWord c]; kw ["FROM"]; follow_on t; open "SELECT"; [PWord b]; kw ["FROM"]; close u]. Qed.
