(** Expressions as selectors; what else of a query is dropped. *)
From Verif Require Import GoBase ModelUtil ModelNum ModelFn ModelQuery ModelEbnf ModelGrammar ModelLex ModelVisitor SpecRound SpecSelect SpecSpell SpecNone SpecSource
  FactsBase ProofFn ProofEbnf ProofMachine ProofLex ProofParse ProofRound ProofRound2 ProofRound3 ProofRound4 ProofRound5 ProofRound8 ProofRound10 ProofRound11 ProofRound13 ProofSelect2 ProofSpell ProofNone ProofNone3 ProofAlias.
Local Open Scope string_scope.
Local Open Scope list_scope.

Ltac is_so ps := unfold subquery, opened, SpecSource.closed, in_parentheses, listed_name, insert_one, alias_words, restricted; cbn [app given]; is_read ps.
Lemma computed_read entries ws t : computed ws -> plain t -> parse entries (line ("SELECT" :: ws ++ ["FROM"; t])) = Ok [query [t] (String.concat "" ws) None].
Proof.
  intros [a A|a x A X|a n op b A Ho B|a n b A B|a ws1 A Ho|a b c A B C|a d A D|a b c d A B C D] Pt; known.
  - is_so [kw ["SELECT"]; kw ["NOT"]; [PWord a]; kw ["FROM"]; [PWord t]].
  - is_so [kw ["SELECT"]; [PWord a]; kw ["COLLATE"]; [PWord x]; kw ["FROM"]; [PWord t]].
  - cbn [In] in Ho. destruct n; (repeat (destruct Ho as [<-|Ho])); try contradiction Ho.
    + is_so [kw ["SELECT"]; [PWord a]; kw ["NOT"]; kw ["LIKE"]; [PWord b]; kw ["FROM"]; [PWord t]].
    + is_so [kw ["SELECT"]; [PWord a]; kw ["NOT"]; kw ["GLOB"]; [PWord b]; kw ["FROM"]; [PWord t]].
    + is_so [kw ["SELECT"]; [PWord a]; kw ["NOT"]; kw ["REGEXP"]; [PWord b]; kw ["FROM"]; [PWord t]].
    + is_so [kw ["SELECT"]; [PWord a]; kw ["NOT"]; kw ["MATCH"]; [PWord b]; kw ["FROM"]; [PWord t]].
    + is_so [kw ["SELECT"]; [PWord a]; kw ["LIKE"]; [PWord b]; kw ["FROM"]; [PWord t]].
    + is_so [kw ["SELECT"]; [PWord a]; kw ["GLOB"]; [PWord b]; kw ["FROM"]; [PWord t]].
    + is_so [kw ["SELECT"]; [PWord a]; kw ["REGEXP"]; [PWord b]; kw ["FROM"]; [PWord t]].
    + is_so [kw ["SELECT"]; [PWord a]; kw ["MATCH"]; [PWord b]; kw ["FROM"]; [PWord t]].
  - destruct n.
    + is_so [kw ["SELECT"]; [PWord a]; kw ["IS"]; kw ["NOT"]; [PWord b]; kw ["FROM"]; [PWord t]].
    + is_so [kw ["SELECT"]; [PWord a]; kw ["IS"]; [PWord b]; kw ["FROM"]; [PWord t]].
  - cbn [In] in Ho. repeat (destruct Ho as [<-|Ho]); [..|contradiction Ho].
    + is_so [kw ["SELECT"]; [PWord a]; kw ["IS"]; kw ["NULL"]; kw ["FROM"]; [PWord t]].
    + is_so [kw ["SELECT"]; [PWord a]; kw ["IS"]; kw ["NOT"]; kw ["NULL"]; kw ["FROM"]; [PWord t]].
    + is_so [kw ["SELECT"]; [PWord a]; kw ["ISNULL"]; kw ["FROM"]; [PWord t]].
    + is_so [kw ["SELECT"]; [PWord a]; kw ["NOTNULL"]; kw ["FROM"]; [PWord t]].
    + is_so [kw ["SELECT"]; [PWord a]; kw ["NOT"]; kw ["NULL"]; kw ["FROM"]; [PWord t]].
  - is_so [kw ["SELECT"]; [PWord a]; kw ["BETWEEN"]; [PWord b]; kw ["AND"]; [PWord c]; kw ["FROM"]; [PWord t]].
  - is_so [kw ["SELECT"]; kw ["CAST"]; openx a; kw ["AS"]; close d; kw ["FROM"]; [PWord t]].
  - is_so [kw ["SELECT"]; kw ["CASE"]; [PWord a]; kw ["WHEN"]; [PWord b]; kw ["THEN"]; [PWord c]; kw ["ELSE"]; [PWord d]; kw ["END"]; kw ["FROM"]; [PWord t]].
Qed.
Definition calls (f a t : string) : stmt := SSelect (mkSelect [new_table t] [SelFn (new_func f [a])] None [] (mkLimit 0 0) "").
Lemma call_1 entries f a t : plain f -> plain a -> plain t -> parse entries (line ["SELECT"; f; in_parentheses a; "FROM"; t]) = Ok [calls f a t].
Proof. intros Pf Pa Pt. is_so [kw ["SELECT"]; [PWord f]; both a; kw ["FROM"]; [PWord t]]. Qed.
Lemma call_2 entries f a t : plain f -> plain a -> plain t -> parse entries (line ["SELECT"; f; opened "DISTINCT"; SpecSource.closed a; "FROM"; t]) = Ok [calls f a t].
Proof. intros Pf Pa Pt. is_so [kw ["SELECT"]; [PWord f]; open "DISTINCT"; close a; kw ["FROM"]; [PWord t]]. Qed.
Lemma call_3 entries f a x n t : plain f -> plain a -> plain x -> is_num n = true -> plain t -> parse entries (line ["SELECT"; f; in_parentheses a; "FILTER"; opened "WHERE"; x; "="; SpecSource.closed n; "FROM"; t]) = Ok [calls f a t].
Proof. intros Pf Pa Px Nn Pt. is_so [kw ["SELECT"]; [PWord f]; both a; kw ["FILTER"]; open "WHERE"; [PWord x]; opnc "ASSIGN" "=" n; kw ["FROM"]; [PWord t]]. Qed.
Lemma call_4 entries f a w t : plain f -> plain a -> plain w -> plain t -> parse entries (line ["SELECT"; f; in_parentheses a; "OVER"; w; "FROM"; t]) = Ok [calls f a t].
Proof. intros Pf Pa Pw Pt. is_so [kw ["SELECT"]; [PWord f]; both a; kw ["OVER"]; [PWord w]; kw ["FROM"]; [PWord t]]. Qed.
Lemma call_5 entries f a b t : plain f -> plain a -> plain b -> plain t -> parse entries (line ["SELECT"; f; in_parentheses a; "AS"; b; "FROM"; t]) = Ok [calls f a t].
Proof. intros Pf Pa Pb Pt. is_so [kw ["SELECT"]; [PWord f]; both a; kw ["AS"]; [PWord b]; kw ["FROM"]; [PWord t]]. Qed.
Definition ordered_so (a t c d : string) : stmt := SSelect (mkSelect [new_table t] [SelCol (new_column a)] None [mkOrder c (if (d =? "ASC")%string then OrderAsc else OrderDesc)] (mkLimit 0 0) "").
Lemma nulls_1 entries a t c d n : plain a -> plain t -> plain c -> In d ["ASC"; "DESC"] -> In n [[]; ["NULLS"; "FIRST"]; ["NULLS"; "LAST"]] ->
  parse entries (line (["SELECT"; a; "FROM"; t; "ORDER"; "BY"; c; d] ++ n)) = Ok [ordered_so a t c d].
Proof.
  intros Pa Pt Pc D N. cbn [In] in D, N. repeat (destruct D as [<-|D]); [..|contradiction D]; (repeat (destruct N as [<-|N])); try contradiction N.
  - is_so [kw ["SELECT"]; [PWord a]; kw ["FROM"]; [PWord t]; kw ["ORDER"]; kw ["BY"]; [PWord c]; kw ["ASC"]].
  - is_so [kw ["SELECT"]; [PWord a]; kw ["FROM"]; [PWord t]; kw ["ORDER"]; kw ["BY"]; [PWord c]; kw ["ASC"]; kw ["NULLS"]; kw ["FIRST"]].
  - is_so [kw ["SELECT"]; [PWord a]; kw ["FROM"]; [PWord t]; kw ["ORDER"]; kw ["BY"]; [PWord c]; kw ["ASC"]; kw ["NULLS"]; kw ["LAST"]].
  - is_so [kw ["SELECT"]; [PWord a]; kw ["FROM"]; [PWord t]; kw ["ORDER"]; kw ["BY"]; [PWord c]; kw ["DESC"]].
  - is_so [kw ["SELECT"]; [PWord a]; kw ["FROM"]; [PWord t]; kw ["ORDER"]; kw ["BY"]; [PWord c]; kw ["DESC"]; kw ["NULLS"]; kw ["FIRST"]].
  - is_so [kw ["SELECT"]; [PWord a]; kw ["FROM"]; [PWord t]; kw ["ORDER"]; kw ["BY"]; [PWord c]; kw ["DESC"]; kw ["NULLS"]; kw ["LAST"]].
Qed.
Lemma overlooked_read entries ws ws' : overlooked ws ws' -> exists s, parse entries (line ws) = Ok [s] /\ parse entries (line ws') = Ok [s].
Proof.
  intros [f a t F A Ht|f a x n t F A X N Ht|f a w t F A W Ht|f a b t F A B Ht|a t o d n A Ht C D N]; known; eexists.
  - split; [apply call_2|apply call_1]; assumption.
  - split; [apply call_3|apply call_1]; assumption.
  - split; [apply call_4|apply call_1]; assumption.
  - split; [apply call_5|apply call_1]; assumption.
  - split; [apply (nulls_1 entries a t o d ["NULLS"; n]); try assumption|apply (nulls_1 entries a t o d [])]; try assumption; [|left; reflexivity].
    destruct N as [<-|[<-|[]]]; [right; left|right; right; left]; reflexivity.
Qed.
Lemma hint_read entries c t ws : plain c -> plain t -> hint ws -> parse entries (line (["SELECT"; c; "FROM"; t] ++ ws)) = Ok [query [String.concat "" (t :: ws)] c None].
Proof.
  intros Pc Pt [i I|]; known.
  - is_so [kw ["SELECT"]; [PWord c]; kw ["FROM"]; [PWord t]; kw ["INDEXED"]; kw ["BY"]; [PWord i]].
  - is_so [kw ["SELECT"]; [PWord c]; kw ["FROM"]; [PWord t]; kw ["NOT"]; kw ["INDEXED"]].
Qed.
Lemma alias_d entries t b : plain t -> plain b -> parse entries (line ["DELETE"; "FROM"; t; "AS"; b]) = Ok [SDelete (new_table (glued t (As b))) None].
Proof. intros Pt Pb. is_so [kw ["DELETE"]; kw ["FROM"]; [PWord t]; kw ["AS"]; [PWord b]]. Qed.
Lemma alias_u entries t b c v : plain t -> plain b -> plain c -> is_num v = true -> parse entries (line ["UPDATE"; t; "AS"; b; "SET"; c; "="; v]) = Ok [set_number (glued t (As b)) c v None].
Proof. intros Pt Pb Pc Nv. is_so [kw ["UPDATE"]; [PWord t]; kw ["AS"]; [PWord b]; kw ["SET"]; [PWord c]; opn "ASSIGN" "=" v]. Qed.
