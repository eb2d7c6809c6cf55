(** Property C97: the clauses of a query come in their order, or it is refused. *)
From Coq Require Import Lia.
From Verif Require Import GoBase ModelUtil ModelNum ModelFn ModelQuery ModelEbnf ModelGrammar ModelLex ModelVisitor SpecRound SpecSelect SpecSpell SpecNone SpecSource
  FactsBase ProofFn ProofEbnf ProofMachine ProofLex ProofParse ProofRound ProofRound2 ProofRound3 ProofRound4 ProofRound5 ProofRound8 ProofRound10 ProofRound11 ProofRound13 ProofSelect2 ProofSpell ProofNone ProofNone3 ProofRefuse ProofRefuse2 ProofRefuse3 ProofWhere ProofQuery ProofAlias.
Local Open Scope string_scope.
Local Open Scope list_scope.

(** the clauses of a query, each given or not: a comparison of a column with a number, a column to group by, a column to order by with a
    direction (ASC is true) or without one, a number of rows *)
Record clauses := mkClauses { by_where : option (string * string); by_group : option string; by_order : option (string * option bool); by_limit : option string }.
Definition clause_words (q : clauses) : list string :=
  match by_where q with Some (c, n) => ["WHERE"; c; "="; n] | None => [] end
  ++ match by_group q with Some c => ["GROUP"; "BY"; c] | None => [] end
  ++ match by_order q with Some (c, d) => ["ORDER"; "BY"; c] ++ match d with Some true => ["ASC"] | Some false => ["DESC"] | None => [] end | None => [] end
  ++ match by_limit q with Some n => ["LIMIT"; n] | None => [] end.
Definition all {A} (P : A -> Prop) (o : option A) : Prop := match o with Some x => P x | None => True end.
Definition clauses_ok (q : clauses) : Prop :=
  all (fun p => any_name (fst p) /\ number (snd p)) (by_where q) /\ all any_name (by_group q) /\ all (fun p => any_name (fst p)) (by_order q) /\ all number (by_limit q).
(** the words with which a clause begins that is given already, or that has to come before one that is given *)
Definition too_late (q : clauses) (w : string) : Prop :=
  match by_limit q, by_order q, by_group q, by_where q with
  | Some _, _, _, _ => In w ["WHERE"; "GROUP"; "ORDER"; "LIMIT"]
  | None, Some _, _, _ => In w ["WHERE"; "GROUP"; "ORDER"]
  | None, None, Some _, _ => In w ["WHERE"; "GROUP"]
  | None, None, None, Some _ => In w ["WHERE"]
  | None, None, None, None => False
  end.

(** the same clauses as pieces of text and as kinds of tokens *)
Definition clause_pieces (q : clauses) : list (list piece) :=
  match by_where q with Some (c, n) => [kw ["WHERE"]; [PWord c]; opn "ASSIGN" "=" n] | None => [] end
  ++ match by_group q with Some c => [kw ["GROUP"]; kw ["BY"]; [PWord c]] | None => [] end
  ++ match by_order q with Some (c, d) => [kw ["ORDER"]; kw ["BY"]; [PWord c]] ++ match d with Some true => [kw ["ASC"]] | Some false => [kw ["DESC"]] | None => [] end | None => [] end
  ++ match by_limit q with Some n => [kw ["LIMIT"]; [PNum n]] | None => [] end.
Definition clause_kinds (q : clauses) : list (list string) :=
  map (fun k => [k]) (match by_where q with Some _ => ["WHERE_"; "IDENTIFIER"; "ASSIGN"; "NUMERIC_LITERAL"] | None => [] end
  ++ match by_group q with Some _ => ["GROUP_"; "BY_"; "IDENTIFIER"] | None => [] end
  ++ match by_order q with Some (_, d) => ["ORDER_"; "BY_"; "IDENTIFIER"] ++ match d with Some true => ["ASC_"] | Some false => ["DESC_"] | None => [] end | None => [] end
  ++ match by_limit q with Some _ => ["LIMIT_"; "NUMERIC_LITERAL"] | None => [] end).

Ltac refuse c t q w := match goal with |- parse ?e (line ?ws ++ " " ++ ?rest)%string = Err ErrParse =>
  let ps := eval cbn [clause_pieces by_where by_group by_order by_limit app] in ([kw ["SELECT"]; [PWord c]; kw ["FROM"]; [PWord t]] ++ clause_pieces q ++ [kw [w]]) in
  let ks := eval vm_compute in (map (fun k => [k]) ["SELECT_"; "IDENTIFIER"; "FROM_"; "IDENTIFIER"] ++ clause_kinds q ++ [[(w ++ "_")%string]]) in
  replace (line ws) with (glue (spaced ps)) by text';
  apply (mays_refused e ks (spaced ps) rest); [vm_compute; reflexivity|goods'|shows'; repeat (apply Forall2_cons; [left; reflexivity|]); apply Forall2_nil] end.

Lemma late_refused entries c t q w rest : plain c -> plain t -> clauses_ok q -> too_late q w ->
  parse entries (line (["SELECT"; c; "FROM"; t] ++ clause_words q ++ [w]) ++ " " ++ rest)%string = Err ErrParse.
Proof.
  intros Pc Pt C L. destruct q as [ow og oo ol]. unfold clauses_ok, all in C. cbn [by_where by_group by_order by_limit] in C. destruct C as (Cw & Cg & Co & Cl).
  assert (D : mkClauses ow og oo ol = mkClauses ow og oo ol) by reflexivity.
  destruct ow as [[x n]|]; [cbn [fst snd] in Cw; destruct Cw as [Cx Cn]|clear Cw];
  (destruct og as [g|]; [|clear Cg]); (destruct oo as [[y [[|]|]]|]; [cbn [fst] in Co..|clear Co]); (destruct ol as [m|]; [|clear Cl]);
  unfold too_late in L; cbn [by_where by_group by_order by_limit] in L; known;
  unfold clause_words; cbn [by_where by_group by_order by_limit app];
  try contradiction L.
  all: cbn [In] in L; repeat (destruct L as [<-|L]); try contradiction L.
  all: match goal with D : ?q = _ |- parse _ (line ?ws ++ _)%string = _ => let w := eval vm_compute in (last ws "") in refuse c t q w end.
Qed.

(** C97: when a clause of a query is given, another one of its kind, or one of a kind that comes before it, is refused, whatever is written
    after its first word. *)
Theorem C97_clauses_in_order : forall entries c t q w rest, any_name c -> any_name t -> clauses_ok q -> too_late q w ->
  parse entries (line (["SELECT"; c; "FROM"; t] ++ clause_words q ++ [w]) ++ " " ++ rest)%string = Err ErrParse.
Proof. intros entries c t q w rest C Ht. known. apply late_refused; assumption. Qed.
Print Assumptions C97_clauses_in_order.
Example C97_example : clauses_ok (mkClauses None None (Some ("b", Some false)) (Some "1")) /\ too_late (mkClauses None None (Some ("b", Some false)) (Some "1")) "WHERE"
  /\ line (["SELECT"; "a"; "FROM"; "t"] ++ clause_words (mkClauses None None (Some ("b", Some false)) (Some "1")) ++ ["WHERE"]) = "SELECT a FROM t ORDER BY b DESC LIMIT 1 WHERE"
  /\ parse data_type_strings "SELECT a FROM t WHERE a = 1 GROUP BY a ORDER BY b DESC LIMIT 1" <> Err ErrParse.
Proof.
  split; [|split; [left; reflexivity|split; [reflexivity|vm_compute; discriminate]]].
  split; [exact I|]. split; [exact I|]. split; [apply any_checked; vm_compute; reflexivity|].
  left. split; [discriminate|]. intros x [<-|[]]. unfold digit. cbn. lia.
Qed.

(** C43: a query with groups and an ordering prints the ordering first, and that is refused for all columns. *)
Theorem C43_every_group_order_refuted : forall entries t c d g, any_name t -> any_name c -> any_name d -> any_name g ->
  exists q, stmt_string (SSelect (mkSelect [new_table t] [SelCol (new_column c)] None [mkOrder d OrderAsc] (mkLimit 0 0) g)) = Ok q /\ parse entries q = Err ErrParse.
Proof.
  intros entries t c d g Ht C D G.
  exists (line (["SELECT"; c; "FROM"; t] ++ clause_words (mkClauses None None (Some (d, Some true)) None) ++ ["GROUP"]) ++ " " ++ "BY " ++ g)%string. split.
  - unfold stmt_string, select_string. cbn [sel_order_by sel_limit sel_group_by sel_where sel_selectors sel_tables has_conditions]. unfold group_by_string.
    pose proof (plain_nonempty g (any_is g G)) as L. destruct (String.length g) eqn:E; [discriminate|]. cbn [Nat.eqb].
    unfold tables_string. cbn [map]. rewrite full_name_of_name. repeat (progress (cbn; rewrite ?sapp_assoc)). reflexivity.
  - apply C97_clauses_in_order; [exact C|exact Ht| |right; left; reflexivity]. split; [exact I|]. split; [exact I|]. split; [exact D|exact I].
Qed.
Print Assumptions C43_every_group_order_refuted.
