(** What an INSERT is read as. *)
From Verif Require Import GoBase ModelUtil ModelNum ModelFn ModelQuery ModelEbnf ModelGrammar ModelLex ModelVisitor
  SpecRound FactsBase ProofFn ProofNum ProofQuery ProofLex ProofRound ProofRound2 ProofRound3 ProofRound4 ProofRound5 ProofRound6 ProofRound7 ProofRound8 ProofRound12 ProofRound13.

Lemma insert_text t c0 cs v0 vs : vals_ok v0 -> Forall vals_ok vs ->
  glue (insert_pieces t c0 cs v0 vs) = ("INSERT INTO " ++ t ++ " (" ++ join ", " (c0 :: cs) ++ ") VALUES "
    ++ join ", " (map (fun v => "(" ++ join ", " (map literal_string (fst v :: snd v)) ++ ")") (v0 :: vs)))%string.
Proof.
  intros V0 Vs. unfold insert_pieces. rewrite glue_spaced. cbn [map]. rewrite glue_par_names, glue_listed, glue_one.
  assert (E : map (fun x => glue (vals_pieces x)) (v0 :: vs) = map (fun v => "(" ++ join ", " (map literal_string (fst v :: snd v)) ++ ")")%string (v0 :: vs)).
  { apply map_ext_in. intros v I. apply glue_vals. destruct I as [<-|I]; [exact V0|exact (proj1 (Forall_forall _ _) Vs v I)]. }
  rewrite E. unfold join_with_comma. cbn [map ptext]. generalize (join ", " (c0 :: cs)). intro names.
  match goal with |- context[join ", " ?l] => generalize (join ", " l) end. intro rows.
  change (glue (kw ["INSERT"%string])) with "INSERT"%string. change (glue (kw ["INTO"%string])) with "INTO"%string. change (glue (kw ["VALUES"%string])) with "VALUES"%string.
  rewrite !join_cons. cbn [join append]. rewrite !sapp_assoc. cbn [append]. repeat (cbn [append]; rewrite ?sapp_assoc). reflexivity.
Qed.

Lemma insert_parse entries t cols rows : any_name t -> some any_name cols -> some (some literal_ok) rows ->
  parse entries ("INSERT INTO " ++ t ++ " (" ++ join ", " cols ++ ") VALUES "
                 ++ join ", " (map (fun r => "(" ++ join ", " (map literal_string r) ++ ")") rows))%string
  = Ok [SInsert (new_table (unescape_name_string t)) (map (fun r => map (fun p => new_value_column (fst p) (snd p)) (combine cols r)) rows)].
Proof.
  intros N C R. destruct (names_some cols C) as (c0 & cs & -> & C0 & Cs).
  destruct (as_map_some (fun v : vals => fst v :: snd v) (some literal_ok) vals_ok rows) with (2 := R) as (v0 & vs & -> & V0 & Vs).
  { intros r [Ne F]. destruct r as [|l r]; [contradiction|]. exists (l, r). split; [reflexivity|]. inversion F; subst. split; assumption. }
  rewrite !map_map. match goal with |- parse _ ?x = _ => replace x with (glue (insert_pieces t c0 cs v0 vs)); [|exact (insert_text t c0 cs v0 vs V0 Vs)] end.
  apply reads_parse. apply (insert_any entries t c0 cs v0 vs (any_is t N) C0 Cs). constructor; assumption.
Qed.
Lemma insert_bare entries t cols rows : bare_name t -> some any_name cols -> some (some literal_ok) rows ->
  parse entries ("INSERT INTO " ++ t ++ " (" ++ join ", " cols ++ ") VALUES "
                 ++ join ", " (map (fun r => "(" ++ join ", " (map literal_string r) ++ ")") rows))%string
  = Ok [SInsert (new_table t) (map (fun r => map (fun p => new_value_column (fst p) (snd p)) (combine cols r)) rows)].
Proof. intros N C R. rewrite (insert_parse entries t cols rows (or_introl N) C R), (proj2 (bare_is t N)). reflexivity. Qed.
