(** A parser that is used for one text after the other. *)
From Verif Require Import GoBase ModelUtil ModelNum ModelFn ModelQuery ModelEbnf ModelGrammar ModelLex ModelVisitor SpecParse SpecSession ProofParse.

Lemma listener_stays entries q : snd (parse_string entries false q) = false.
Proof.
  unfold parse_string. destruct (String.eqb q "" || String.eqb q ";"); [reflexivity|].
  destruct (parse_tree (token_stream q)) as [[|[l t] [|]]| |]; reflexivity.
Qed.
Lemma listener_after entries q : snd (parse_string entries true q) = false <-> parse entries q = Err ErrParse.
Proof.
  unfold parse, parse_string. destruct (String.eqb q "" || String.eqb q ";"); [split; discriminate|].
  destruct (parse_tree (token_stream q)) as [[|[l t] [|]]| |]; cbn [fst snd]; try (split; reflexivity).
  split; [discriminate|]. intro H. exfalso. exact (ne_parse entries _ _ H).
Qed.
Lemma fold_false entries texts : fold_left (fun clean q => snd (parse_string entries clean q)) texts false = false.
Proof. induction texts as [|q texts IH]; [reflexivity|]. cbn [fold_left]. rewrite listener_stays. exact IH. Qed.
Lemma after_false entries texts : after_texts entries texts = false <-> exists p, In p texts /\ parse entries p = Err ErrParse.
Proof.
  unfold after_texts. induction texts as [|q texts IH]; cbn [fold_left]; [split; [discriminate|intros (p & [] & _)]|].
  destruct (snd (parse_string entries true q)) eqn:E.
  - rewrite IH. split; intros (p & I & H); [exists p; split; [right; exact I|exact H]|].
    destruct I as [<-|I]; [apply listener_after in H; congruence|exists p; auto].
  - rewrite fold_false. apply listener_after in E. split; [intros _; exists q; split; [left; reflexivity|exact E]|reflexivity].
Qed.
Lemma reuse entries texts q : (forall p, In p texts -> parse entries p <> Err ErrParse) -> answer entries texts q = parse entries q.
Proof.
  intro H. unfold answer. destruct (after_texts entries texts) eqn:E; [reflexivity|]. apply after_false in E. destruct E as (p & I & X). destruct (H p I X).
Qed.
Lemma sticky entries texts p q : In p texts -> parse entries p = Err ErrParse -> q <> ""%string -> q <> ";"%string -> answer entries texts q = Err ErrParse.
Proof.
  intros I H A B. unfold answer. assert (E : after_texts entries texts = false) by (apply after_false; exists p; auto). rewrite E. unfold parse_string.
  destruct (String.eqb_spec q ""), (String.eqb_spec q ";"); try contradiction. cbn [orb].
  destruct (parse_tree (token_stream q)) as [[|[l t] [|]]| |]; reflexivity.
Qed.
