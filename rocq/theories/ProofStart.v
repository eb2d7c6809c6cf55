(** Texts that do not begin like a statement. *)
From Verif Require Import GoBase ModelFn ModelEbnf ModelGrammar ModelLex ModelVisitor SpecRound SpecStart ProofEbnf ProofMachine ProofLex ProofRound ProofRound2
  ProofRound3 ProofRound4 ProofTest5 ProofTable3 ProofFn ProofRefuse2.
Local Open Scope string_scope.
Local Open Scope list_scope.

(** the kinds of the words that are not among some *)
Definition others_of (lits : list (string * string)) (ws : list string) : list string :=
  "IDENTIFIER" :: map fst (filter (fun p => is_word (snd p) && negb (existsb (String.eqb (snd p)) ws)) lits).
Definition others := others_of literal_tokens.
Lemma others_in lits w ws : is_word w = true -> ~ In w ws ->
  In (match find (fun p => String.eqb (snd p) w) lits with Some p => fst p | None => "IDENTIFIER" end) (others_of lits ws).
Proof.
  intros W N. destruct (find _ _) as [p|] eqn:F; [|left; reflexivity]. apply find_some in F. destruct F as [I E]. apply String.eqb_eq in E.
  right. apply in_map, filter_In. split; [exact I|]. rewrite E, W. cbn [andb]. destruct (existsb (String.eqb w) ws) eqn:X; [|reflexivity].
  apply existsb_exists in X. destruct X as (y & Y & Z). apply String.eqb_eq in Z. exfalso. apply N. rewrite Z. exact Y.
Qed.
Lemma word_upper w : is_word w = true -> is_word (to_upper w) = true.
Proof.
  destruct w as [|c w]; [discriminate|]. cbn [to_upper smap is_word]. intro H. apply andb_prop in H. destruct H as [A B]. rewrite ident_start_upper, A. cbn [andb].
  clear A. unfold all_chars in *. revert B. induction w as [|d w IH]; [reflexivity|].
  cbn [smap list_ascii_of_string forallb]. rewrite ident_char_upper. intro B. apply andb_prop in B. destruct B as [B C]. rewrite B. exact (IH C).
Qed.
Lemma kind_others w ws : is_word w = true -> ~ In (to_upper w) ws -> In (kind_of_word w) (others ws).
Proof. intro W. exact (others_in literal_tokens (to_upper w) ws (word_upper w W)). Qed.
Lemma kind_same w u : to_upper w = u -> to_upper u = u -> kind_of_word w = kind_of_word u.
Proof. unfold kind_of_word. intros <- ->. reflexivity. Qed.

Lemma first_refused entries w rest : word w -> ~ In (to_upper w) first_words -> parse entries (w ++ " " ++ rest) = Err ErrParse.
Proof.
  intros W N. pose proof (mays_refused entries [others first_words] [PWord w] rest ltac:(vm_compute; reflexivity) (good_word w (word_is w W))) as P.
  rewrite glue_one in P. apply P. apply Forall2_cons; [|constructor]. exact (kind_others w first_words (word_is w W) N).
Qed.
Lemma second_refused entries w x rest ws : word w -> word x -> In (to_upper w, ws) second_words -> ~ In (to_upper x) ws ->
  parse entries (w ++ " " ++ x ++ " " ++ rest) = Err ErrParse.
Proof.
  intros W X I N. apply word_is in W, X.
  assert (M : forallb (fun p => negb (mays None 5000 (MEval (Rule "parse" 0)) [[kind_of_word (fst p)]; others (snd p)] [])
    && String.eqb (to_upper (fst p)) (fst p)) second_words = true) by (vm_compute; reflexivity).
  rewrite forallb_forall in M. apply M in I. clear M. cbn [fst snd] in I. apply andb_prop in I. destruct I as [M U]. apply String.eqb_eq in U. apply negb_true_iff in M.
  pose proof (mays_refused entries _ ([PWord w] ++ sp :: [PWord x]) rest M (good_app_sp _ _ (good_word w W) (good_word x X))) as P.
  rewrite glue_app, glue_one, glue_cons', glue_one, !sapp_assoc in P. apply P.
  apply Forall2_cons; [left; symmetry; apply kind_same; [reflexivity|exact U]|]. apply Forall2_cons; [|constructor]. exact (kind_others x ws X N).
Qed.
