(** C44, continued: what stands before the first statement of any text. *)
From Verif Require Import GoBase ModelFn ModelQuery ModelLex ModelVisitor SpecRound SpecBatch ProofLead.

(** Blanks and semicolons before a text that begins with a word mean nothing: the text is read, or
    refused, as it is without them, whatever follows its first word. *)
Theorem C44_leading : forall entries lead w rest, gap lead -> word w ->
  parse entries (lead ++ w ++ " " ++ rest) = parse entries (w ++ " " ++ rest).
Proof. exact lead_same. Qed.
Print Assumptions C44_leading.

Example C44_leading_example : gap " ;; " /\ word "TRUNCATE"
  /\ parse [] " ;; TRUNCATE TABLE t" = parse [] "TRUNCATE TABLE t" /\ parse [] ";oops a" = parse [] "oops a".
Proof.
  assert (G : gap " ;; " /\ gap ";").
  { split; intros c I; cbn in I; repeat (destruct I as [<-|I]; [first [right; reflexivity|left; cbn; auto]|]); destruct I. }
  assert (W : forall w, In w ["TRUNCATE"; "oops"] -> word w).
  { intros w H. cbn [In] in H. unfold word, letter, digit, chars.
    repeat (destruct H as [<-|H]; [do 2 eexists; split; [reflexivity|]; split; [vm_compute; lia|]; intros c H; cbn in H; repeat (destruct H as [<-|H]; [vm_compute; lia|]); contradiction|]). contradiction. }
  assert (T : word "TRUNCATE") by (apply W; cbn; tauto). assert (O : word "oops") by (apply W; cbn; tauto).
  split; [apply G|]. split; [exact T|].
  pose proof (C44_leading [] " ;; " "TRUNCATE" "TABLE t" (proj1 G) T) as A. pose proof (C44_leading [] ";" "oops" "a" (proj2 G) O) as B.
  cbn [append] in A, B. split; assumption.
Qed.
