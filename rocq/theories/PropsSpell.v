(** C88: the optional words of statements; C74: schemas in quotes. *)
From Coq Require Import Lia.
From Verif Require Import GoBase ModelFn ModelQuery ModelVisitor SpecRound SpecSelect SpecQuoted SpecSpell ProofRound3 ProofQuoted ProofWhere ProofSpell ProofSpell2 ProofSpell3 ProofExplain.
Local Open Scope string_scope.
Local Open Scope list_scope.

(** With or without the words that can be left out, the statement is the same. *)
Theorem C88_spelled_partial : forall entries ws s, spelling ws s -> parse entries (line ws) = Ok [s].
Proof. exact spelled. Qed.
Print Assumptions C88_spelled_partial.

(** These words do matter, but the statement read is the one without them, and there is no error. *)
Theorem C88_lost_refuted : forall entries ws vs, lost ws vs ->
  exists s, parse entries (line ws) = Ok [s] /\ parse entries (line vs) = Ok [s].
Proof. intros entries ws vs L. destruct (losing entries ws vs L) as [A (s & B)]. exists s. rewrite A. split; exact B. Qed.
Print Assumptions C88_lost_refuted.

Lemma as_written entries a b r r' : parse entries a = r -> b = a -> r' = r -> parse entries b = r'.
Proof. intros H -> ->. exact H. Qed.
(** Going back to a savepoint is going back to the beginning of the transaction. *)
Theorem C88_savepoint_refuted : forall entries n, any_name n -> parse entries ("ROLLBACK TO SAVEPOINT " ++ n)%string = Ok [SRollback].
Proof.
  intros entries n N. destruct (C88_lost_refuted entries _ _ (lo_savepoint false true n N)) as (s & A & B).
  vm_compute in B. injection B as <-. eapply as_written; [exact A|reflexivity|reflexivity].
Qed.
Print Assumptions C88_savepoint_refuted.

(** EXPLAIN before any text that begins with another word makes no difference: the statement that was to be explained is the one read. *)
Theorem C88_explain_refuted : forall entries ws w rest, explain ws -> word w -> ~ In (to_upper w) ["EXPLAIN"; "QUERY"] ->
  parse entries (line (ws ++ [w; rest])) = parse entries (line [w; rest]).
Proof.
  intros entries ws w rest [F U] W N. cbn [In] in N. apply explained_same; [|exact W|intro E; apply N; auto|intro E; apply N; auto].
  destruct U as [U|U].
  - left. destruct ws as [|e [|? ?]]; try discriminate U. inversion F; subst. injection U as U. exists e. auto.
  - right. destruct ws as [|e [|q [|p [|? ?]]]]; try discriminate U. inversion F as [|? ? We F1]; subst. inversion F1 as [|? ? Wq F2]; subst. inversion F2; subst.
    exists e, q, p. auto.
Qed.
Print Assumptions C88_explain_refuted.

(** The schema before a table or an index loses its back quotes as well. *)
Theorem C74_schema_partial : forall entries s m t x n b, written s m -> any_name t -> written x n ->
  parse entries (line ["ALTER"; "TABLE"; dotted s t; "RENAME"; "TO"; x]) = Ok [SAlterTable (mkAlter (mkTbl m t) (Some (new_table n)) None None None None None)]
  /\ parse entries (line (["DROP"; "INDEX"] ++ given b "IF EXISTS" ++ [dotted s x])) = Ok [SDropIndex m n b].
Proof.
  intros entries s m t x n b S T X. pose proof (written_plain s m S) as Ps. pose proof (written_plain x n X) as Px. apply any_is in T.
  rewrite <- (written_name s m S), <- (written_name x n X). split; [apply alter_schema_spelled|apply drop_index_spelled]; assumption.
Qed.
Print Assumptions C74_schema_partial.

Ltac listed A := split; [discriminate|]; repeat (apply Forall_cons; [apply A; cbn; tauto|]); apply Forall_nil.
Example C88_spelled_example :
  parse [] "BEGIN IMMEDIATE TRANSACTION t1" = Ok [SBegin] /\ parse [] "END TRANSACTION" = Ok [SCommit]
  /\ parse [] "TRUNCATE t, u" = Ok [STruncate [new_table "t"; new_table "u"]]
  /\ parse [] "COPY t (a, b) FROM f WITH FORMAT CSV" = Ok [SCopy (new_table "t") [new_column "a"; new_column "b"] "f" CopyCSV].
Proof.
  assert (N : forall x, In x ["t"; "t1"; "u"; "a"; "b"; "f"] -> name x).
  { intros x H. apply name_checked. cbn [In] in H. repeat (destruct H as [<-|H]; [vm_compute; reflexivity|]). contradiction. }
  assert (A : forall x, In x ["t"; "t1"; "u"; "a"; "b"; "f"] -> any_name x) by (intros x H; left; left; apply N, H).
  assert (L1 : any_name "t1") by (apply A; cbn; tauto). assert (L2 : some any_name ["t"; "u"]) by listed A. assert (L3 : some name ["a"; "b"]) by listed N.
  assert (L4 : name "t") by (apply N; cbn; tauto). assert (L5 : name "f") by (apply N; cbn; tauto).
  assert (L6 : format ["FORMAT"; "CSV"] CopyCSV) by (apply (fm_some true "CSV"); cbn; tauto).
  split; [|split; [|split]].
  - pose proof (C88_spelled_partial [] _ _ (sg_begin ["IMMEDIATE"] ["TRANSACTION"; "t1"] ltac:(cbn; tauto) (tn_named "t1" L1))) as E. eapply (as_written _ _ _ _ _ E); reflexivity.
  - pose proof (C88_spelled_partial [] _ _ (sg_commit "END" true ltac:(cbn; tauto))) as E. eapply (as_written _ _ _ _ _ E); reflexivity.
  - pose proof (C88_spelled_partial [] _ _ (sg_truncate false ["t"; "u"] L2)) as E. eapply (as_written _ _ _ _ _ E); reflexivity.
  - pose proof (C88_spelled_partial [] _ _ (sg_copy_columns true "t" ["a"; "b"] "f" ["FORMAT"; "CSV"] CopyCSV L4 L3 L5 L6)) as E. eapply (as_written _ _ _ _ _ E); reflexivity.
Qed.
Example C88_lost_example :
  parse [] "CREATE UNIQUE INDEX i ON t (a DESC)" = parse [] "CREATE INDEX i ON t (a)"
  /\ parse [] "DROP TABLE t CASCADE" = parse [] "DROP TABLE t" /\ parse [] "DROP TABLE s.t" = parse [] "DROP TABLE t"
  /\ parse [] "INSERT OR IGNORE INTO s.t (a) VALUES (1)" = parse [] "INSERT INTO t (a) VALUES (1)".
Proof.
  assert (N : forall x, In x ["s"; "t"; "i"; "a"] -> any_name x).
  { intros x H. left; left. apply name_checked. cbn [In] in H. repeat (destruct H as [<-|H]; [vm_compute; reflexivity|]). contradiction. }
  assert (E : forall ws vs, lost ws vs -> forall a b, a = line ws -> b = line vs -> parse [] a = parse [] b)
    by (intros ws vs L a b -> ->; destruct (C88_lost_refuted [] ws vs L) as (s & -> & ->); reflexivity).
  assert (S : any_name "s") by (apply N; cbn; tauto). assert (T : any_name "t") by (apply N; cbn; tauto). assert (I : any_name "i") by (apply N; cbn; tauto).
  assert (Ts : some any_name ["t"]) by listed N. assert (Cs : some any_name ["a"]) by listed N.
  assert (Is : some indexed_ok [mkIndexed "a" None (Some false)]).
  { split; [discriminate|]. apply Forall_cons; [|apply Forall_nil]. split; [apply N; cbn; tauto|discriminate]. }
  assert (Rs : some (some literal_ok) [[mkLit (VStr "1") UnknownLiteral]]).
  { split; [discriminate|]. apply Forall_cons; [|apply Forall_nil]. split; [discriminate|]. apply Forall_cons; [|apply Forall_nil]. apply lo_number. left. split; [discriminate|].
    intros c [<-|[]]. vm_compute. lia. }
  assert (C : conflict ["INSERT"; "OR"; "IGNORE"]) by (right; right; exists "IGNORE"; split; [cbn; tauto|reflexivity]).
  split; [|split; [|split]].
  - eapply (E _ _ (lo_index true false None "i" "t" _ None ltac:(discriminate) I T Is cn_none)); reflexivity.
  - eapply (E _ _ (lo_cascade false _ Ts)); reflexivity.
  - eapply (E _ _ (lo_table_schema false "s" _ S Ts)); reflexivity.
  - eapply (E _ _ (lo_insert _ (Some "s") "t" _ _ C ltac:(intros x [= <-]; exact S) T Cs Rs)); reflexivity.
Qed.
Example C88_explain_example : parse [] "explain Delete FROM t" = Ok [SDelete (new_table "t") None] /\ parse [] "EXPLAIN QUERY PLAN Delete FROM t" = Ok [SDelete (new_table "t") None].
Proof.
  assert (W : forall w, In w ["explain"; "EXPLAIN"; "QUERY"; "PLAN"; "Delete"] -> word w).
  { intros w H. cbn [In] in H. unfold word, letter, digit, chars.
    repeat (destruct H as [<-|H]; [do 2 eexists; split; [reflexivity|]; split; [vm_compute; lia|]; intros c H; cbn in H; repeat (destruct H as [<-|H]; [vm_compute; lia|]); contradiction|]). contradiction. }
  assert (D : parse [] (line ["Delete"; "FROM t"]) = Ok [SDelete (new_table "t") None]) by (vm_compute; reflexivity).
  split.
  - eapply as_written; [eapply eq_trans; [apply (C88_explain_refuted [] ["explain"] "Delete" "FROM t")|exact D]|reflexivity|reflexivity]; [split; [repeat constructor; apply W; cbn; tauto|left; reflexivity]|apply W; cbn; tauto|vm_compute; intuition discriminate].
  - eapply as_written; [eapply eq_trans; [apply (C88_explain_refuted [] ["EXPLAIN"; "QUERY"; "PLAN"] "Delete" "FROM t")|exact D]|reflexivity|reflexivity]; [split; [repeat constructor; apply W; cbn; tauto|right; reflexivity]|apply W; cbn; tauto|vm_compute; intuition discriminate].
Qed.
Example C74_schema_example : written "`s`" "s" /\ parse [] "DROP INDEX `s`.i" = Ok [SDropIndex "s" "i" false].
Proof.
  assert (W : written "`s`" "s").
  { apply (wr_back "s").
    - intros c [<-|[]]. discriminate.
    - intros c r E. injection E as <- _. unfold edge. cbn. intuition discriminate.
    - intros c r E. destruct r as [|d r]; [injection E as <-; unfold edge; cbn; intuition discriminate|]. destruct r; discriminate E. }
  split; [exact W|].
  assert (N : name "i") by (apply name_checked; vm_compute; reflexivity).
  destruct (C74_schema_partial [] "`s`" "s" "i" "i" "i" false W (or_introl (or_introl N)) (wr_word "i" N)) as [_ E]. eapply (as_written _ _ _ _ _ E); reflexivity.
Qed.
