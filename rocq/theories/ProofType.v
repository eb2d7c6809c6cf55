(** The type of a statement, its text and the words it is read from. *)
From Verif Require Import GoBase ModelUtil ModelFn ModelQuery ModelEbnf ModelGrammar ModelLex ModelVisitor SpecRound SpecParse SpecPanic SpecLost SpecType
  ProofFn ProofEbnf ProofMachine ProofParse ProofPanic ProofLost ProofLex ProofRound ProofRound2 ProofRound3 ProofRound4 ProofTest5 ProofRefuse2 ProofStart ProofExplain.
Local Open Scope string_scope.
Local Open Scope list_scope.

Definition body_names : list string :=
  Eval vm_compute in (fix names g := match g with Alt (Rule n _) b => n :: names b | Rule n _ => [n] | _ => [] end) bodies.
Lemma bodies_names : bodies = alt (map (fun n => Rule n 0) body_names). Proof. reflexivity. Qed.
Lemma R_among ns : forall ts k r, okg (alt (map (fun n => Rule n 0) ns)) = true -> R (alt (map (fun n => Rule n 0) ns)) ts k = Found r ->
  exists n, In n ns /\ R (Rule n 0) ts k = Found r.
Proof.
  induction ns as [|n [|m ns] IH]; intros ts k r O H.
  - exfalso. cbn in H. unfold R in H. discriminate H.
  - exists n. split; [left; reflexivity|exact H].
  - change (alt (map (fun n => Rule n 0) (n :: m :: ns))) with (Alt (Rule n 0) (alt (map (fun n => Rule n 0) (m :: ns)))) in *.
    rewrite (R_alt _ _ _ _ O) in H. destruct (okg_alt _ _ O) as [_ O']. destruct (R (Rule n 0) ts k) as [x| |] eqn:E.
    + exists n. split; [left; reflexivity|]. rewrite E. exact H.
    + destruct (IH ts k r O' H) as (x & I & X). exists x. split; [right; exact I|exact X].
    + discriminate H.
Qed.

(** no statement but those of the rule begins with tokens of the kinds *)
Definition only_rule (target : string) (ks : list string) : bool :=
  forallb (fun n => String.eqb n target || negb (mays None 5000 (MEval (Rule n 0)) (map (fun k => [k]) ks) [])) body_names.
Lemma only_other target ks l rest k n : only_rule target ks = true -> map tk l = ks -> In n body_names -> n = target \/ R (Rule n 0) (l ++ rest) k = NotFound.
Proof.
  intros O M B. unfold only_rule in O. rewrite forallb_forall in O. apply O in B as J. apply orb_prop in J. destruct J as [E|E]; [left; apply String.eqb_eq in E; exact E|right].
  apply negb_true_iff in E.
  assert (F : Forall2 (fun t c => In (tk t) c) l (map (fun k => [k]) ks)).
  { subst ks. clear. induction l as [|t l IH]; constructor; [left; reflexivity|exact IH]. }
  assert (K : ok (MEval (Rule n 0)) [] = true).
  { assert (A : forallb (fun n => ok (MEval (Rule n 0)) []) body_names = true) by (vm_compute; reflexivity). rewrite forallb_forall in A. exact (A n B). }
  apply (may_false k None I 5000 (MEval (Rule n 0)) l []); [|exact K].
  destruct (may _ _ _ _) eqn:Q; [|reflexivity]. rewrite (bare_some None _ _ (MEval (Rule n 0)) _ _ [] _ Q F eq_refl eq_refl) in E. discriminate E.
Qed.
Lemma only_is target ks l rest k n r : only_rule target ks = true -> map tk l = ks -> In n body_names -> R (Rule n 0) (l ++ rest) k = Found r -> n = target.
Proof. intros O M B H. destruct (only_other target ks l rest k n O M B) as [E|E]; [exact E|]. rewrite E in H. discriminate H. Qed.

Lemma first_stmt target t l rest d : tk t <> "EOF" -> tk t <> "SCOL" -> tk t <> "EXPLAIN_" -> only_rule target (map tk (t :: l)) = true ->
  parse_tree ((t :: l) ++ rest) = Found [(""%string, Node "parse" d)] ->
  exists cs more, statements (Node "parse" d) = Node "sql_stmt" [(""%string, Node target cs)] :: more.
Proof.
  intros E S X O H. rewrite parse_R in H. change ((t :: l) ++ rest) with (t :: l ++ rest) in H. rewrite (R_first _ _ _ E), (R_list _ _ _ S), (R_plain _ _ _ X) in H.
  rewrite bodies_names in H. apply R_among in H; [|vm_compute; reflexivity]. destruct H as (n & I & H).
  pose proof (only_is target _ (t :: l) rest _ n _ O eq_refl I H) as ->.
  apply run_sound in H. destruct H as (w & ds & r & _ & D & H). destruct (derives_rule_inv _ _ _ _ D) as (cs & -> & _).
  apply run_sound in H. destruct H as (w1 & ds1 & r1 & _ & _ & H). apply run_sound in H. destruct H as (w2 & ds2 & r2 & _ & _ & H).
  apply run_sound in H. destruct H as (w3 & ds3 & r3 & _ & _ & H). destruct r3; [|discriminate H]. cbn [at_end] in H. injection H as <-.
  exists cs. eexists. unfold statements. unfold subs at 2. cbn [kids app map snd filter is_rule String.eqb Ascii.eqb Bool.eqb].
  cbn [map concat]. unfold subs at 1. cbn [kids app map snd filter is_rule String.eqb Ascii.eqb Bool.eqb]. cbn [app]. reflexivity.
Qed.
Lemma first_kind target cs more ss : In target kinds -> report ss (Node "sql_stmt" [(""%string, Node target cs)] :: more) ->
  exists s l, ss = s :: l /\ kind s = target.
Proof.
  intros K R. inversion R as [|s ss' t ts F R'|ss' t ts P R']; subst.
  - exists s, ss'. split; [reflexivity|]. destruct F as (x & B & _). apply below1 in B. unfold subs in B. cbn [kids map snd filter is_rule] in B.
    destruct (String.eqb_spec target (kind s)) as [<-|N]; [reflexivity|contradiction B].
  - exfalso. apply (P target K (Node target cs)). apply below1. unfold subs. cbn [kids map snd filter is_rule]. rewrite String.eqb_refl. left. reflexivity.
Qed.

(** ** Texts *)
Definition rules : list (string * string) :=
  [("CREATE DATABASE", "create_database_stmt"); ("CREATE TABLE", "create_table_stmt"); ("CREATE INDEX", "create_index_stmt");
   ("ALTER DATABASE", "alter_database_stmt"); ("ALTER TABLE", "alter_table_stmt"); ("DROP DATABASE", "drop_database_stmt");
   ("DROP TABLE", "drop_table_stmt"); ("DROP INDEX", "drop_index_stmt"); ("INSERT", "insert_stmt"); ("SELECT", "select_stmt");
   ("UPDATE", "update_stmt"); ("DELETE", "delete_stmt"); ("BEGIN", "begin_stmt"); ("COMMIT", "commit_stmt");
   ("ROLLBACK", "rollback_stmt"); ("USE", "use_stmt"); ("COPY", "copy_stmt"); ("TRUNCATE", "truncate_stmt"); ("VACUUM", "vacuum_stmt")].
Definition rule_of (T : string) : string := match find (fun p => String.eqb (fst p) T) rules with Some p => snd p | None => "" end.
Lemma kind_rule s : kind s = rule_of (stype_string (stmt_type s)).
Proof. destruct s; reflexivity. Qed.
Lemma rule_type s T : kind s = rule_of T -> In T (map fst rules) -> stype_string (stmt_type s) = T.
Proof.
  intros K I. cbn [rules map fst In] in I. destruct s; cbn [kind] in K; cbn [stmt_type stype_string];
    repeat (destruct I as [<-|I]; [first [reflexivity|vm_compute in K; discriminate K]|]); contradiction I.
Qed.
Lemma upper_kind w u : to_upper w = u -> String.eqb (to_upper u) u = true -> kind_of_word w = kind_of_word u.
Proof. intros A B. apply String.eqb_eq in B. apply kind_same; assumption. Qed.
Definition sure (T : string) (ks : list string) : bool :=
  existsb (String.eqb T) (map fst rules) && existsb (String.eqb (rule_of T)) kinds && only_rule (rule_of T) ks
  && negb (existsb (String.eqb (hd "" ks)) ["EOF"; "SCOL"; "EXPLAIN_"; ""]).
Lemma typed entries T ws rest ss : Forall (fun w => is_word w = true) ws -> sure T (map kind_of_word ws) = true ->
  (forall q, token_stream (fold_right (fun w x => w ++ " " ++ x)%string q ws) = map (fun w => mkTok (kind_of_word w) w) ws ++ token_stream q) ->
  parse entries (fold_right (fun w x => w ++ " " ++ x)%string rest ws) = Ok ss ->
  exists s l, ss = s :: l /\ stype_string (stmt_type s) = T.
Proof.
  intros W Su St P. destruct (reported entries _ ss P) as (d & D & Rp). rewrite St in D. clear St P.
  unfold sure in Su. apply andb_prop in Su. destruct Su as [Su N]. apply andb_prop in Su. destruct Su as [Su O]. apply andb_prop in Su. destruct Su as [A B].
  apply existsb_exists in A, B. destruct A as (T' & A & E). apply String.eqb_eq in E. subst T'. destruct B as (T' & B & E). apply String.eqb_eq in E. subst T'.
  destruct ws as [|w ws]; [discriminate N|]. cbn [map hd] in *. apply negb_true_iff in N.
  assert (Ne : forall k, In k ["EOF"; "SCOL"; "EXPLAIN_"; ""] -> kind_of_word w <> k).
  { intros k I E. rewrite E in N. assert (X : existsb (String.eqb k) ["EOF"; "SCOL"; "EXPLAIN_"; ""] = true); [|rewrite X in N; discriminate N].
    apply existsb_exists. exists k. split; [exact I|apply String.eqb_refl]. }
  destruct (first_stmt (rule_of T) (mkTok (kind_of_word w) w) (map (fun w => mkTok (kind_of_word w) w) ws) (token_stream rest) d) as (cs & more & S).
  - apply Ne. cbn. tauto.
  - apply Ne. cbn. tauto.
  - apply Ne. cbn. tauto.
  - cbn [map tk]. rewrite map_map. cbn [tk]. exact O.
  - exact D.
  - rewrite S in Rp. destruct (first_kind _ _ _ _ B Rp) as (s & l & -> & K). exists s, l. split; [reflexivity|]. apply rule_type; assumption.
Qed.
Lemma typed_one entries w T rest ss : word w -> In (to_upper w, T) one_word -> parse entries (w ++ " " ++ rest) = Ok ss ->
  exists s l, ss = s :: l /\ stype_string (stmt_type s) = T.
Proof.
  intros W I P. apply word_is in W.
  assert (M : forallb (fun p => sure (snd p) [kind_of_word (fst p)] && String.eqb (to_upper (fst p)) (fst p)) one_word = true) by (vm_compute; reflexivity).
  rewrite forallb_forall in M. apply M in I. cbn [fst snd] in I. apply andb_prop in I. destruct I as [Su U].
  apply (typed entries T [w] rest); [constructor; [exact W|constructor]| |intro q; exact (stream_word w q W)|exact P].
  cbn [map]. rewrite (upper_kind w _ eq_refl U). exact Su.
Qed.
Lemma typed_two entries w x T rest ss : word w -> word x -> In (to_upper w, to_upper x, T) two_words -> parse entries (w ++ " " ++ x ++ " " ++ rest) = Ok ss ->
  exists s l, ss = s :: l /\ stype_string (stmt_type s) = T.
Proof.
  intros W X I P. apply word_is in W, X.
  assert (M : forallb (fun p => sure (snd p) [kind_of_word (fst (fst p)); kind_of_word (snd (fst p))]
    && (String.eqb (to_upper (fst (fst p))) (fst (fst p)) && String.eqb (to_upper (snd (fst p))) (snd (fst p)))) two_words = true) by (vm_compute; reflexivity).
  rewrite forallb_forall in M. apply M in I. cbn [fst snd] in I. apply andb_prop in I. destruct I as [Su U]. apply andb_prop in U. destruct U as [U V].
  apply (typed entries T [w; x] rest); [repeat (constructor; [assumption|]); constructor| |intro q; cbn [fold_right map app]; rewrite (stream_word w _ W), (stream_word x _ X); reflexivity|exact P].
  cbn [map]. rewrite (upper_kind w _ eq_refl U), (upper_kind x _ eq_refl V). exact Su.
Qed.

(** ** What is printed *)
Lemma join_head x xs sep : xs <> [] -> join sep (x :: xs) = (x ++ sep ++ join sep xs)%string.
Proof. destruct xs; [contradiction|reflexivity]. Qed.
Definition led (T q : string) : Prop := q = T \/ exists rest, q = (T ++ " " ++ rest)%string.
Lemma led_one T xs : led T (join_with_space (T :: xs)).
Proof. destruct xs as [|x xs]; [left; reflexivity|]. right. eexists. unfold join_with_space. apply join_head. discriminate. Qed.
Lemma led_two a b xs : led (a ++ " " ++ b) (join_with_space (a :: b :: xs)).
Proof.
  unfold join_with_space. rewrite join_head by discriminate. destruct xs as [|x xs]; [left; reflexivity|]. right. rewrite join_head by discriminate.
  eexists. rewrite !sapp_assoc. reflexivity.
Qed.
Lemma printed_led s q : stmt_string s = Ok q -> led (stype_string (stmt_type s)) q.
Proof.
  destruct s; cbn [stmt_type stype_string]; intro H; cbn [stmt_string] in H; try (injection H as <-);
    try (left; reflexivity);
    try (unfold create_index_string, create_table_string, select_string; cbv zeta; cbn [app];
         first [exact (led_one _ _)|exact (led_two "CREATE" "INDEX" _)|exact (led_two "DROP" "DATABASE" _)|exact (led_two "DROP" "TABLE" _)|exact (led_two "DROP" "INDEX" _)
               |exact (led_two "ALTER" "DATABASE" _)]).
  unfold alter_string in H. cbv zeta in H. destruct (match al_add_column a with Some _ => _ | None => _ end) as [add|e|]; try discriminate H. cbn [rbind] in H. injection H as <-. cbn [app].
  exact (led_two "ALTER" "TABLE" _).
Qed.
(** the words of a text that begins with those of the type *)
Lemma led_type t t' q : led (stype_string t) q -> led (stype_string t') q -> t = t'.
Proof.
  intros H H'. destruct t, t'; try reflexivity; exfalso; unfold led in H, H'; cbn [stype_string] in H, H';
    destruct H as [->|(x & ->)], H' as [E|(y & E)]; discriminate E.
Qed.
Lemma never_err s e : stmt_string s <> Err e.
Proof.
  destruct s; try discriminate. cbn [stmt_string]. unfold alter_string. cbv zeta. destruct (al_add_column a) as [c|]; [destruct (c_def c)|]; discriminate.
Qed.
Lemma print_panics s : stmt_string s = Panic <-> exists a c, s = SAlterTable a /\ al_add_column a = Some c /\ c_def c = None.
Proof.
  split.
  - destruct s; try discriminate. cbn [stmt_string]. unfold alter_string. cbv zeta. destruct (al_add_column a) as [c|] eqn:E; [destruct (c_def c) eqn:D|]; intro H; try discriminate H.
    exists a, c. repeat split; assumption.
  - intros (a & c & -> & E & D). cbn [stmt_string]. unfold alter_string. cbv zeta. rewrite E, D. reflexivity.
Qed.

(** ** What is read can be printed *)
Lemma rbind_ok {A B} (r : result A) (f : A -> result B) b : rbind r f = Ok b -> exists a, r = Ok a /\ f a = Ok b.
Proof. destruct r; cbn [rbind]; intro H; try discriminate H. eexists. split; [reflexivity|exact H]. Qed.
Ltac unbind := repeat match goal with
  | H : rbind _ _ = Ok _ |- _ => apply rbind_ok in H; destruct H as (? & ? & H)
  | H : Ok _ = Ok _ |- _ => injection H as H
  end.
Definition printable (s : stmt) : Prop := forall a c, s = SAlterTable a -> al_add_column a = Some c -> c_def c <> None.
Lemma column_defined entries t c : v_column entries t = Ok (Some c) -> c_def c <> None.
Proof.
  unfold v_column. cbv zeta. intro H. unbind. destruct (existsb _ _) in H; [discriminate H|]. destruct (sub "type_name" t); [|discriminate H].
  destruct (map text (subs "name" t0) ++ _) in H; [discriminate H|]. injection H as <-. discriminate.
Qed.
Lemma alter_printable entries t s : v_alter_table entries t = Ok s -> printable s.
Proof.
  unfold v_alter_table. cbv zeta. intro H. apply rbind_ok in H; destruct H as (x1 & _ & H). apply rbind_ok in H; destruct H as (x2 & _ & H).
  apply rbind_ok in H; destruct H as (x3 & A & H). apply rbind_ok in H; destruct H as (x4 & _ & H). apply rbind_ok in H; destruct H as (x5 & _ & H).
  injection H as <-. intros a c E D. injection E as <-. cbn [al_add_column] in D. subst x3.
  destruct (sub "add_table_column" t) as [r|]; [|discriminate A]. apply rbind_ok in A. destruct A as (d & _ & A). exact (column_defined _ _ _ A).
Qed.
Lemma insert_printable t s : v_insert t = Ok s -> printable s.
Proof. unfold v_insert. cbv zeta. intro H. unbind. subst. discriminate. Qed.
Lemma update_printable t s : v_update t = Ok s -> printable s.
Proof. unfold v_update. cbv zeta. intro H. unbind. subst. discriminate. Qed.
Lemma select_printable t s : v_select t = Ok s -> printable s.
Proof. unfold v_select. cbv zeta. intro H. unbind. subst. discriminate. Qed.
Lemma delete_printable t s : v_delete t = Ok s -> printable s.
Proof. unfold v_delete. cbv zeta. intro H. unbind. subst. discriminate. Qed.
Lemma copy_printable t s : v_copy t = Ok s -> printable s.
Proof. unfold v_copy. cbv zeta. intro H. unbind. subst. discriminate. Qed.
Lemma statement_printable entries t s : v_statement entries t = Ok (Some s) -> printable s.
Proof.
  unfold v_statement. cbv zeta. intro H.
  repeat match type of H with match ?x with Some _ => _ | None => _ end = _ =>
    destruct x; [apply rbind_ok in H; destruct H as (y & H & E); injection E as <-;
      first [exact (alter_printable _ _ _ H)|exact (insert_printable _ _ H)|exact (update_printable _ _ H)|exact (select_printable _ _ H)|exact (delete_printable _ _ H)
            |exact (copy_printable _ _ H)|unbind; subst; discriminate]|] end.
  discriminate H.
Qed.
Lemma collect_in {A B} (f : A -> result B) l : forall ys, collect f l = Ok ys -> forall y, In y ys -> exists x, f x = Ok y.
Proof.
  induction l as [|a l IH]; cbn [collect]; intros ys H y I; [injection H as <-; contradiction I|].
  apply rbind_ok in H. destruct H as (b & Hb & H). apply rbind_ok in H. destruct H as (bs & Hs & H). injection H as <-.
  destruct I as [<-|I]; [exists a; exact Hb|exact (IH bs Hs y I)].
Qed.
Lemma read_printable entries q ss : parse entries q = Ok ss -> Forall printable ss.
Proof.
  unfold parse, parse_string. destruct (_ || _); [discriminate|]. destruct (parse_tree (token_stream q)) as [[|[l t] [|c r]]| |]; try discriminate. cbn [fst].
  unfold v_parse. intro H. apply rbind_ok in H. destruct H as (os & C & H). injection H as <-. apply Forall_forall. intros s I.
  apply in_concat in I. destruct I as (x & I & J). apply in_map_iff in I. destruct I as ([u|] & <- & I); [|contradiction J]. destruct J as [<-|[]].
  destruct (collect_in _ _ _ C _ I) as (y & Y). exact (statement_printable _ _ _ Y).
Qed.
Lemma read_prints entries q ss s : parse entries q = Ok ss -> In s ss -> exists x, stmt_string s = Ok x.
Proof.
  intros P I. pose proof (read_printable entries q ss P) as F. rewrite Forall_forall in F. specialize (F s I).
  destruct (stmt_string s) as [x|e|] eqn:E; [exists x; reflexivity|destruct (never_err s e E)|]. apply print_panics in E. destruct E as (a & c & -> & A & D). destruct (F a c eq_refl A D).
Qed.
