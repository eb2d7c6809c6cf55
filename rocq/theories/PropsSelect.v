(** C81: the clauses of a SELECT are read as they are written. *)
From Coq Require Import Lia.
From Verif Require Import GoBase ModelUtil ModelNum ModelFn ModelQuery ModelEbnf ModelGrammar ModelLex ModelVisitor
  SpecRound SpecSelect ProofParse ProofWhere ProofSelect ProofSelect2.

Lemma kept_said l : kept l = asked_order (filter said l).
Proof. unfold kept, asked_order. induction l as [|[c []] l IH]; cbn; [reflexivity|exact IH|f_equal; exact IH..]. Qed.
Lemma filtered {A} (f : A -> bool) l : length (filter f l) <= length l.
Proof. induction l as [|x l IH]; [reflexivity|]. cbn. destruct (f x); cbn; lia. Qed.
Lemma filter_all {A} (f : A -> bool) l : forallb f l = true -> filter f l = l.
Proof. induction l as [|x l IH]; [reflexivity|]. cbn. intro H. apply andb_prop in H. destruct H as [-> H]. rewrite (IH H). reflexivity. Qed.

(** Whatever the query, one statement comes out of it: a SELECT with its selectors, tables and condition, its first grouping
    column, the orderings with a direction and the numbers of its window. *)
Theorem C81_select_is_read : forall entries q, query_ok q ->
  exists s, parse entries (query_text q) = Ok [SSelect s]
    /\ sel_selectors s = q_selectors q /\ sel_tables s = q_tables q /\ sel_where s = q_where q
    /\ sel_group_by s = hd ""%string (q_group q)
    /\ sel_order_by s = asked_order (filter said (q_order q))
    /\ (no_comma (q_window q) -> sel_limit s = asked_window (q_window q))
    /\ (forall a b, q_window q = Comma a b -> sel_limit s = asked_window (FirstAfter a b)).
Proof.
  intros entries q H. eexists. split; [apply query_reads; exact H|]. cbn [sel_selectors sel_tables sel_where sel_group_by sel_order_by sel_limit].
  repeat split; [apply kept_said|..]; [destruct (q_window q); [reflexivity..|contradiction]|]. intros a b ->. reflexivity.
Qed.
Print Assumptions C81_select_is_read.

(** So a query is read as it is written when it has no DISTINCT and no HAVING, groups by one column at most, gives the
    direction of every ordering and does not write LIMIT a, b.  Missing for the full property: the rest, which the theorems
    below show to be dropped or changed. *)
Theorem C81_as_written_partial : forall entries q, query_ok q ->
  q_scope q <> OnlyDistinct -> q_having q = None -> length (q_group q) <= 1 -> (forall o, In o (q_order q) -> snd o <> Unsaid) -> no_comma (q_window q) ->
  exists s, parse entries (query_text q) = Ok [SSelect s]
    /\ sel_selectors s = q_selectors q /\ sel_tables s = q_tables q /\ sel_where s = q_where q
    /\ (q_group q = [] /\ sel_group_by s = ""%string \/ q_group q = [sel_group_by s])
    /\ sel_order_by s = asked_order (q_order q) /\ sel_limit s = asked_window (q_window q).
Proof.
  intros entries q H _ _ G O W. destruct (C81_select_is_read entries q H) as (s & P & S & T & Wh & Gr & Or & L & _).
  exists s. repeat split; try assumption; [..|exact (L W)].
  - destruct (q_group q) as [|c [|d r]]; [left; split; [reflexivity|exact Gr]|right; rewrite Gr; reflexivity|cbn in G; lia].
  - rewrite Or. f_equal. apply filter_all, forallb_forall. intros o I. specialize (O o I). unfold said. destruct (snd o); [contradiction|reflexivity..].
Qed.
Print Assumptions C81_as_written_partial.

Lemma same entries q q' : query_ok q -> query_ok q' -> q_tables q = q_tables q' -> q_selectors q = q_selectors q' -> q_where q = q_where q' ->
  kept (q_order q) = kept (q_order q') -> kept_window (q_window q) = kept_window (q_window q') -> hd ""%string (q_group q) = hd ""%string (q_group q') ->
  parse entries (query_text q) = parse entries (query_text q').
Proof. intros A B C1 C2 C3 C D E. rewrite (query_reads entries q A), (query_reads entries q' B). congruence. Qed.
(** DISTINCT is dropped: a query is read as the one without. *)
Theorem C81_distinct_refuted : forall entries q s, query_ok q -> parse entries (query_text q) = parse entries (query_text (with_scope q s)).
Proof. intros entries q s H. apply same; [exact H| |reflexivity..]. destruct H. constructor; assumption. Qed.
Print Assumptions C81_distinct_refuted.

(** HAVING is dropped. *)
Theorem C81_having_refuted : forall entries q, query_ok q -> parse entries (query_text q) = parse entries (query_text (with_having q None)).
Proof. intros entries q H. apply same; [exact H| |reflexivity..]. destruct H. constructor; try assumption. split; [constructor|reflexivity]. Qed.
Print Assumptions C81_having_refuted.

(** Only the first column of GROUP BY is kept. *)
Theorem C81_group_by_refuted : forall entries q c d r, query_ok q -> q_group q = c :: d :: r ->
  parse entries (query_text q) = parse entries (query_text (with_group q [c])).
Proof.
  intros entries q c d r H G. apply same; [exact H| |try reflexivity..]; [|cbn; rewrite G; reflexivity].
  destruct H. constructor; try assumption; cbn; [rewrite G in qo_group; inversion qo_group; constructor; [assumption|constructor]|]. split; [apply qo_having|discriminate].
Qed.
Print Assumptions C81_group_by_refuted.

(** An ordering without direction is dropped. *)
Theorem C81_order_by_refuted : forall entries q a c b, query_ok q -> q_order q = a ++ (c, Unsaid) :: b ->
  parse entries (query_text q) = parse entries (query_text (with_order q (a ++ b)))
  /\ exists s, parse entries (query_text q) = Ok [SSelect s] /\ length (sel_order_by s) < length (q_order q).
Proof.
  intros entries q a c b H O. split.
  - apply same; [exact H| |try reflexivity..]; [|cbn [with_order q_order]; rewrite O, !kept_said, !filter_app; reflexivity].
    destruct H. constructor; try assumption. cbn. rewrite O in qo_order. apply Forall_app in qo_order. destruct qo_order as [A B]. inversion B. apply Forall_app. split; assumption.
  - destruct (C81_select_is_read entries q H) as (s & P & _ & _ & _ & _ & Or & _). exists s. split; [exact P|].
    rewrite Or, O. unfold asked_order. rewrite map_length, filter_app, !app_length. cbn [filter said snd length].
    pose proof (filtered said a). pose proof (filtered said b). lia.
Qed.
Print Assumptions C81_order_by_refuted.

(** LIMIT a, b is read as LIMIT a OFFSET b: the two numbers are swapped. *)
Theorem C81_comma_refuted : forall entries q a b, query_ok q -> q_window q = Comma a b -> a <> b ->
  exists s, parse entries (query_text q) = Ok [SSelect s] /\ parse entries (query_text (with_window q (FirstAfter a b))) = Ok [SSelect s]
    /\ sel_limit s <> asked_window (Comma a b) /\ sel_limit s = asked_window (Comma b a).
Proof.
  intros entries q a b H W N. destruct (C81_select_is_read entries q H) as (s & P & _ & _ & _ & _ & _ & _ & L). specialize (L a b W).
  exists s. split; [exact P|]. split; [|rewrite L; split; [cbn; congruence|reflexivity]]. rewrite <- P. symmetry. apply same; [exact H| |try reflexivity..]; [|cbn; rewrite W; reflexivity].
  destruct H. constructor; try assumption. cbn. rewrite W in qo_window. exact qo_window.
Qed.
Print Assumptions C81_comma_refuted.

(** LIMIT 0, which asks for no rows, is read as no LIMIT. *)
Theorem C81_limit_zero_refuted : forall entries q, query_ok q -> q_window q = First 0 ->
  parse entries (query_text q) = parse entries (query_text (with_window q NoWindow)).
Proof.
  intros entries q H W. apply same; [exact H| |try reflexivity..]; [|cbn; rewrite W; reflexivity].
  destruct H. constructor; try assumption. exact I.
Qed.
Print Assumptions C81_limit_zero_refuted.

(** ** Examples *)

Definition example_query : query :=
  mkQuery OnlyDistinct [SelCol (new_column "city"); SelFn (new_func "COUNT" ["*"%string])] [new_table "users"]
    (Some (ECmp OpGT (new_column "age") (Some (mkLit (VStr "20") UnknownLiteral)))) ["city"; "zip"]%string
    (Some (ECmp OpNEQ (new_column "city") (Some (mkLit (VStr "Rome") StringLiteral)))) [("city", Down); ("zip", Unsaid)]%string (Comma 5 10).
Example its_text : query_text example_query =
  "SELECT DISTINCT city, COUNT(*) FROM users WHERE age > 20 GROUP BY city, zip HAVING city != 'Rome' ORDER BY city DESC, zip LIMIT 5, 10"%string.
Proof. reflexivity. Qed.
Example it_is_ok : query_ok example_query.
Proof.
  assert (Q : forall t, forallb (fun c => negb (Ascii.eqb c "'"%char) && negb (Ascii.eqb c dquote_char)) (list_ascii_of_string t) = true -> plain_text t).
  { intros t H. pose proof (proj1 (forallb_forall _ _) H) as A. assert (B : forall c, In c (list_ascii_of_string t) -> c <> "'"%char /\ c <> dquote_char).
    { intros c I. specialize (A c I). apply andb_prop in A. destruct A as [A1 A2]. split; intros ->; discriminate. }
    split; [|split].
    - clear -B. induction t as [|c t IH]; [constructor|]. apply pa_char; [exact (proj1 (B c (or_introl eq_refl)))|]. apply IH. intros d D. apply B. right. exact D.
    - intros c r -> [E|E]; destruct (B c (or_introl eq_refl)); contradiction.
    - intros c r -> [E|E]; destruct (B c) as [B1 B2]; try contradiction; clear; induction r as [|d r IH]; [left; reflexivity|right; exact IH|left; reflexivity|right; exact IH]. }
  assert (D : forall n, forallb is_digit_b (list_ascii_of_string n) = true -> n <> ""%string -> number n).
  { intros n H N. left. split; [exact N|]. intros c I. apply (proj1 (forallb_forall _ _) H) in I. unfold is_digit_b in I. apply andb_prop in I. destruct I as [A B].
    apply Nat.leb_le in A, B. split; assumption. }
  constructor; unfold example_query; cbn [q_scope q_selectors q_tables q_where q_group q_having q_order q_window].
  - split; [discriminate|]. constructor; [apply se_column, any_checked; vm_compute; reflexivity|]. constructor; [|constructor].
    apply se_function_all; [apply any_checked; vm_compute; reflexivity|reflexivity].
  - split; [discriminate|]. constructor; [|constructor]. apply fo_name, any_checked. vm_compute. reflexivity.
  - constructor. constructor; [right; right; right; left; reflexivity|apply any_checked; vm_compute; reflexivity|]. apply lo_number, D; [reflexivity|discriminate].
  - constructor; [apply any_checked; vm_compute; reflexivity|]. constructor; [apply any_checked; vm_compute; reflexivity|constructor].
  - split; [|discriminate]. constructor. constructor; [right; left; reflexivity|apply any_checked; vm_compute; reflexivity|]. apply lo_text, Q. reflexivity.
  - constructor; [apply any_checked; vm_compute; reflexivity|]. constructor; [apply any_checked; vm_compute; reflexivity|constructor].
  - split; reflexivity.
Qed.
Example it_is_read : exists s, parse data_type_strings (query_text example_query) = Ok [SSelect s]
  /\ sel_group_by s = "city"%string /\ sel_order_by s = [mkOrder "city" OrderDesc] /\ sel_limit s = mkLimit 10 5.
Proof. refine (ex_intro _ _ (conj _ _)); [vm_compute; reflexivity|]. repeat split. Qed.
