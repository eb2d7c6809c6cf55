(** Other ways to write statements: how they are read. *)
From Coq Require Import Lia.
From Verif Require Import GoBase ModelUtil ModelNum ModelFn ModelQuery ModelEbnf ModelGrammar ModelLex ModelVisitor SpecRound SpecSelect SpecSpell
  FactsBase ProofFn ProofEbnf ProofMachine ProofLex ProofRound ProofRound2 ProofRound3 ProofRound4 ProofRound5 ProofRound8 ProofRound10 ProofRound13 ProofSelect2.
Local Open Scope string_scope.
Local Open Scope list_scope.

Ltac simply := split; [goods|]; shows; split; [starts_ok|]; eexists; split; [read_all|visits].
Ltac by_text P := rewrite <- (reads_parse _ _ _ P); f_equal; rewrite glue_spaced; cbn [map app given]; rewrite ?glue_schema, ?glue_one; reflexivity.

Lemma begin_spelled entries m x : In m [[]; ["DEFERRED"]; ["IMMEDIATE"]; ["EXCLUSIVE"]] -> transaction x -> parse entries (line ("BEGIN" :: m ++ x)) = Ok [SBegin].
Proof.
  intros M X. cbn [In] in M. destruct X as [| |n N]; [..|apply any_is in N].
  1,2: repeat (destruct M as [<-|M]; [vm_compute; reflexivity|]); contradiction.
  repeat (destruct M as [<-|M]; [|]); [..|contradiction]; cbn [app].
  - assert (P : reads_as entries (spaced [kw ["BEGIN"]; kw ["TRANSACTION"]; [PWord n]]) SBegin) by simply. by_text P.
  - assert (P : reads_as entries (spaced [kw ["BEGIN"]; kw ["DEFERRED"]; kw ["TRANSACTION"]; [PWord n]]) SBegin) by simply. by_text P.
  - assert (P : reads_as entries (spaced [kw ["BEGIN"]; kw ["IMMEDIATE"]; kw ["TRANSACTION"]; [PWord n]]) SBegin) by simply. by_text P.
  - assert (P : reads_as entries (spaced [kw ["BEGIN"]; kw ["EXCLUSIVE"]; kw ["TRANSACTION"]; [PWord n]]) SBegin) by simply. by_text P.
Qed.
Lemma rollback_to entries b b' n : plain n -> parse entries (line ("ROLLBACK" :: given b "TRANSACTION" ++ "TO" :: given b' "SAVEPOINT" ++ [n])) = Ok [SRollback].
Proof.
  intro N. destruct b, b'; cbn [given app].
  - assert (P : reads_as entries (spaced [kw ["ROLLBACK"]; kw ["TRANSACTION"]; kw ["TO"]; kw ["SAVEPOINT"]; [PWord n]]) SRollback) by simply. by_text P.
  - assert (P : reads_as entries (spaced [kw ["ROLLBACK"]; kw ["TRANSACTION"]; kw ["TO"]; [PWord n]]) SRollback) by simply. by_text P.
  - assert (P : reads_as entries (spaced [kw ["ROLLBACK"]; kw ["TO"]; kw ["SAVEPOINT"]; [PWord n]]) SRollback) by simply. by_text P.
  - assert (P : reads_as entries (spaced [kw ["ROLLBACK"]; kw ["TO"]; [PWord n]]) SRollback) by simply. by_text P.
Qed.
Lemma vacuum_spelled entries : forall b f, plain f ->
  parse entries (line ("VACUUM" :: given b "ANALYZE" ++ ["INTO"; f])) = Ok [SVacuum None]
  /\ (forall t, plain t -> parse entries (line ("VACUUM" :: given b "ANALYZE" ++ [t; "INTO"; f])) = Ok [SVacuum (Some (new_table t))]).
Proof.
  intros b f F. destruct b; (split; [|intros t Pt]); cbn [given app].
  - assert (P : reads_as entries (spaced [kw ["VACUUM"]; kw ["ANALYZE"]; kw ["INTO"]; [PWord f]]) (SVacuum None)) by simply. by_text P.
  - assert (P : reads_as entries (spaced [kw ["VACUUM"]; kw ["ANALYZE"]; [PWord t]; kw ["INTO"]; [PWord f]]) (SVacuum (Some (new_table t)))) by simply. by_text P.
  - assert (P : reads_as entries (spaced [kw ["VACUUM"]; kw ["INTO"]; [PWord f]]) (SVacuum None)) by simply. by_text P.
  - assert (P : reads_as entries (spaced [kw ["VACUUM"]; [PWord t]; kw ["INTO"]; [PWord f]]) (SVacuum (Some (new_table t)))) by simply. by_text P.
Qed.
Lemma vacuum_table entries t : plain t -> parse entries (line ["VACUUM"; t]) = Ok [SVacuum (Some (new_table t))] /\ parse entries (line ["VACUUM"; "ANALYZE"; t]) = Ok [SVacuum (Some (new_table t))].
Proof.
  intro Pt. split.
  - assert (P : reads_as entries (spaced [kw ["VACUUM"]; [PWord t]]) (SVacuum (Some (new_table t)))) by simply. by_text P.
  - assert (P : reads_as entries (spaced [kw ["VACUUM"]; kw ["ANALYZE"]; [PWord t]]) (SVacuum (Some (new_table t)))) by simply. by_text P.
Qed.
Lemma database_spelled entries s n m : plain s -> plain n -> plain m ->
  parse entries (line ["ALTER"; "DATABASE"; n; "RENAME"; "TO"; m]) = Ok [SAlterDatabase n m]
  /\ parse entries (line ["ALTER"; "DATABASE"; dotted s n; "RENAME"; "TO"; m]) = Ok [SAlterDatabase n m].
Proof.
  intros S N M. split.
  - assert (P : reads_as entries (spaced [kw ["ALTER"]; kw ["DATABASE"]; [PWord n]; kw ["RENAME"]; kw ["TO"]; [PWord m]]) (SAlterDatabase n m)) by simply. by_text P.
  - assert (P : reads_as entries (spaced [kw ["ALTER"]; kw ["DATABASE"]; [PWord s; PSym "DOT" "."; PWord n]; kw ["RENAME"]; kw ["TO"]; [PWord m]]) (SAlterDatabase n m)) by simply. by_text P.
Qed.
Lemma rename_column_spelled entries b t c d : plain t -> plain c -> plain d ->
  parse entries (line (["ALTER"; "TABLE"; t; "RENAME"] ++ given b "COLUMN" ++ [c; "TO"; d])) = Ok [SAlterTable (mkAlter (new_table t) None (Some (new_column c, new_column d)) None None None None)].
Proof.
  intros Pt Pc Pd. destruct b; cbn [given app].
  - assert (P : reads_as entries (spaced [kw ["ALTER"]; kw ["TABLE"]; [PWord t]; kw ["RENAME"]; kw ["COLUMN"]; [PWord c]; kw ["TO"]; [PWord d]]) (SAlterTable (mkAlter (new_table t) None (Some (new_column c, new_column d)) None None None None))) by simply. by_text P.
  - assert (P : reads_as entries (spaced [kw ["ALTER"]; kw ["TABLE"]; [PWord t]; kw ["RENAME"]; [PWord c]; kw ["TO"]; [PWord d]]) (SAlterTable (mkAlter (new_table t) None (Some (new_column c, new_column d)) None None None None))) by simply. by_text P.
Qed.

(** the lists of TRUNCATE and DROP TABLE *)
Definition names (t : string) (ts : list string) : list piece := [PWord t] ++ listed word1 ts.
Definition dotted_names (s : option string) (t : string) (ts : list string) : list piece :=
  match s with Some x => PWord x :: PSym "DOT" "." :: names t ts | None => names t ts end.
Lemma good_list t ts : plain t -> Forall plain ts -> good (names t ts).
Proof. intros P F. unfold names. goods. apply good_names, F. Qed.
Lemma shown_list t ts : plain t -> Forall plain ts -> shown (names t ts) = idt t :: clist id1 ts.
Proof. intros P F. unfold names. rewrite shown_app, (shown_name t P), shown_names by exact F. reflexivity. Qed.
Lemma good_dotted s t ts : (forall x, s = Some x -> plain x) -> plain t -> Forall plain ts -> good (dotted_names s t ts).
Proof.
  intros S P F. destruct s as [x|]; [|apply good_list; assumption]. specialize (S x eq_refl).
  apply (good_then_listed [PWord x; PSym "DOT" "."; PWord t] word1 ts); [apply good_schema; assumption|apply good_names, F].
Qed.
Ltac by_list P := rewrite <- (reads_parse _ _ _ P); f_equal; rewrite glue_spaced; cbn [map app given]; unfold names; rewrite ?glue_schema, ?glue_names, ?glue_one; reflexivity.
Lemma truncate_spelled entries b t ts : plain t -> Forall plain ts ->
  parse entries (line ("TRUNCATE" :: given b "TABLE" ++ [join ", " (t :: ts)])) = Ok [STruncate (map new_table (t :: ts))].
Proof.
  intros P F.
  assert (A : reads_as entries (spaced (kw ["TRUNCATE"] :: (if b then [kw ["TABLE"]] else []) ++ [names t ts])) (STruncate (map new_table (t :: ts)))).
  { split; [destruct b; cbn [app]; goods; apply good_list; assumption|]. rewrite shown_spaced. destruct b; cbn [app flat_map]; rewrite (shown_list t ts P F); show_words; rewrite app_nil_r; cbn [app];
      (split; [starts_ok|]); eexists; (split;
      [intros k K tl r T H; cbn [app]; rewrite <- ?app_assoc; cbn [app]; enter; pose proof (heads_clist id1 _ ts _ T) as T'; peek (Some stmt_follow) T' tt AtStar;
       (by_reads (tables_reads ts None stmt_ends ltac:(not_in)); [exact T|]; read_on T tl H)
      |finds; rewrite table_texts0; rewrite !append_nil_r; reflexivity]). }
  destruct b; by_list A.
Qed.
(** DROP TABLE, with and without a schema name and CASCADE *)
Lemma drop_spelled entries (b c : bool) s t ts : (forall x, s = Some x -> plain x) -> plain t -> Forall plain ts ->
  reads_as entries (spaced ([kw ["DROP"]; kw ["TABLE"]] ++ (if b then [kw ["IF"; "EXISTS"]] else []) ++ [dotted_names s t ts] ++ (if c then [kw ["CASCADE"]] else [])))
    (SDropTable (map (fun x => new_table (unescape_name_string x)) (t :: ts)) b).
Proof.
  intros S P F. pose proof (good_dotted s t ts S P F) as G.
  split; [destruct b, c; cbn [app]; goods; exact G|]. clear G.
  assert (D : shown (dotted_names s t ts) = match s with Some x => [idt x; mkTok "DOT" "."] | None => [] end ++ idt t :: clist id1 ts).
  { destruct s as [x|]; [|apply shown_list; assumption]. specialize (S x eq_refl). change (dotted_names (Some x) t ts) with ([PWord x] ++ [PSym "DOT" "."] ++ names t ts).
    rewrite !shown_app, (shown_name x S), (shown_list t ts P F). reflexivity. }
  rewrite shown_spaced. destruct b, c; cbn [app flat_map]; rewrite D; show_words; rewrite ?app_nil_r; (destruct s as [s|]; cbn [app]; (split; [starts_ok|]); eexists; (split;
      [intros k K tl r T H; cbn [app]; repeat (rewrite <- ?app_assoc; cbn [app]); enter;
       lazymatch goal with
       | |- context["CASCADE_"] =>
           pose proof (heads_clist id1 ["CASCADE_"] ts (mkTok "CASCADE_" "CASCADE" :: tl) (or_introl eq_refl)) as T'; peek (Some stmt_follow) T' tt AtStar;
           (by_reads (tables_reads ts None ["CASCADE_"] ltac:(not_in)); [left; reflexivity|]; read_on T tl H)
       | _ => pose proof (heads_clist id1 _ ts _ T) as T'; peek (Some stmt_follow) T' tt AtStar;
           (by_reads (tables_reads ts None stmt_ends ltac:(not_in)); [exact T|]; read_on T tl H)
       end
      |finds; rewrite table_texts; rewrite !append_nil_r; reflexivity])).
Qed.

(** COPY *)
Definition copy_tails : list (list string * copy_format) :=
  flat_map (fun w => [(w, CopyText); (w ++ ["TEXT"], CopyText); (w ++ ["CSV"], CopyCSV); (w ++ ["BINARY"], CopyBinary);
    (w ++ ["FORMAT"; "TEXT"], CopyText); (w ++ ["FORMAT"; "CSV"], CopyCSV); (w ++ ["FORMAT"; "BINARY"], CopyBinary)]) [[]; ["WITH"]].
Lemma copy_tail b x f : format x f -> In (given b "WITH" ++ x, f) copy_tails.
Proof.
  intros [|c w g I]; [destruct b; vm_compute; tauto|]. cbn [In] in I. destruct I as [[= <- <-]|[[= <- <-]|[[= <- <-]|[]]]]; destruct b, c; vm_compute; tauto.
Qed.
Definition kws (ws : list string) : list (list piece) := map (fun w => [PWord w]) ws.
Lemma glue_kws ws : map glue (kws ws) = ws.
Proof. unfold kws. rewrite map_map. rewrite <- (map_id ws) at 2. apply map_ext. intro w. apply glue_one. Qed.
Ltac read_tail := match goal with |- context[flat_map shown (kws ?ws)] => let e := eval vm_compute in (flat_map shown (kws ws)) in change (flat_map shown (kws ws)) with e end.
Ltac good_tail := unfold kws; cbn [map app]; repeat (apply Forall_cons; [apply good_word; vm_compute; reflexivity|]); apply Forall_nil.
Lemma copy_reads entries t src x f : solid t -> solid src -> In (x, f) copy_tails ->
  reads_as entries (spaced ([kw ["COPY"]; [PWord t]; kw ["FROM"]; [PWord src]] ++ kws x)) (SCopy (new_table t) [] src f).
Proof.
  intros P Q X. vm_compute in X.
  repeat (destruct X as [[= <- <-]|X]; [split; [cbn [app]; goods; good_tail|]; rewrite shown_spaced, flat_map_app; read_tail; cbn [flat_map]; show_words; rewrite ?app_nil_r; cbn [app];
    split; [starts_ok|]; eexists; split; [read_all|visits]|]).
  contradiction.
Qed.
Lemma copy_columns_reads entries t c cs src x f : solid t -> solid c -> Forall solid cs -> solid src -> In (x, f) copy_tails ->
  reads_as entries (spaced ([kw ["COPY"]; [PWord t]; par_names c cs; kw ["FROM"]; [PWord src]] ++ kws x)) (SCopy (new_table t) (map new_column (c :: cs)) src f).
Proof.
  intros P Pc Fc Q X. pose proof (solids_plain _ Fc) as Fp. vm_compute in X.
  repeat (destruct X as [[= <- <-]|X]; [split; [plains; cbn [app]; goods; [apply good_par_names; assumption|good_tail]|];
    rewrite shown_spaced, flat_map_app; read_tail; cbn [flat_map]; rewrite (shown_par_names c cs (solid_plain c Pc) Fp); show_words; rewrite ?app_nil_r; cbn [app];
    split; [starts_ok|]; eexists; split; [intros k K tl r T H; toks; enter;
      match goal with |- denm _ _ (?a :: ?b :: ?c :: ?d :: _) _ = _ => go (Some stmt_follow) [a; b; c; d] 0 AtStar end;
      by_reads (names_reads cs None ["CLOSE_PAR"%string] ltac:(not_in)); [left; reflexivity|]; read_on T tl H
    |finds; rewrite (col_texts (fun x => new_column (unescape_string x)));
     rewrite (map_plain solid (fun x => new_column (unescape_string x)) new_column cs (fun x X => f_equal new_column (unescape_word x (proj1 X))) Fc);
     rewrite ?append_nil_r; unescapes; reflexivity]|]).
  contradiction.
Qed.
Lemma alter_schema_spelled entries s t u : plain s -> plain t -> plain u ->
  parse entries (line ["ALTER"; "TABLE"; dotted s t; "RENAME"; "TO"; u])
  = Ok [SAlterTable (mkAlter (mkTbl (unescape_name_string s) t) (Some (new_table (unescape_name_string u))) None None None None None)].
Proof.
  intros Ps Pt Pu.
  assert (P : reads_as entries (spaced [kw ["ALTER"]; kw ["TABLE"]; [PWord s; PSym "DOT" "."; PWord t]; kw ["RENAME"]; kw ["TO"]; [PWord u]])
    (SAlterTable (mkAlter (mkTbl (unescape_name_string s) t) (Some (new_table (unescape_name_string u))) None None None None None))) by simply. by_text P.
Qed.
Lemma drop_index_spelled entries b s i : plain s -> plain i ->
  parse entries (line (["DROP"; "INDEX"] ++ given b "IF EXISTS" ++ [dotted s i])) = Ok [SDropIndex (unescape_name_string s) (unescape_name_string i) b].
Proof.
  intros Ps Pi. destruct b; cbn [given app].
  - assert (P : reads_as entries (spaced [kw ["DROP"]; kw ["INDEX"]; kw ["IF"]; kw ["EXISTS"]; [PWord s; PSym "DOT" "."; PWord i]]) (SDropIndex (unescape_name_string s) (unescape_name_string i) true)) by simply. by_text P.
  - assert (P : reads_as entries (spaced [kw ["DROP"]; kw ["INDEX"]; [PWord s; PSym "DOT" "."; PWord i]]) (SDropIndex (unescape_name_string s) (unescape_name_string i) false)) by simply. by_text P.
Qed.
