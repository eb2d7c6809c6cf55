(** Property C98: which words can follow the name in a statement. *)
From Coq Require Import Lia.
From Verif Require Import GoBase ModelUtil ModelFn ModelQuery ModelEbnf ModelGrammar ModelLex ModelVisitor SpecRound SpecStart SpecSelect SpecSpell SpecNone SpecSource
  ProofFn ProofEbnf ProofMachine ProofLex ProofParse ProofRound ProofRound2 ProofRound3 ProofRound4 ProofRound5 ProofRound8 ProofRound10 ProofRound11 ProofRound13 ProofSelect2 ProofSpell ProofNone ProofNone3
  ProofTest5 ProofTable3 ProofRefuse ProofRefuse2 ProofRefuse3 ProofWhere ProofStart ProofAlias.
Local Open Scope string_scope.
Local Open Scope list_scope.

(** the words of a statement up to some place, and the words that can come next *)
Inductive goes_on : list string -> list string -> Prop :=
| go_update t : any_name t -> goes_on ["UPDATE"; t] ["AS"; "INDEXED"; "NOT"; "SET"]
| go_update_set t c : any_name t -> any_name c -> goes_on ["UPDATE"; t; "SET"; c] []
| go_insert t : any_name t -> goes_on ["INSERT"; "INTO"; t] ["AS"; "DEFAULT"; "SELECT"; "VALUES"; "WITH"]
| go_create_table t : any_name t -> goes_on ["CREATE"; "TABLE"; t] ["AS"]
| go_create_index i : any_name i -> goes_on ["CREATE"; "INDEX"; i] ["ON"]
| go_unique : goes_on ["CREATE"; "UNIQUE"] ["INDEX"]
| go_alter_table t : any_name t -> goes_on ["ALTER"; "TABLE"; t] ["ADD"; "DROP"; "RENAME"]
| go_alter_database d : any_name d -> goes_on ["ALTER"; "DATABASE"; d] ["RENAME"]
| go_alter_rename d : any_name d -> goes_on ["ALTER"; "DATABASE"; d; "RENAME"] ["TO"]
| go_copy t : any_name t -> goes_on ["COPY"; t] ["AS"; "FROM"; "INDEXED"; "NOT"].

Ltac forall_good := match goal with |- Forall good _ => repeat match goal with
  | |- Forall good [] => apply Forall_nil
  | |- Forall good (_ :: _) => apply Forall_cons
  | |- good (kw _) => apply good_kw; vm_compute; reflexivity
  | |- good [PWord _] => apply good_name; assumption
  end end.
Ltac goes F ps ks := apply (F ps (map (fun k => [k]) ks)); [forall_good|shows'; repeat (apply Forall2_cons; [left; reflexivity|]); apply Forall2_nil
  |cbn [app]; text'|vm_compute; reflexivity|discriminate].

Lemma goes_refused entries ws allowed w rest : goes_on ws allowed -> word w -> ~ In (to_upper w) allowed ->
  parse entries (line (ws ++ [w]) ++ " " ++ rest)%string = Err ErrParse.
Proof.
  intros G W N. apply word_is in W. pose proof (fun ws => kind_others w ws W) as Z. pose proof (good_word w W) as Gw.
  assert (F : forall ps ks text, Forall good ps -> has_kinds (shown (spaced ps)) ks -> glue (spaced (ps ++ [[PWord w]])) = text ->
    mays None 5000 (MEval (Rule "parse" 0)) (ks ++ [others allowed]) [] = false -> ps <> [] -> parse entries (text ++ " " ++ rest)%string = Err ErrParse).
  { intros ps ks text Gp K <- M Ne. apply (mays_refused entries (ks ++ [others allowed])); [exact M| |].
    - apply good_spaced. apply Forall_app. split; [exact Gp|constructor; [exact Gw|constructor]].
    - rewrite shown_spaced in *. rewrite flat_map_app. apply Forall2_app; [exact K|]. cbn [flat_map app]. rewrite app_nil_r.
      apply Forall2_cons; [exact (Z allowed N)|constructor]. }
  destruct G as [t Ht|t c Ht Hc|t Ht|t Ht|i Hi| |t Ht|d Hd|d Hd|t Ht]; known.
  - goes F [kw ["UPDATE"]; [PWord t]] ["UPDATE_"; "IDENTIFIER"].
  - goes F [kw ["UPDATE"]; [PWord t]; kw ["SET"]; [PWord c]] ["UPDATE_"; "IDENTIFIER"; "SET_"; "IDENTIFIER"].
  - goes F [kw ["INSERT"]; kw ["INTO"]; [PWord t]] ["INSERT_"; "INTO_"; "IDENTIFIER"].
  - goes F [kw ["CREATE"]; kw ["TABLE"]; [PWord t]] ["CREATE_"; "TABLE_"; "IDENTIFIER"].
  - goes F [kw ["CREATE"]; kw ["INDEX"]; [PWord i]] ["CREATE_"; "INDEX_"; "IDENTIFIER"].
  - goes F [kw ["CREATE"]; kw ["UNIQUE"]] ["CREATE_"; "UNIQUE_"].
  - goes F [kw ["ALTER"]; kw ["TABLE"]; [PWord t]] ["ALTER_"; "TABLE_"; "IDENTIFIER"].
  - goes F [kw ["ALTER"]; kw ["DATABASE"]; [PWord d]] ["ALTER_"; "DATABASE_"; "IDENTIFIER"].
  - goes F [kw ["ALTER"]; kw ["DATABASE"]; [PWord d]; kw ["RENAME"]] ["ALTER_"; "DATABASE_"; "IDENTIFIER"; "RENAME_"].
  - goes F [kw ["COPY"]; [PWord t]] ["COPY_"; "IDENTIFIER"].
Qed.

(** C98: only these words, in letters of any case, are not refused there, whatever is written after them. *)
Theorem C98_next_word : forall entries ws allowed w rest, goes_on ws allowed -> word w -> ~ In (to_upper w) allowed ->
  parse entries (line (ws ++ [w]) ++ " " ++ rest)%string = Err ErrParse.
Proof. exact goes_refused. Qed.
Print Assumptions C98_next_word.
Example C98_example : goes_on ["UPDATE"; "t"] ["AS"; "INDEXED"; "NOT"; "SET"] /\ word "where" /\ ~ In (to_upper "where") ["AS"; "INDEXED"; "NOT"; "SET"].
Proof.
  split; [apply go_update, any_checked; vm_compute; reflexivity|]. split; [|vm_compute; intuition discriminate].
  exists "w"%char, "here". split; [reflexivity|]. split; [|intros c I; left; cbn in I; repeat (destruct I as [<-|I]); try contradiction I]; unfold letter; cbn; lia.
Qed.
(** and each of these words can be there *)
Example C98_words_example : forallb (fun q => match parse data_type_strings q with Err _ => false | _ => true end)
  ["UPDATE t AS u SET a = 1"; "UPDATE t INDEXED BY i SET a = 1"; "UPDATE t NOT INDEXED SET a = 1"; "UPDATE t SET a = 1";
   "INSERT INTO t AS u (a) VALUES (1)"; "INSERT INTO t DEFAULT VALUES"; "INSERT INTO t SELECT * FROM u"; "INSERT INTO t VALUES (1)"; "INSERT INTO t WITH c AS (SELECT a FROM u) SELECT * FROM c";
   "CREATE TABLE t AS SELECT * FROM u"; "CREATE INDEX i ON t (a)"; "CREATE UNIQUE INDEX i ON t (a)";
   "ALTER TABLE t ADD COLUMN a INT"; "ALTER TABLE t DROP COLUMN a"; "ALTER TABLE t RENAME TO u"; "ALTER DATABASE d RENAME TO e";
   "COPY t FROM 'f'"; "COPY t AS u FROM 'f'"; "COPY t NOT INDEXED FROM 'f'"; "COPY t INDEXED BY i FROM 'f'"] = true.
Proof. vm_compute. reflexivity. Qed.
