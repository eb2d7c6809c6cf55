(** The SELECTs of information_schema.columns that cannot be made. *)
From Coq Require Import Permutation Arith.
From Verif Require Import GoBase FactsBase ModelUtil ModelNum ModelFn ModelQuery ModelEbnf ModelGrammar ModelLex ModelVisitor ModelResultSet
  ModelSystem SpecRound SpecSystem ProofEbnf ProofMachine ProofLex ProofRound ProofRound2 ProofRound3 ProofRound4 ProofTest5 ProofFn ProofRefuse2 ProofSystem.
Local Open Scope string_scope.
Local Open Scope list_scope.

Definition where_head : list (list piece) :=
  [kw ["SELECT"]; [PSym "STAR" "*"]; kw ["FROM"]; [PWord "information_schema"; PSym "DOT" "."; PWord "COLUMNS"]; kw ["WHERE"]].
Definition is_text (c b : string) : list piece := [PWord c; sp; PSym "ASSIGN" "="; sp; PText b].
Lemma good_head : Forall good where_head.
Proof. repeat (apply Forall_cons; [repeat split; vm_compute; reflexivity|]). apply Forall_nil. Qed.
Lemma good_is_text c b : In c ["TABLE_SCHEMA"; "TABLE_NAME"] -> paired b -> good (is_text c b).
Proof.
  intros I P. apply paired_pairs in P. destruct I as [<-|[<-|[]]]; (split; [|split; reflexivity]); cbn [is_text forallb ok_piece]; rewrite P; reflexivity.
Qed.
Lemma good_kw1 w : is_word w = true -> good (kw [w]).
Proof. intro W. apply good_kw. cbn [forallb]. rewrite W. reflexivity. Qed.

Lemma refused entries bs ks q rest : Forall good bs -> mays None 5000 (MEval (Rule "parse" 0)) ks [] = false ->
  Forall2 (fun t c => In (tk t) c) (flat_map shown bs) ks -> q = (join " " (map glue bs) ++ " " ++ rest)%string -> parse_select entries q = Err ErrParse.
Proof.
  intros G M F ->. unfold parse_select. rewrite <- glue_spaced, (mays_refused entries ks (spaced bs) rest M); [reflexivity|apply good_spaced, G|rewrite shown_spaced; exact F].
Qed.
Ltac kinds := repeat (apply Forall2_cons; [left; vm_compute; reflexivity|]); apply Forall2_nil.

(** two tables or more *)
Lemma several_refused entries db t u ts : db <> "" -> paired db -> new_columns_stmt entries db (t :: u :: ts) None = Err ErrParse.
Proof.
  intros N P. cbn [new_columns_stmt]. unfold generate_select.
  rewrite (refused entries (where_head ++ [is_text "TABLE_SCHEMA" db; kw ["AND"]; kw ["TABLE_NAME"]; kw ["IN"]])
    (map (fun k => [k]) ["SELECT_"; "STAR"; "FROM_"; "IDENTIFIER"; "DOT"; "IDENTIFIER"; "WHERE_"; "IDENTIFIER"; "ASSIGN"; "STRING_LITERAL"; "AND_"; "IDENTIFIER"; "IN_"]) _
    ("(" ++ join "," (map (fun t => "'" ++ t ++ "'") (t :: u :: ts)) ++ ")")%string); [reflexivity|..].
  - apply Forall_app. split; [apply good_head|]. apply Forall_cons; [apply good_is_text; [left; reflexivity|exact P]|].
    repeat (apply Forall_cons; [apply good_kw1; reflexivity|]). apply Forall_nil.
  - vm_compute. reflexivity.
  - kinds.
  - unfold generated_query. destruct db as [|x db]; [destruct (N eq_refl)|]. replace ((0 <? String.length (String x db))%nat) with true by reflexivity.
    cbn [where_head app map glue is_text kw ptext sp join fold_right]. rewrite ?sapp_assoc. reflexivity.
Qed.
(** a table, and no database *)
Lemma no_database_refused entries t ts : new_columns_stmt entries "" (t :: ts) None = Err ErrParse.
Proof.
  cbn [new_columns_stmt]. unfold generate_select.
  rewrite (refused entries (where_head ++ [[]; kw ["AND"]; kw ["TABLE_NAME"]])
    (map (fun k => [k]) ["SELECT_"; "STAR"; "FROM_"; "IDENTIFIER"; "DOT"; "IDENTIFIER"; "WHERE_"; "AND_"; "IDENTIFIER"]) _
    (match ts with [] => "= '" ++ t ++ "'" | _ => "IN (" ++ join "," (map (fun t => "'" ++ t ++ "'") (t :: ts)) ++ ")" end)%string); [reflexivity|..].
  - apply Forall_app. split; [apply good_head|]. apply Forall_cons; [apply good_nil|].
    repeat (apply Forall_cons; [apply good_kw1; reflexivity|]). apply Forall_nil.
  - vm_compute. reflexivity.
  - kinds.
  - unfold generated_query. replace ((0 <? String.length "")%nat) with false by reflexivity. destruct ts; reflexivity.
Qed.
(** three names or more *)
Lemma three_refused entries t u v ts : paired t -> paired u -> table_names_query entries (t :: u :: v :: ts) = Err ErrParse.
Proof.
  intros T U. unfold table_names_query.
  apply (refused entries (where_head ++ [is_text "TABLE_NAME" t; kw ["OR"]; is_text "TABLE_NAME" u; kw ["OR"]])
    (map (fun k => [k]) ["SELECT_"; "STAR"; "FROM_"; "IDENTIFIER"; "DOT"; "IDENTIFIER"; "WHERE_"; "IDENTIFIER"; "ASSIGN"; "STRING_LITERAL"; "OR_";
      "IDENTIFIER"; "ASSIGN"; "STRING_LITERAL"; "OR_"]) _ ("TABLE_NAME = '" ++ v ++ "'" ++ or_names false ts)%string).
  - apply Forall_app. split; [apply good_head|]. repeat (apply Forall_cons; [first [apply good_kw1; reflexivity|apply good_is_text; [right; left; reflexivity|assumption]]|]). apply Forall_nil.
  - vm_compute. reflexivity.
  - kinds.
  - unfold table_names_query_text. cbn [or_names where_head app map glue is_text kw ptext sp join fold_right]. rewrite ?sapp_assoc. reflexivity.
Qed.

(** a quote in the name of the database *)
Lemma quote_read entries a b : Permutation entries data_type_strings -> plain_text a -> plain_text b ->
  exists s, new_columns_stmt entries (a ++ "' AND TABLE_NAME = '" ++ b)%string [] None = Ok (mkColumnsStmt s (a ++ "' AND TABLE_NAME = '" ++ b)%string []) /\
    forall db tables, new_columns_stmt entries db tables (Some s) = Ok (mkColumnsStmt s a [b]).
Proof.
  intros P A B. exists (columns_select (Some (EAnd (text_eq "TABLE_SCHEMA" a) (text_eq "TABLE_NAME" b)))). split.
  - cbn [new_columns_stmt]. unfold generate_select.
    rewrite (columns_parse entries (Some (EAnd (text_eq "TABLE_SCHEMA" a) (text_eq "TABLE_NAME" b)))); [reflexivity|exact P| |].
    + constructor; apply text_eq_ok; try exact A; try exact B; reflexivity.
    + unfold generated_query. replace ((0 <? String.length (a ++ "' AND TABLE_NAME = '" ++ b))%nat) with true.
      2:{ symmetry. apply Nat.ltb_lt. destruct a; cbn; apply Nat.lt_0_succ. }
      cbn [expr_string text_eq opt_literal_string literal_string l_type l_value show_value].
      unfold escape_string. rewrite ?append_nil_r, !sapp_assoc. reflexivity.
  - intros. cbn [new_columns_stmt]. unfold traverse_select. cbn [sel_where columns_select traverse text_eq l_value].
    replace (equal_fold (c_name (new_column "TABLE_SCHEMA")) "TABLE_SCHEMA") with true by (symmetry; reflexivity). cbn [rbind fst snd].
    replace (equal_fold (c_name (new_column "TABLE_NAME")) "TABLE_SCHEMA") with false by (symmetry; reflexivity).
    replace (equal_fold (c_name (new_column "TABLE_NAME")) "TABLE_NAME") with true by (symmetry; reflexivity). reflexivity.
Qed.
