(** Property C69: upper and lower case in a text. *)
From Verif Require Import GoBase ModelUtil ModelNum ModelFn ModelQuery ModelEbnf ModelGrammar ModelLex ModelVisitor
  SpecParse SpecCase ProofCase ProofCase2.

(** Two texts that differ in upper and lower case only have the same verdict: both are read, both are the
    same error, or both panic. *)
Theorem C69_verdict : forall entries q q', same_letters q q' ->
  (forall e, parse entries q = Err e <-> parse entries q' = Err e) /\
  (parse entries q = Panic <-> parse entries q' = Panic) /\
  ((exists ss, parse entries q = Ok ss) <-> exists ss, parse entries q' = Ok ss).
Proof. exact verdict. Qed.
Print Assumptions C69_verdict.
(** Their parse trees are the same but for the case of letters ... *)
Theorem C69_tree : forall q q' t, same_letters q q' -> parse_tree (token_stream q) = Found [(""%string, t)] ->
  exists t', parse_tree (token_stream q') = Found [(""%string, t')] /\ respelt t t'.
Proof. exact same_tree. Qed.
Print Assumptions C69_tree.
(** ... and when they agree in the user's own words, they are the same statements: the case of keywords does
    not matter. *)
Theorem C69_keywords : forall entries q q' t t', same_letters q q' ->
  parse_tree (token_stream q) = Found [(""%string, t)] -> parse_tree (token_stream q') = Found [(""%string, t')] ->
  own_words t = own_words t' -> parse entries q = parse entries q'.
Proof. exact keywords. Qed.
Print Assumptions C69_keywords.

(** The own words of some texts, for the examples. *)
Definition own_words_of (q : string) : list string :=
  match parse_tree (token_stream q) with Found [(_, t)] => own_words t | _ => ["no tree"%string] end.
Example C69_example :
  let q := "CREATE TABLE t (id INT PRIMARY KEY, nm VARCHAR(10)); SELECT id FROM t WHERE nm = 'Ab' ORDER BY id DESC LIMIT 3"%string in
  let q' := "create table t (id INT primary key, nm VARCHAR(10)); Select id From t wHere nm = 'Ab' order by id desc limit 3"%string in
  same_letters q q' /\ q <> q' /\ own_words_of q = own_words_of q' /\
  own_words_of q = ["t"; "id"; "INT"; "nm"; "VARCHAR"; "10"; "id"; "t"; "nm"; "'Ab'"; "id"; "3"]%string /\
  exists ss, parse data_type_strings q = Ok ss /\ parse data_type_strings q' = Ok ss.
Proof.
  cbv zeta. split; [vm_compute; reflexivity|]. split; [discriminate|]. split; [vm_compute; reflexivity|]. split; [vm_compute; reflexivity|].
  eexists. split; vm_compute; reflexivity.
Qed.
(** The own words do matter, even where they are keywords: the KEY of a table definition that the grammar takes
    for a column name is an index in upper case and a column in lower case, and NULL keeps its spelling. *)
Theorem C69_key_refuted :
  (exists s, parse data_type_strings "CREATE TABLE t (a INT, KEY i a)" = Ok [SCreateTable s false] /\ map c_name (s_columns s) = ["a"%string] /\ map i_name (s_indexes s) = ["i"%string]) /\
  (exists s, parse data_type_strings "CREATE TABLE t (a INT, key i a)" = Ok [SCreateTable s false] /\ map c_name (s_columns s) = ["a"; "key"]%string /\ s_indexes s = []).
Proof. split; refine (ex_intro _ _ (conj _ _)); [vm_compute; reflexivity| |vm_compute; reflexivity|]; split; reflexivity. Qed.
Print Assumptions C69_key_refuted.
