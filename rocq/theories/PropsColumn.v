(** Property C71: the columns of a result. *)
From Verif Require Import GoBase FactsBase ModelUtil ModelFn ModelQuery ModelVisitor ModelAggregate ModelColumn SpecRound SpecColumn ProofFn ProofWhere PropsRound.
From Coq Require Import Permutation.

Lemma is_last_fold {X} (get : scol -> X) (pick : copt -> option X) :
  (forall c o, get (copt_apply c o) = match pick o with Some x => x | None => get c end) ->
  forall opts c, is_last pick opts (get c) (get (fold_left copt_apply opts c)).
Proof.
  intros A opts. induction opts as [|o opts IH]; intro c; [right; split; [constructor|reflexivity]|].
  cbn [fold_left]. destruct (IH (copt_apply c o)) as [(b & p & a & E & P & F)|[F E]].
  - left. exists (o :: b), p, a. rewrite E at 1. split; [reflexivity|]. split; assumption.
  - rewrite E, A. destruct (pick o) as [x|] eqn:P.
    + left. exists [], o, opts. split; [reflexivity|]. split; [exact P|exact F].
    + right. split; [constructor; [exact P|exact F]|reflexivity].
Qed.

(** A new column has the name, the type, the constraint and the function of the last option of each kind ... *)
Theorem C71_options : forall opts, let c := new_result_column opts in
  is_last a_name opts "" (sc_name c) /\ is_last a_type opts UnknownData (sc_type c)
  /\ is_last a_constraint opts 0%N (sc_const c) /\ is_last a_function opts None (sc_function c).
Proof.
  intro opts. set (z := mkScol "" UnknownData 0%N None). unfold new_result_column, sc_function. fold z.
  split; [|split; [|split]].
  - exact (is_last_fold sc_name a_name ltac:(intros c []; reflexivity) opts z).
  - exact (is_last_fold sc_type a_type ltac:(intros c []; reflexivity) opts z).
  - exact (is_last_fold sc_const a_constraint ltac:(intros c []; reflexivity) opts z).
  - exact (is_last_fold sc_fn a_function ltac:(intros c []; reflexivity) opts z).
Qed.
Print Assumptions C71_options.
(** ... it has the arguments of that function, and none without one; it is the asterisk iff that is its name. *)
Theorem C71_answers : forall opts, let c := new_result_column opts in
  (forall f, sc_function c = Some f -> sc_arguments c = f_args f) /\ (sc_function c = None -> sc_arguments c = [])
  /\ (sc_is_asterisk c = true <-> is_last a_name opts "" "*") /\ is_last a_name opts "" (sc_string c).
Proof.
  intros opts c. destruct (C71_options opts) as (N & _). fold c in N. unfold sc_function, sc_arguments, sc_is_asterisk, sc_string.
  split; [intros f ->; reflexivity|]. split; [intros ->; reflexivity|]. split; [|exact N]. split.
  - intro E. apply String.eqb_eq in E. rewrite E in N. exact N.
  - intro L. apply String.eqb_eq. destruct N as [(b & o & a & E & P & F)|[F E]], L as [(b' & o' & a' & E' & P' & F')|[F' E']].
    + assert (Q : o = o').
      { clear - E E' P P' F F'. rewrite E in E'. clear E. revert b' E'. induction b as [|x b IH]; intros [|x' b'] E'; cbn in E'.
        - injection E' as H _. exact H.
        - injection E' as _ ->. rewrite Forall_forall in F. specialize (F o'). rewrite F in P'; [discriminate P'|]. apply in_or_app. right. left. reflexivity.
        - injection E' as -> <-. rewrite Forall_forall in F'. specialize (F' o). rewrite F' in P; [discriminate P|]. apply in_or_app. right. left. reflexivity.
        - injection E' as _ E'. exact (IH b' E'). }
      congruence.
    + rewrite Forall_forall in F'. specialize (F' o). rewrite F' in P; [discriminate P|]. rewrite E. apply in_or_app. right. left. reflexivity.
    + rewrite Forall_forall in F. specialize (F o'). rewrite F in P'; [discriminate P'|]. rewrite E'. apply in_or_app. right. left. reflexivity.
    + congruence.
Qed.
Print Assumptions C71_answers.
Example C71_case : let c := new_result_column [CoName "a"; CoType IntType; CoName "*"; CoConst 2%N] in
  sc_name c = "*"%string /\ sc_is_asterisk c = true /\ sc_type c = IntType /\ sc_definition_string c = "* INT NOT NULL"%string.
Proof. vm_compute. tauto. Qed.
(** A column without a function is a function all the same. *)
Theorem C71_is_function_refuted : forall matches c, sc_function c = None -> sc_is_function matches c = true.
Proof. intros m c _. unfold sc_is_function. destruct (m (sc_name c)); reflexivity. Qed.
Print Assumptions C71_is_function_refuted.

(** The definitions of columns without constraint can be written in a CREATE TABLE, and name and type are read
    from them again. *)
Theorem C71_definitions_partial : forall entries t cols, Permutation entries data_type_strings -> bare_name t -> some writable cols ->
  exists s, parse entries (create_text t cols) = Ok [SCreateTable s true] /\ t_name (s_table s) = t
    /\ map (fun c => (c_name c, option_map d_type (c_def c))) (s_columns s) = map (fun c => (sc_name c, Some (sc_type c))) cols.
Proof.
  intros entries t cols P T [NE W].
  set (col c := new_def_column (sc_name c) (new_data_def (sc_type c) (-1))).
  assert (S : supported (SCreateTable (new_schema t (map col cols) []) true)).
  { constructor; [exact T| |constructor]. split; [destruct cols; [congruence|discriminate]|].
    apply Forall_forall. intros x I. apply in_map_iff in I. destruct I as (c & <- & I). rewrite Forall_forall in W.
    destruct (W c I) as (N & D & _). constructor; [exact N|exact D|left; reflexivity]. }
  destruct (C43_read_back entries _ P S) as (q & Q & R).
  exists (new_schema t (map col cols) []). split; [|split; [reflexivity|]].
  - rewrite <- R. f_equal. cbn [stmt_string] in Q. injection Q as <-.
    assert (D : map definition_string (map col cols) = map sc_definition_string cols).
    { rewrite map_map. apply map_ext_in. intros c I. rewrite Forall_forall in W. destruct (W c I) as (_ & _ & K).
      unfold definition_string, sc_definition_string, col, new_def_column, new_data_def, data_def_string. cbn [c_def c_name d_length d_type].
      rewrite K. reflexivity. }
    unfold create_text, create_table_string, columns_definition_string. cbn [s_columns s_indexes new_schema]. rewrite D.
    unfold join_with_space, if_not_exists_string. cbn [join s_table new_table t_name]. change join_with_comma with (String.concat ", ").
    reflexivity.
  - cbn [s_columns new_schema]. rewrite map_map. reflexivity.
Qed.
Print Assumptions C71_definitions_partial.
Example C71_definitions_case : some writable [mkScol "id" IntType 0%N None; mkScol "x" VarCharType 0%N None]
  /\ create_text "t" [mkScol "id" IntType 0%N None; mkScol "x" VarCharType 0%N None] = "CREATE TABLE IF NOT EXISTS t (id INT, x VARCHAR)"%string.
Proof.
  split; [|reflexivity]. split; [discriminate|]. repeat (apply Forall_cons || apply Forall_nil).
  all: (split; [apply bare_checked; vm_compute; reflexivity|split; [cbn; intuition discriminate|reflexivity]]).
Qed.
(** Constraints do not come back: NOT NULL and UNIQUE are lost, and an unnamed combination is not even written. *)
Theorem C71_constraint_refuted :
  (forall k, In k [2; 4]%N -> sc_definition_string (mkScol "a" IntType k None) <> "a INT"%string
    /\ exists s, parse data_type_strings (create_text "t" [mkScol "a" IntType k None]) = Ok [SCreateTable s true]
         /\ s_columns s = [new_def_column "a" (new_data_def IntType (-1))] /\ s_indexes s = [])
  /\ sc_definition_string (mkScol "a" IntType 6%N None) = "a INT"%string.
Proof.
  split; [|reflexivity]. intros k [<-|[<-|[]]].
  all: split; [vm_compute; discriminate|refine (ex_intro _ _ (conj _ (conj _ _))); [vm_compute; reflexivity|reflexivity|reflexivity]].
Qed.
Print Assumptions C71_constraint_refuted.
