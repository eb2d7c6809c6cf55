(** More about C21, C24, C70 and C80: what wrong programs showed to be missing. *)
From Coq Require Import Floats.SpecFloat Lia.
From Verif Require Import GoBase FactsBase ModelUtil ModelNum ModelResultSet ModelFn ModelAggr ModelQuery ModelEbnf ModelGrammar ModelLex ModelVisitor ModelSqltest ModelFile ModelErrors SpecFn ProofFn PropsFn PropsAggr.

(** C24: a value that is neither a list nor a map is the only argument, and nil is none. *)
Theorem C24_one_argument : forall (V : Type) (to_float : option V -> option float) (to_str : option V -> option string) of_text lib odd random e names (v : V),
  execute to_float to_str of_text lib odd random e names (XOne v) = execute to_float to_str of_text lib odd random e names (XList [Some v])
  /\ execute to_float to_str of_text lib odd random e names XNil = execute to_float to_str of_text lib odd random e names (XList []).
Proof. intros. split; reflexivity. Qed.
Print Assumptions C24_one_argument.
(** ExecuteFunction with a list executes the function of that name on it, ... *)
Theorem C24_function_of_list : forall (V : Type) (to_float : option V -> option float) (to_str : option V -> option string) of_text lib odd random name e names (l : list (option V)),
  same_text name (exe_name e) -> e <> LOG10 ->
  execute_function to_float to_str of_text lib odd random name (XList l) = execute to_float to_str of_text lib odd random e names (XList l).
Proof. intros V tf ts ot lib odd random name e names l N L. unfold execute_function. rewrite (own_executor name e N L). reflexivity. Qed.
Print Assumptions C24_function_of_list.
(** ... but with a map it executes it without arguments: what the map holds makes no difference. *)
Theorem C24_function_of_map_refuted : forall (V : Type) (to_float : option V -> option float) (to_str : option V -> option string) of_text lib odd random name (m : list (string * option V)),
  execute_function to_float to_str of_text lib odd random name (XMap m) = execute_function to_float to_str of_text lib odd random name (XList []).
Proof. intros. unfold execute_function. destruct (new_executor name); reflexivity. Qed.
Print Assumptions C24_function_of_map_refuted.

Example C24_function_example :
  execute_function exv_float exv_str exv_text ex_lib ex_odd None "abs" (XList [ex_num (-3)]) = Ok (FvFloat (float_of_int 3)) /\
  execute_function exv_float exv_str exv_text ex_lib ex_odd None "abs" (XMap [("a", ex_num (-3))]) <> Ok (FvFloat (float_of_int 3)).
Proof. split; vm_compute; [reflexivity|discriminate]. Qed.

(** C70: an error that was passed on any number of times, each time wrapped with a text in front, is still recognised, and as nothing else. *)
Definition passed_on (texts : list string) (e : error) : error := fold_right (fun t i => errorf (t ++ ": %w") [AErr i]) e texts.
Lemma errorf_text : forall t rest args msg inner, (forall c, In c (list_ascii_of_string t) -> c <> "%"%char) ->
  errorf_from (t ++ rest) args msg inner = errorf_from rest args (msg ++ t) inner.
Proof.
  induction t as [|c t IH]; intros rest args msg inner H.
  - rewrite append_nil_r. reflexivity.
  - assert (C : c <> "%"%char) by (apply H; left; reflexivity).
    assert (E : errorf_from (String c t ++ rest) args msg inner = errorf_from (t ++ rest) args (msg ++ String c "") inner).
    { cbn [append errorf_from]. destruct c as [[] [] [] [] [] [] [] []]; try reflexivity. contradiction C. reflexivity. }
    rewrite E, IH by (intros x X; apply H; right; exact X). rewrite sapp_assoc. reflexivity.
Qed.
Theorem C70_passed_on : forall texts e s, (forall t c, In t texts -> In c (list_ascii_of_string t) -> c <> "%"%char) ->
  errors_is (passed_on texts e) s = errors_is e s.
Proof.
  intros texts e s. induction texts as [|t texts IH]; intro H; [reflexivity|].
  cbn [passed_on fold_right]. unfold errorf. rewrite errorf_text by (intros c C; apply (H t c); [left; reflexivity|exact C]).
  change (errors_is (passed_on texts e) s = errors_is e s). apply IH. intros u c U. apply H. right. exact U.
Qed.
Print Assumptions C70_passed_on.
Example C70_passed_on_example : errors_is (passed_on ["select"; "server"] (errorf "table (%v) is %w" [AText "t"; AErr (Sentinel e_not_exist)])) e_not_exist = true
  /\ message (passed_on ["server"] (Sentinel e_not_exist)) = "server: not exist"%string.
Proof. split; vm_compute; reflexivity. Qed.

(** C80: testing what is no directory fails. *)
Theorem C80_no_directory_fails : forall entries cfg contents matches path r, r = RootNone \/ r = RootFile ->
  successful (test_query_directory entries cfg contents matches path r) = false.
Proof. intros entries cfg contents matches path r [->| ->]; reflexivity. Qed.
Print Assumptions C80_no_directory_fails.

(** C21: a member of a set with more groups than the first one is an error. *)
Lemma append_length {A} : forall (rows more out : list (list A)), append_rows rows more = Ok out -> length more <= length rows /\ length out = length rows.
Proof.
  induction rows as [|r rows IH]; intros [|m more] out; cbn; intro H; try discriminate; try (injection H as <-; split; cbn; lia).
  unfold rbind in H. destruct (set_tail m) as [t| |]; try discriminate. destruct (append_rows rows more) as [rest| |] eqn:E; try discriminate.
  injection H as <-. destruct (IH _ _ E). cbn. lia.
Qed.
Lemma merge_length {A} : forall sets (rows out : list (list A)), merge_rows rows sets = Ok out -> Forall (fun s => length s <= length rows) sets /\ length out = length rows.
Proof.
  induction sets as [|s sets IH]; intros rows out; cbn; [intro H; injection H as <-; split; [constructor|reflexivity]|].
  unfold rbind. destruct (append_rows rows s) as [rows'| |] eqn:E; try discriminate. intro H. destruct (append_length _ _ _ E) as [L N]. destruct (IH _ _ H) as [F M].
  rewrite N in *. split; [constructor; assumption|exact M].
Qed.
Theorem C21_more_rows_partial : forall (V : Type) (compare : option V -> option V -> option comparison) mem sort p ps r rs out,
  Forall2 (fun m x => finalize compare mem ModelAggr.OrderNone sort (snd m) (fst m) = Ok x) (p :: ps) (r :: rs) ->
  aggr_set_finalize compare mem sort (p :: ps) = Ok out ->
  length (fr_rows out) = length (fr_rows r) /\ forall x, In x rs -> length (fr_rows x) <= length (fr_rows r).
Proof.
  intros V compare mem sort p ps r rs out F.
  assert (E : forall l xs, Forall2 (fun m x => finalize compare mem ModelAggr.OrderNone sort (snd m) (fst m) = Ok x) l xs -> finalize_all compare mem sort l = Ok xs).
  { intros l xs G. induction G as [|[m i] x l xs H G IH]; [reflexivity|]. cbn in *. rewrite H. cbn. rewrite IH. reflexivity. }
  unfold aggr_set_finalize. rewrite (E _ _ F). cbn [rbind set_finalize].
  destruct (merge_columns _ _) as [cols| |]; cbn [rbind]; try discriminate. destruct (merge_rows _ _) as [rows| |] eqn:M; cbn [rbind]; try discriminate.
  intro H. injection H as <-. destruct (merge_length _ _ _ M) as [G N]. split; [exact N|]. intros x X. rewrite Forall_map, Forall_forall in G. apply G, X.
Qed.
Print Assumptions C21_more_rows_partial.
Example C21_more_rows_example :
  let rows_of iters := match aggr_set_finalize ex_cmp (ex_mem ex_rows2) ex_sort (combine (fst ex_set_run) iters) with Ok s => Some (length (fr_rows s)) | _ => None end in
  rows_of [["x"; "y"]; ["x"; "y"]]%string = Some 2 /\ rows_of [["x"; "y"]; ["x"]]%string = Some 2 /\ rows_of [["x"]; ["x"; "y"]]%string = None.
Proof. vm_compute. repeat split. Qed.

(** C76: a function keeps its executor and its aggregator: asked again, it returns the same ones with the same arguments and changes no more. *)
Theorem C76_asked_again : forall f x groups k,
  (snd (func_executor f) = Ok x -> (f_exec f = Some x \/ f_exec f = None /\ snd x = f_args f) /\ func_executor (fst (func_executor f)) = (fst (func_executor f), Ok x))
  /\ (snd (func_aggregator f groups) = Ok k -> func_aggregator (fst (func_aggregator f groups)) groups = (fst (func_aggregator f groups), Ok k)).
Proof.
  intros f x groups k. split.
  - unfold func_executor. destruct (f_exec f) as [y|] eqn:E; cbn [snd fst].
    + intros H. injection H as ->. rewrite E. split; [left; reflexivity|reflexivity].
    + destruct (new_executor (f_name f)) as [e|e|]; cbn [snd fst]; [|discriminate|discriminate]. intros H. injection H as <-.
      cbn. split; [right; split; reflexivity|reflexivity].
  - unfold func_aggregator. destruct (f_aggr f) as [y|] eqn:E; cbn [snd fst].
    + intros H. injection H as ->. rewrite E. reflexivity.
    + destruct (new_aggregator_kind (f_name f)) as [a|e|]; cbn [snd fst]; [|discriminate|discriminate].
      destruct (new_aggr a [OptGroups groups; OptArgs (f_args f)]) as [b|e|]; cbn [snd fst]; [|discriminate|discriminate].
      intros H. injection H as <-. reflexivity.
Qed.
Print Assumptions C76_asked_again.
Example C76_asked_again_example : exists x, snd (func_executor (new_func "ABS" ["a"])) = Ok x /\ snd x = ["a"%string].
Proof. eexists. split; vm_compute; reflexivity. Qed.
