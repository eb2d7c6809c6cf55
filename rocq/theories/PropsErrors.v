(** Property C70: errors can be told apart with errors.Is and name what they are about. *)
From Verif Require Import GoBase FactsBase ProofFn ModelErrors SpecErrors.

Definition named (p : string * string) (s : sentinel) : Prop := (se_package s, se_name s) = p.
Definition kept (p : string * string) (e : error) : Prop :=
  forall s, In s sentinels -> (errors_is e s = true <-> named p s).

Definition is_named (p : string * string) (s : sentinel) : bool := String.eqb (se_package s) (fst p) && String.eqb (se_name s) (snd p).
Lemma is_named_ok p s : is_named p s = true <-> named p s.
Proof.
  unfold is_named, named. destruct p as [a b]. cbn [fst snd]. split.
  - intro H. apply andb_prop in H. destruct H as [A B]. apply String.eqb_eq in A, B. congruence.
  - intro H. injection H as -> ->. rewrite !String.eqb_refl. reflexivity.
Qed.
Lemma keep t p e : errors_is e = same_sentinel t -> is_named p t = true -> kept p e.
Proof.
  intros E N s _. rewrite E. apply is_named_ok in N. unfold named in N. subst p. unfold same_sentinel, named. split.
  - intro H. apply andb_prop in H. destruct H as [A B]. apply String.eqb_eq in A, B. congruence.
  - intro H. injection H as -> ->. rewrite !String.eqb_refl. reflexivity.
Qed.
Fixpoint assoc {A} (n : string) (l : list (string * A)) : option A :=
  match l with [] => None | (k, v) :: r => if String.eqb n k then Some v else assoc n r end.
Lemma assoc_in {A} n (v : A) l : NoDup (map fst l) -> In (n, v) l -> assoc n l = Some v.
Proof.
  induction l as [|[k w] l IH]; intros N I; [contradiction|]. inversion N as [|? ? N1 N2]; subst. cbn [assoc]. destruct I as [E|I].
  - injection E as -> ->. rewrite String.eqb_refl. reflexivity.
  - destruct (String.eqb n k) eqn:E; [|exact (IH N2 I)]. apply String.eqb_eq in E. subst k. destruct N1. apply (in_map fst) in I. exact I.
Qed.
Lemma promised_once : NoDup (map fst promised).
Proof. repeat (constructor; [cbn [map fst promised In]; intro H; repeat (destruct H as [H|H]; [discriminate|]); exact H|]). constructor. Qed.

(** the promise is about every function but one, whose name is not that of a variable *)
Example C70_covers : map fst promised = filter (fun n => negb (String.eqb n "errors.NewErrNoTable")) (map fst constructors ++ map fst constructors2).
Proof. vm_compute. reflexivity. Qed.

(** Every error made by one of these functions is, for errors.Is, the variable it is named after, whatever the
    values, and none of the other variables of any package ... *)
Theorem C70_is_partial : forall name mk p v, In (name, mk) constructors -> In (name, p) promised -> ~ In name unkept ->
  forall s, In s sentinels -> (errors_is (mk v) s = true <-> named p s).
Proof.
  intros name mk p v I J N. apply (assoc_in _ _ _ promised_once) in J. change (kept p (mk v)).
  cbn [constructors In] in I.
  repeat (destruct I as [I|I]; [injection I as <- <-; vm_compute in J;
    first [discriminate J
          |exfalso; apply N; vm_compute; tauto
          |injection J as <-; (eapply keep; [reflexivity|vm_compute; reflexivity])]|]); contradiction.
Qed.
Print Assumptions C70_is_partial.
Theorem C70_is2 : forall name mk p v w, In (name, mk) constructors2 -> In (name, p) promised ->
  forall s, In s sentinels -> (errors_is (mk v w) s = true <-> named p s).
Proof.
  intros name mk p v w I J. apply (assoc_in _ _ _ promised_once) in J. change (kept p (mk v w)).
  cbn [constructors2 In] in I.
  repeat (destruct I as [I|I]; [injection I as <- <-; vm_compute in J; injection J as <-; (eapply keep; [reflexivity|vm_compute; reflexivity])|]); contradiction.
Qed.
Print Assumptions C70_is2.
Example C70_is_case : errors_is (errorf "table (%v) is %w" [AText "t"; AErr (Sentinel e_not_exist)]) e_not_exist = true
  /\ errors_is (errorf "table (%v) is %w" [AText "t"; AErr (Sentinel e_not_exist)]) e_exist = false.
Proof. split; vm_compute; reflexivity. Qed.

(** ... but three of the functions make errors that are none of the variables, *)
Theorem C70_is_refuted : forall name mk v s, In (name, mk) constructors -> In name unkept -> errors_is (mk v) s = false.
Proof.
  intros name mk v s I N. cbn [constructors In] in I.
  repeat (destruct I as [I|I]; [injection I as <- <-;
    first [reflexivity | exfalso; cbn [unkept In] in N; repeat (destruct N as [N|N]; [discriminate N|]); exact N]|]); contradiction.
Qed.
Print Assumptions C70_is_refuted.
(** the texts of two of them, for what exists and for what does not, are the same, *)
Theorem C70_exist_refuted : exists mk mk', In ("errors.NewErrExist"%string, mk) constructors
  /\ In ("errors.NewErrNotExist"%string, mk') constructors /\ forall v, message (mk v) = message (mk' v).
Proof. do 2 eexists. split; [|split]; [cbn [constructors In]; do 2 right; left; reflexivity|right; left; reflexivity|reflexivity]. Qed.
Print Assumptions C70_exist_refuted.
(** and variables with the same name and text in different packages are different errors. *)
Theorem C70_packages_refuted : exists mk, In ("query.newErrColumnNotFound"%string, mk) constructors
  /\ se_name query_not_found = se_name e_not_found /\ se_text query_not_found = se_text e_not_found
  /\ forall v, errors_is (mk v) query_not_found = true /\ errors_is (mk v) e_not_found = false.
Proof.
  eexists. split; [cbn [constructors In]; do 22 right; left; reflexivity|]. split; [reflexivity|]. split; [reflexivity|].
  intro v. split; reflexivity.
Qed.
Print Assumptions C70_packages_refuted.

(** the texts in front of and behind the first zero character *)
Fixpoint cut0 (s : string) : string * string :=
  match s with
  | EmptyString => ("", "")
  | String c r => if Ascii.eqb c zero then ("", r) else let (a, b) := cut0 r in (String c a, b)
  end%string.
Ltac flat := vm_compute; rewrite ?sapp_assoc; cbn [append]; rewrite ?append_nil_r; reflexivity.

(** Every error names the value it is about: its text is the value between two texts that do not depend on it ... *)
Theorem C70_names : forall name mk, In (name, mk) constructors ->
  exists a b, forall v, message (mk v) = (a ++ v ++ b)%string.
Proof.
  intros name mk I. exists (fst (cut0 (message (mk (String zero ""))))), (snd (cut0 (message (mk (String zero ""))))). intro v.
  cbn [constructors In] in I.
  repeat (destruct I as [I|I]; [injection I as <- <-; flat|]); contradiction.
Qed.
Print Assumptions C70_names.
Theorem C70_names2 : forall name mk, In (name, mk) constructors2 ->
  exists a b c, forall v w, message (mk v w) = (a ++ v ++ b ++ w ++ c)%string.
Proof.
  intros name mk I. cbn [constructors2 In] in I.
  repeat (destruct I as [I|I]; [injection I as <- <-|]); try contradiction.
  - exists "the number of columns ("%string, ") is not equal to the number of schema columns ("%string, ")"%string. intros v w. flat.
  - exists "invalid arguments "%string, "("%string, ")"%string. intros v w. flat.
Qed.
Print Assumptions C70_names2.

Lemma append_len a b : String.length (a ++ b) = (String.length a + String.length b)%nat.
Proof. induction a as [|c a IH]; [reflexivity|]. cbn. rewrite IH. reflexivity. Qed.
Lemma append_inj_l a : forall x y, (a ++ x)%string = (a ++ y)%string -> x = y.
Proof. induction a as [|c a IH]; intros x y E; [exact E|]. cbn in E. injection E as E. exact (IH _ _ E). Qed.
Lemma append_inj_r b : forall x y, (x ++ b)%string = (y ++ b)%string -> x = y.
Proof.
  intros x y E. assert (L : String.length x = String.length y).
  { apply (f_equal String.length) in E. rewrite !append_len in E. lia. }
  revert y E L. induction x as [|c x IH]; intros [|d y] E L; cbn in L; try lia; [reflexivity|].
  cbn in E. injection E as -> E. rewrite (IH y E) by lia. reflexivity.
Qed.
(** ... so that errors about different values have different texts, *)
Theorem C70_tell_apart : forall name mk v w, In (name, mk) constructors -> message (mk v) = message (mk w) -> v = w.
Proof.
  intros name mk v w I E. destruct (C70_names _ _ I) as (a & b & H). rewrite !H in E.
  apply append_inj_l in E. exact (append_inj_r _ _ _ E).
Qed.
Print Assumptions C70_tell_apart.
Fixpoint has (x s : string) : bool :=
  prefix x s || match s with EmptyString => false | String _ r => has x r end.
Lemma prefix_app x : forall s, prefix x s = true -> exists b, s = (x ++ b)%string.
Proof.
  induction x as [|c x IH]; intros s H; [exists s; reflexivity|]. destruct s as [|d s]; [discriminate H|]. cbn in H.
  destruct (ascii_dec c d) as [->|]; [|discriminate H]. destruct (IH s H) as [b ->]. exists b. reflexivity.
Qed.
Lemma has_within x : forall s, has x s = true -> within x s.
Proof.
  induction s as [|c s IH]; intro H; cbn [has] in H; apply Bool.orb_prop in H; destruct H as [H|H];
    try (apply prefix_app in H; destruct H as [b E]; exists ""%string, b; exact E); [discriminate H|].
  destruct (IH H) as (a & b & ->). exists (String c a), b. reflexivity.
Qed.
Lemma within_front x s v b : within x s -> within x (s ++ v ++ b)%string.
Proof. intros (c & d & ->). exists c, (d ++ v ++ b)%string. rewrite !sapp_assoc. reflexivity. Qed.
Lemma within_back x a v s : within x s -> within x (a ++ v ++ s)%string.
Proof. intros (c & d & ->). exists (a ++ v ++ c)%string, d. rewrite !sapp_assoc. reflexivity. Qed.
(** and it says what is wrong, in the words of the variable. *)
Theorem C70_says_partial : forall name mk p s v, In (name, mk) constructors -> In (name, p) promised -> ~ In name unkept ->
  In s sentinels -> named p s -> within (se_text s) (message (mk v)).
Proof.
  intros name mk p s v I J N K S. apply (assoc_in _ _ _ promised_once) in J.
  set (a := fst (cut0 (message (mk (String zero ""))))). set (b := snd (cut0 (message (mk (String zero ""))))).
  assert (H : has (se_text s) a = true \/ has (se_text s) b = true).
  { subst a b. cbn [constructors In] in I.
    repeat (destruct I as [I|I]; [injection I as <- <-; vm_compute in J;
      first [discriminate J
            |exfalso; apply N; vm_compute; tauto
            |injection J as <-; cbn [sentinels In] in K;
             repeat (destruct K as [<-|K]; [first [discriminate S|left; vm_compute; reflexivity|right; vm_compute; reflexivity]|]); contradiction]|]);
    contradiction. }
  assert (E : message (mk v) = (a ++ v ++ b)%string).
  { subst a b. clear J H. cbn [constructors In] in I. repeat (destruct I as [I|I]; [injection I as <- <-; flat|]); contradiction. }
  rewrite E. destruct H as [H|H]; apply has_within in H; [exact (within_front _ _ _ _ H)|exact (within_back _ _ _ _ H)].
Qed.
Print Assumptions C70_says_partial.
Example C70_says_case : forall v, exists mk, In ("errors.NewErrTableNotExist"%string, mk) constructors
  /\ message (mk v) = ("table (" ++ v ++ ") is not exist")%string.
Proof. intro v. eexists. split; [cbn [constructors In]; do 5 right; left; reflexivity|flat]. Qed.
