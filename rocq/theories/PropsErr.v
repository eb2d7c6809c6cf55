(** Property C40: error codes and classes. *)
From Verif Require Import GoBase ModelErr SpecErr.

Lemma switch_cases consts cases d v :
  (exists n t, In (n, t) cases /\ constant consts n = v /\ switch consts cases d v = t)
  \/ (forall n t, In (n, t) cases -> constant consts n <> v) /\ switch consts cases d v = d.
Proof.
  unfold switch. destruct (find _ cases) as [[n t]|] eqn:E.
  - left. apply find_some in E. destruct E as [I E]. apply String.eqb_eq in E. exists n, t. auto.
  - right. split; [|reflexivity]. intros n t I F. pose proof (find_none _ _ E (n, t) I) as N. cbn [fst] in N.
    rewrite F, String.eqb_refl in N. discriminate.
Qed.
(** checks on tables *)
Definition has (l : list (string * string)) (n v : string) : bool := existsb (fun p => String.eqb (fst p) n && String.eqb (snd p) v) l.
Lemma has_in l n v : has l n v = true -> In (n, v) l.
Proof.
  intro H. apply existsb_exists in H. destruct H as ((a, b) & I & E). cbn [fst snd] in E. apply andb_prop in E. destruct E as [A B].
  apply String.eqb_eq in A, B. subst. exact I.
Qed.
Fixpoint distinct (l : list string) : bool := match l with [] => true | x :: r => negb (existsb (String.eqb x) r) && distinct r end.
Lemma distinct_ok l : distinct l = true -> NoDup l.
Proof.
  induction l as [|x l IH]; intro H; [constructor|]. cbn [distinct] in H. apply andb_prop in H. destruct H as [A B]. constructor; [|exact (IH B)].
  intro I. assert (existsb (String.eqb x) l = true) as E by (apply existsb_exists; exists x; split; [exact I|apply String.eqb_refl]).
  rewrite E in A. discriminate.
Qed.
Lemma nodup_eq {A B} (f : A -> B) l x y : NoDup (map f l) -> In x l -> In y l -> f x = f y -> x = y.
Proof.
  induction l as [|z l IH]; cbn [map In]; intros N I J E; [contradiction|]. inversion N as [|? ? N1 N2]; subst.
  destruct I as [-> |I]; destruct J as [-> |J]; [reflexivity| | |exact (IH N2 I J E)].
  - destruct N1. rewrite E. apply in_map, J.
  - destruct N1. rewrite <- E. apply in_map, I.
Qed.
Lemma check {A} (f : A -> bool) l : forallb f l = true -> forall x, In x l -> f x = true.
Proof. intro H. exact (proj1 (forallb_forall f l) H). Qed.

Lemma codes_known c : (exists n, In (n, c) code_constants) <-> code_string c <> "Unknown Code"%string.
Proof.
  split.
  - intros (n & I) E.
    assert (H : forallb (fun p => negb (String.eqb (code_string (snd p)) "Unknown Code")) code_constants = true) by (vm_compute; reflexivity).
    pose proof (check _ _ H _ I) as K. cbn [snd] in K. rewrite E in K. discriminate.
  - intro N. destruct (switch_cases code_constants code_cases "Unknown Code" c) as [(n & t & I & E & _)|[_ E]]; [|destruct (N E)].
    assert (H : forallb (fun p => has code_constants (fst p) (constant code_constants (fst p))) code_cases = true) by (vm_compute; reflexivity).
    pose proof (check _ _ H _ I) as K. cbn [fst] in K. apply has_in in K. rewrite E in K. exists n. exact K.
Qed.
Lemma codes_named n c : In (n, c) code_constants ->
  letters (code_string c) = letters n /\ String.length c = 5 /\ exists t, In (class_of c, t) documented_classes.
Proof.
  intro I. assert (H : forallb (fun p => String.eqb (letters (code_string (snd p))) (letters (fst p)) && (String.length (snd p) =? 5)
    && existsb (fun q => String.eqb (fst q) (class_of (snd p))) documented_classes) code_constants = true) by (vm_compute; reflexivity).
  pose proof (check _ _ H _ I) as K. cbn [fst snd] in K. apply andb_prop in K. destruct K as [K K3]. apply andb_prop in K. destruct K as [K1 K2].
  split; [apply String.eqb_eq, K1|]. split; [apply Nat.eqb_eq, K2|]. apply existsb_exists in K3. destruct K3 as ((a, t) & J & E).
  apply String.eqb_eq in E. cbn [fst] in E. subst a. exists t. exact J.
Qed.
Lemma codes_differ n c n' c' : In (n, c) code_constants -> In (n', c') code_constants ->
  c = c' \/ code_string c = code_string c' -> n = n' /\ c = c'.
Proof.
  intros I J E. assert (E' : code_string c = code_string c') by (destruct E as [-> |E]; [reflexivity|exact E]).
  assert (H : NoDup (map (fun p => code_string (snd p)) code_constants)) by (apply distinct_ok; vm_compute; reflexivity).
  pose proof (nodup_eq _ _ _ _ H I J E') as K. injection K as -> ->. auto.
Qed.
Lemma classes_named c : class_string c = match find (fun p => String.eqb (fst p) c) documented_classes with Some (_, t) => t | None => "Unknown Class"%string end.
Proof.
  assert (H : map (fun p => (constant class_constants (fst p), snd p)) class_cases = documented_classes) by (vm_compute; reflexivity).
  unfold class_string, switch. rewrite <- H. clear H. induction class_cases as [|(n, t) l IH]; [reflexivity|].
  cbn [find map fst snd]. destruct (String.eqb (constant class_constants n) c); [reflexivity|exact IH].
Qed.
Lemma classes_differ c t c' t' : In (c, t) documented_classes -> In (c', t') documented_classes -> c = c' \/ t = t' -> (c, t) = (c', t').
Proof.
  intros I J E. assert (H : NoDup (map fst documented_classes)) by (apply distinct_ok; vm_compute; reflexivity).
  assert (H' : NoDup (map snd documented_classes)) by (apply distinct_ok; vm_compute; reflexivity).
  destruct E as [E|E]; [exact (nodup_eq _ _ _ _ H I J E)|exact (nodup_eq _ _ _ _ H' I J E)].
Qed.

(** C40: a text is a declared code exactly if its String() is not Unknown Code; *)
Theorem C40_codes_known : forall c, (exists n, In (n, c) code_constants) <-> code_string c <> "Unknown Code"%string.
Proof. exact codes_known. Qed.
Print Assumptions C40_codes_known.
(** the String() of a declared code is the name of its constant, written in words, and the code is five
    characters that start with a documented class; *)
Theorem C40_codes_named : forall n c, In (n, c) code_constants ->
  letters (code_string c) = letters n /\ String.length c = 5 /\ exists t, In (class_of c, t) documented_classes.
Proof. exact codes_named. Qed.
Print Assumptions C40_codes_named.
(** different constants have different codes and different names; *)
Theorem C40_codes_differ : forall n c n' c', In (n, c) code_constants -> In (n', c') code_constants ->
  c = c' \/ code_string c = code_string c' -> n = n' /\ c = c'.
Proof. exact codes_differ. Qed.
Print Assumptions C40_codes_differ.
(** the String() of a class is its documented name, and Unknown Class for any other text; the documented
    classes and their names all differ. *)
Theorem C40_classes : forall c,
  class_string c = match find (fun p => String.eqb (fst p) c) documented_classes with Some (_, t) => t | None => "Unknown Class"%string end.
Proof. exact classes_named. Qed.
Print Assumptions C40_classes.
Theorem C40_classes_differ : forall c t c' t', In (c, t) documented_classes -> In (c', t') documented_classes -> c = c' \/ t = t' -> (c, t) = (c', t').
Proof. exact classes_differ. Qed.
Print Assumptions C40_classes_differ.
Example C40_example : In ("DivisionByZero", "22012")%string code_constants /\ code_string "22012" = "Division By Zero"%string /\
  class_string (class_of "22012") = "Data Exception"%string /\ code_string "22999" = "Unknown Code"%string /\ class_string "99" = "Unknown Class"%string.
Proof. split; [apply has_in; vm_compute; reflexivity|]. vm_compute. repeat split. Qed.
