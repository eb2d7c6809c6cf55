(** Lemmas about GoBase. *)
From Verif Require Import GoBase.

Lemma perm_filter {A} (f : A -> bool) l l' :
  Permutation l l' -> Permutation (filter f l) (filter f l').
Proof.
  induction 1 as [|x l l' H IH|x y l|l l' l'' H1 IH1 H2 IH2]; cbn.
  - constructor.
  - destruct (f x); [constructor|]; exact IH.
  - destruct (f x), (f y); try apply Permutation_refl. apply perm_swap.
  - eapply Permutation_trans; eauto.
Qed.

Lemma perm_existsb {A} (f : A -> bool) l l' :
  Permutation l l' -> existsb f l = existsb f l'.
Proof.
  induction 1; cbn; auto.
  - now rewrite IHPermutation.
  - destruct (f x), (f y); reflexivity.
  - congruence.
Qed.

Lemma filter_ext_in' {A} (f g : A -> bool) l :
  (forall x, In x l -> f x = g x) -> filter f l = filter g l.
Proof. apply filter_ext_in. Qed.

Lemma filter_all {A} (f : A -> bool) l : (forall x, In x l -> f x = true) -> filter f l = l.
Proof.
  induction l as [|x l IH]; cbn; intros H; [reflexivity|].
  rewrite H by (left; reflexivity). f_equal. apply IH. intros; apply H; now right.
Qed.

Lemma NoDup_map_filter {A B} (k : A -> B) f l : NoDup (map k l) -> NoDup (map k (filter f l)).
Proof.
  induction l as [|x l IH]; cbn; intros H; [constructor|].
  inversion H as [|? ? Hn Hd]; subst. destruct (f x); cbn; [|now apply IH].
  constructor; [|now apply IH]. intros Hin. apply Hn.
  apply in_map_iff in Hin as (y & Hy & Hf). apply filter_In in Hf as [Hf _].
  apply in_map_iff. eauto.
Qed.

Lemma NoDup_map_inj {A B} (k : A -> B) l x y :
  NoDup (map k l) -> In x l -> In y l -> k x = k y -> x = y.
Proof.
  induction l as [|z l IH]; cbn; intros Hd Hx Hy E; [contradiction|].
  inversion Hd as [|? ? Hn Hd']; subst.
  destruct Hx as [->|Hx], Hy as [->|Hy]; auto.
  - exfalso. apply Hn. rewrite E. now apply in_map.
  - exfalso. apply Hn. rewrite <- E. now apply in_map.
Qed.

(** *** Association lists built from a list of records and a key. *)
Section Index.
  Context {V : Type} (k : V -> N).
  Definition index (l : list V) : list (N * V) := map (fun c => (k c, c)) l.
  Lemma snd_index l : map snd (index l) = l.
  Proof. unfold index. rewrite map_map. cbn. apply map_id. Qed.
  Lemma mget_index n l : mget N.eqb n (index l) = find (fun c => N.eqb (k c) n) l.
  Proof.
    induction l as [|c l IH]; cbn; [reflexivity|].
    rewrite N.eqb_sym. destruct (N.eqb (k c) n); [reflexivity|exact IH].
  Qed.
  Lemma mdel_index n l :
    mdel N.eqb n (index l) = index (filter (fun c => negb (N.eqb (k c) n)) l).
  Proof.
    induction l as [|c l IH]; cbn; [reflexivity|].
    rewrite N.eqb_sym. destruct (N.eqb (k c) n); cbn; [exact IH|f_equal; exact IH].
  Qed.
  Lemma find_key_some n l c :
    NoDup (map k l) -> (find (fun c => N.eqb (k c) n) l = Some c <-> In c l /\ k c = n).
  Proof.
    intros Hd. split.
    - intros H. apply find_some in H as [Hi He]. apply N.eqb_eq in He. auto.
    - intros [Hi He]. destruct (find _ l) as [d|] eqn:E.
      + apply find_some in E as [Hd' He']. apply N.eqb_eq in He'.
        f_equal. eapply (NoDup_map_inj k); eauto. congruence.
      + eapply find_none in E; eauto. cbn in E. rewrite He, N.eqb_refl in E. discriminate.
  Qed.
  Lemma find_key_none n l :
    find (fun c => N.eqb (k c) n) l = None <-> (forall c, In c l -> k c <> n).
  Proof.
    split.
    - intros H c Hc E. eapply find_none in H; eauto. cbn in H. rewrite E, N.eqb_refl in H. discriminate.
    - intros H. destruct (find _ l) as [d|] eqn:E; [|reflexivity].
      apply find_some in E as [Hi He]. apply N.eqb_eq in He. exfalso; eapply H; eauto.
  Qed.
  Lemma find_key_absent n l c :
    find (fun c => N.eqb (k c) n) l = None -> In c l -> k c <> n.
  Proof. intros H. now apply find_key_none. Qed.
  Lemma find_key_perm n l l' :
    NoDup (map k l) -> Permutation l l' ->
    find (fun c => N.eqb (k c) n) l = find (fun c => N.eqb (k c) n) l'.
  Proof.
    intros Hd Hp.
    assert (Hd' : NoDup (map k l')) by (eapply Permutation_NoDup; [apply Permutation_map|]; eauto).
    destruct (find _ l') as [d|] eqn:E.
    - apply find_key_some in E as [Hi He]; auto. apply find_key_some; auto. split; auto.
      eapply Permutation_in; [apply Permutation_sym|]; eauto.
    - apply find_key_none. intros c Hc. rewrite find_key_none in E. apply E.
      eapply Permutation_in; eauto.
  Qed.
End Index.

(** ** Go maps with string keys *)
Section StringMap.
  Context {V : Type}.
  Implicit Types m : list (string * V).

  Lemma sget_set_eq k v m : mget String.eqb k (mset String.eqb k v m) = Some v.
  Proof. unfold mset; cbn. now rewrite String.eqb_refl. Qed.
  Lemma sget_del_eq k m : mget String.eqb k (mdel String.eqb k m) = None.
  Proof.
    induction m as [|[a b] m IH]; cbn; auto. destruct (String.eqb_spec k a); auto.
    cbn. destruct (String.eqb_spec k a); congruence.
  Qed.
  Lemma sget_del_ne k k' m : k <> k' -> mget String.eqb k (mdel String.eqb k' m) = mget String.eqb k m.
  Proof.
    intros H. induction m as [|[a b] m IH]; cbn; auto.
    destruct (String.eqb_spec k' a); subst; cbn.
    - rewrite IH. destruct (String.eqb_spec k a); congruence.
    - rewrite IH. auto.
  Qed.
  Lemma sget_set_ne k k' v m : k <> k' -> mget String.eqb k (mset String.eqb k' v m) = mget String.eqb k m.
  Proof.
    intros H. unfold mset; cbn. destruct (String.eqb_spec k k'); [congruence|]. now apply sget_del_ne.
  Qed.
  Lemma sget_set k k' v m : mget String.eqb k (mset String.eqb k' v m) =
    if String.eqb k k' then Some v else mget String.eqb k m.
  Proof. destruct (String.eqb_spec k k'); subst; [apply sget_set_eq|now apply sget_set_ne]. Qed.
  Lemma in_keys_del k k' m : In k (map fst (mdel String.eqb k' m)) <-> k <> k' /\ In k (map fst m).
  Proof.
    induction m as [|[a b] m IH]; cbn; [tauto|]. destruct (String.eqb_spec k' a); subst.
    - rewrite IH. intuition congruence.
    - cbn. rewrite IH. intuition congruence.
  Qed.
  Lemma nodup_keys_del k m : NoDup (map fst m) -> NoDup (map fst (mdel String.eqb k m)).
  Proof.
    induction m as [|[a b] m IH]; cbn; auto. intros H. inversion H; subst.
    destruct (String.eqb_spec k a); auto. cbn. constructor; auto. rewrite in_keys_del. tauto.
  Qed.
  Lemma nodup_keys_set k v m : NoDup (map fst m) -> NoDup (map fst (mset String.eqb k v m)).
  Proof.
    intros H. unfold mset; cbn. constructor; [|now apply nodup_keys_del].
    rewrite in_keys_del. tauto.
  Qed.
  Lemma sget_in_keys k m : In k (map fst m) <-> mget String.eqb k m <> None.
  Proof.
    induction m as [|[a b] m IH]; cbn; [intuition|]. destruct (String.eqb_spec k a); subst.
    - split; auto; discriminate.
    - rewrite <- IH. intuition congruence.
  Qed.
End StringMap.

(** ** join *)
Lemma append_inv_no_char c a b x y :
  ~ In c (list_ascii_of_string a) -> ~ In c (list_ascii_of_string b) ->
  (a ++ String c x)%string = (b ++ String c y)%string -> a = b /\ x = y.
Proof.
  revert b. induction a as [|ca a IH]; intros [|cb b] Ha Hb E; cbn in *.
  - inversion E; auto.
  - inversion E; subst. destruct Hb; auto.
  - inversion E; subst. destruct Ha; auto.
  - inversion E; subst. destruct (IH b) as (-> & ->); auto.
Qed.
Lemma append_nil_r s : (s ++ "")%string = s.
Proof. induction s; cbn; f_equal; auto. Qed.

Lemma no_char_app c a b : In c (list_ascii_of_string (a ++ b)%string) <->
  In c (list_ascii_of_string a) \/ In c (list_ascii_of_string b).
Proof. induction a; cbn; [intuition|]. rewrite IHa. tauto. Qed.
