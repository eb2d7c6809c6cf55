(** Property C72: names and keys joined by commas come back exactly if they have no commas. *)
From Verif Require Import GoBase FactsBase ModelUtil ModelGroup ProofFn.

Definition comma_free (s : string) : Prop := ~ In ","%char (list_ascii_of_string s).

Lemma split_nonempty c s : exists x l, split_byte c s = x :: l.
Proof.
  induction s as [|d s IH]; [exists ""%string, []; reflexivity|]. cbn [split_byte]. destruct (Ascii.eqb c d); [eauto|].
  destruct IH as (x & l & ->). eauto.
Qed.
Lemma split_app c a b : split_byte c (a ++ String c b) = split_byte c a ++ split_byte c b.
Proof.
  induction a as [|d a IH]; cbn [append split_byte]; [rewrite Ascii.eqb_refl; reflexivity|].
  destruct (Ascii.eqb c d); [rewrite IH; reflexivity|]. rewrite IH.
  destruct (split_nonempty c a) as (x & l & ->). reflexivity.
Qed.
Lemma split_join c l : l <> [] -> split_byte c (join (String c "") l) = concat (map (split_byte c) l).
Proof.
  induction l as [|x l IH]; [congruence|]. intros _. destruct l as [|y l]; [cbn; rewrite app_nil_r; reflexivity|].
  change (join (String c "") (x :: y :: l)) with (x ++ String c (join (String c "") (y :: l)))%string.
  rewrite split_app, IH by discriminate. reflexivity.
Qed.
Lemma split_none c s : ~ In c (list_ascii_of_string s) -> split_byte c s = [s].
Proof.
  induction s as [|d s IH]; [reflexivity|]. intro N. cbn [list_ascii_of_string In] in N. cbn [split_byte].
  destruct (Ascii.eqb c d) eqn:E; [apply Ascii.eqb_eq in E; destruct N; auto|]. rewrite IH by tauto. reflexivity.
Qed.
Lemma split_some c s : In c (list_ascii_of_string s) -> 2 <= length (split_byte c s).
Proof.
  induction s as [|d s IH]; [intros []|]. intro I. cbn [split_byte]. destruct (Ascii.eqb c d) eqn:E.
  - destruct (split_nonempty c s) as (x & l & ->). cbn. lia.
  - destruct I as [->|I]; [rewrite Ascii.eqb_refl in E; discriminate|]. specialize (IH I).
    destruct (split_byte c s) as [|x [|y l]]; cbn in *; lia.
Qed.
Lemma split_length c l : length l <= length (concat (map (split_byte c) l))
  /\ (length (concat (map (split_byte c) l)) = length l -> forall s, In s l -> ~ In c (list_ascii_of_string s)).
Proof.
  induction l as [|x l [A B]]; [split; [apply le_n|intros _ s []]|]. cbn [map concat length]. rewrite app_length.
  destruct (split_nonempty c x) as (y & r & E). assert (1 <= length (split_byte c x)) by (rewrite E; cbn; lia).
  split; [lia|]. intros L s [<-|I].
  - intro I. apply split_some in I. lia.
  - apply B; [lia|exact I].
Qed.
Lemma join_empty c l : join (String c "") l = ""%string -> l = [] \/ l = [""%string].
Proof.
  destruct l as [|x [|y l]]; [left; reflexivity|cbn; intros ->; right; reflexivity|].
  intro E. exfalso. change (x ++ String c (join (String c "") (y :: l)) = "")%string in E. destruct x; discriminate E.
Qed.
Lemma round groups : group_bys_from_set (new_group_by_set groups)
  = match groups with [] => [] | [x] => if String.eqb x "" then [] else split_byte "," x | _ => concat (map (split_byte ",") groups) end.
Proof.
  destruct groups as [|x [|y l]]; [reflexivity| |].
  - unfold group_bys_from_set, new_group_by_set. cbn [join]. destruct x; reflexivity.
  - unfold group_bys_from_set, new_group_by_set. rewrite <- (split_join "," (x :: y :: l)) by discriminate.
    destruct (join "," (x :: y :: l)) eqn:E; [|reflexivity]. apply join_empty in E. destruct E as [E|E]; discriminate E.
Qed.

(** The list of GROUP BY names made from the set of a list is that list exactly if no name has a comma and it is not the
    list of one empty name; *)
Theorem C72_round : forall groups, group_bys_from_set (new_group_by_set groups) = groups
  <-> groups <> [""%string] /\ Forall comma_free groups.
Proof.
  intro groups. rewrite round. split.
  - intro E. destruct groups as [|x [|y l]].
    + split; [discriminate|constructor].
    + destruct (String.eqb x "") eqn:X; [discriminate E|]. split; [intro H; injection H as ->; discriminate X|].
      constructor; [|constructor]. intro I. apply split_some in I. rewrite E in I. cbn in I. lia.
    + split; [discriminate|]. apply Forall_forall. apply (split_length "," (x :: y :: l)). rewrite E. reflexivity.
  - intros [N F]. rewrite Forall_forall in F. destruct groups as [|x [|y l]]; [reflexivity| |].
    + destruct (String.eqb x "") eqn:X; [apply String.eqb_eq in X; congruence|]. apply split_none, F. left. reflexivity.
    + revert F. generalize (x :: y :: l). clear. intro l. induction l as [|x l IH]; intro F; [reflexivity|]. cbn [map concat].
      rewrite split_none by (apply F; left; reflexivity). cbn [app]. f_equal. apply IH. intros s I. apply F. right. exact I.
Qed.
Print Assumptions C72_round.
(** so that lists like that have different sets. *)
Theorem C72_distinct : forall g h, Forall comma_free g -> Forall comma_free h -> g <> [""%string] -> h <> [""%string] ->
  new_group_by_set g = new_group_by_set h -> g = h.
Proof.
  intros g h G H G' H' E. rewrite <- (proj2 (C72_round g) (conj G' G)), E. apply C72_round. split; assumption.
Qed.
Print Assumptions C72_distinct.
Example C72_case : group_bys_from_set (new_group_by_set ["city"; "age"]) = ["city"; "age"]%string
  /\ Forall comma_free ["city"; "age"]%string /\ group_bys_from_set (new_group_by_set ["a,b"; "c"]) = ["a"; "b"; "c"]%string.
Proof.
  split; [reflexivity|]. split; [|reflexivity]. repeat constructor; intro I; cbn in I; intuition discriminate.
Qed.
