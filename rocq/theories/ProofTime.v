(** What a bound time is written as. *)
From Coq Require Import DecimalString DecimalN Decimal DecimalFacts Lia.
From Verif Require Import GoBase FactsBase ModelNum ModelBind SpecQuery SpecBind ProofNum ProofFn.

Lemma dval_ge s : forall acc, (acc * 10 ^ N.of_nat (String.length s) <= dval acc s)%N.
Proof.
  induction s as [|c s IH]; intro acc; [cbn [String.length]; unfold dval; cbn; lia|].
  rewrite dval_cons. cbn [String.length]. rewrite Nat2N.inj_succ, N.pow_succ_r'. etransitivity; [|apply IH]. nia.
Qed.
Lemma show_head n c s : show_N n = String c s -> s <> ""%string -> (1 <= N_of_ascii c - 48)%N.
Proof.
  unfold show_N. intros E S. assert (U : unorm (N.to_uint n) = N.to_uint n).
  { rewrite <- DecimalN.Unsigned.to_of, DecimalN.Unsigned.of_to. reflexivity. }
  rewrite <- U in E. unfold unorm in E. destruct (nzhead (N.to_uint n)) as [|u|u|u|u|u|u|u|u|u|u] eqn:Z.
  - cbn in E. injection E as <- <-. congruence.
  - exfalso. exact (nzhead_nonzero _ _ Z).
  - cbn in E. injection E as <- _. vm_compute. discriminate.
  - cbn in E. injection E as <- _. vm_compute. discriminate.
  - cbn in E. injection E as <- _. vm_compute. discriminate.
  - cbn in E. injection E as <- _. vm_compute. discriminate.
  - cbn in E. injection E as <- _. vm_compute. discriminate.
  - cbn in E. injection E as <- _. vm_compute. discriminate.
  - cbn in E. injection E as <- _. vm_compute. discriminate.
  - cbn in E. injection E as <- _. vm_compute. discriminate.
  - cbn in E. injection E as <- _. vm_compute. discriminate.
Qed.
Lemma show_short n w : 1 <= w -> (n < 10 ^ N.of_nat w)%N -> String.length (show_N n) <= w.
Proof.
  intros W L. destruct (show_N n) as [|c s] eqn:E; [cbn; lia|]. destruct s as [|d s]; [cbn; lia|].
  assert (H := show_head n c (String d s) E ltac:(discriminate)). assert (V := show_N_value n). rewrite E in V.
  change (dval 0 (String c (String d s)) = n) in V. rewrite dval_cons in V.
  assert (G := dval_ge (String d s) (0 * 10 + (N_of_ascii c - 48))). rewrite V in G.
  destruct (Nat.le_gt_cases (String.length (String c (String d s))) w) as [Q|Q]; [exact Q|exfalso].
  assert (P : (10 ^ N.of_nat w <= 10 ^ N.of_nat (String.length (String d s)))%N).
  { apply N.pow_le_mono_r; [discriminate|]. cbn [String.length] in *. lia. }
  set (x := (10 ^ N.of_nat (String.length (String d s)))%N) in *. nia.
Qed.
Lemma zeros_length k : String.length (String.concat "" (repeat "0"%string k)) = k.
Proof. induction k as [|k IH]; [reflexivity|]. cbn [repeat]. destruct k as [|k]; [reflexivity|]. cbn [repeat String.concat] in *. cbn [append String.length] in *. rewrite IH. reflexivity. Qed.
Lemma zeros_cons k : String.concat "" (repeat "0"%string (S k)) = String "0" (String.concat "" (repeat "0"%string k)).
Proof. destruct k; reflexivity. Qed.
Lemma slen_app a b : String.length (a ++ b) = String.length a + String.length b.
Proof. induction a as [|c a IH]; [reflexivity|]. cbn. rewrite IH. reflexivity. Qed.
Lemma zeros_numeral k n s : numeral n s -> numeral n (String.concat "" (repeat "0"%string k) ++ s).
Proof.
  intros N. induction k as [|k IH]; [exact N|]. rewrite zeros_cons. destruct IH as [[A B] C]. split.
  - split; [discriminate|]. cbn [append list_ascii_of_string]. constructor; [vm_compute; split; discriminate|exact B].
  - cbn [append]. exact C.
Qed.
Lemma pad_field w n : 1 <= w -> (n < 10 ^ N.of_nat w)%N -> field w n (pad w n).
Proof.
  intros W L. pose proof (show_short n w W L) as S. unfold pad. split.
  - rewrite slen_app, zeros_length. lia.
  - apply zeros_numeral, show_N_numeral.
Qed.

Lemma field_inj w n m s : field w n s -> field w m s -> n = m.
Proof. intros [_ [_ A]] [_ [_ B]]. congruence. Qed.
(** equal texts that begin with texts of the same length *)
Lemma cut_app : forall a b x y, String.length a = String.length b -> (a ++ x = b ++ y)%string -> a = b /\ x = y.
Proof.
  induction a as [|c a IH]; intros [|d b] x y L E; cbn in L; try discriminate L; [split; [reflexivity|exact E]|].
  cbn in E. injection E as -> E. injection L as L. destruct (IH b x y L E) as [-> ->]. split; reflexivity.
Qed.
