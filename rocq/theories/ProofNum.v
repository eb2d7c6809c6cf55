(** Facts about decimal numerals. *)
From Coq Require Import DecimalString DecimalN Decimal.
From Verif Require Import GoBase ModelNum SpecQuery.

Lemma nilempty_digits d : Forall is_digit (list_ascii_of_string (NilEmpty.string_of_uint d)).
Proof.
  induction d; cbn; try constructor; try (unfold is_digit; vm_compute; split; discriminate); assumption.
Qed.

Lemma nilzero_digits d : digits (NilZero.string_of_uint d).
Proof.
  destruct d; try (split; [discriminate|]; apply (nilempty_digits (_ _))).
  split; [discriminate|]. cbn. constructor; [unfold is_digit; vm_compute; split; discriminate|constructor].
Qed.

Lemma show_N_digits n : digits (show_N n).
Proof. apply nilzero_digits. Qed.

Lemma read_digits_show n : read_digits (show_N n) = Some n.
Proof.
  unfold read_digits, show_N. rewrite NilZero.usu.
  - now rewrite DecimalN.Unsigned.of_to.
  - intro E. assert (H := DecimalN.Unsigned.of_to n). rewrite E in H. cbn in H. subst n. discriminate E.
Qed.

(** value of a digit string, with an accumulator *)
Definition dval (acc : N) (s : string) : N :=
  fold_left (fun acc c => (acc * 10 + (N_of_ascii c - 48))%N) (list_ascii_of_string s) acc.

Lemma dval_cons acc c s : dval acc (String c s) = dval (acc * 10 + (N_of_ascii c - 48)) s.
Proof. reflexivity. Qed.

Lemma of_uint_acc d : forall acc, dval (Npos acc) (NilEmpty.string_of_uint d) = Npos (Pos.of_uint_acc d acc).
Proof.
  induction d; intros acc; cbn [NilEmpty.string_of_uint Pos.of_uint_acc]; [reflexivity|..];
    rewrite dval_cons, <- IHd; f_equal;
    match goal with
    | |- context [N_of_ascii ?c] =>
        let v := eval vm_compute in (N_of_ascii c) in change (N_of_ascii c) with v
    end; lia.
Qed.

Lemma of_uint_zero d : dval 0 (NilEmpty.string_of_uint d) = N.of_uint d.
Proof.
  induction d; cbn -[Pos.of_uint_acc]; try reflexivity; try exact (of_uint_acc d _).
  exact IHd.
Qed.

Lemma dec_value_nilzero d : dec_value (NilZero.string_of_uint d) = N.of_uint d.
Proof. destruct d; try exact (of_uint_zero (_ _)). reflexivity. Qed.

Lemma show_N_value n : dec_value (show_N n) = n.
Proof. unfold show_N. rewrite dec_value_nilzero. apply DecimalN.Unsigned.of_to. Qed.

Lemma show_N_numeral n : numeral n (show_N n).
Proof. split; [apply show_N_digits|apply show_N_value]. Qed.

Lemma show_Z_nonneg z : (0 <= z)%Z -> show_Z z = show_N (Z.to_N z).
Proof. destruct z; try reflexivity. intro H. exfalso. apply H. reflexivity. Qed.

Lemma digits_head s : digits s -> exists c r, s = String c r /\ is_digit c.
Proof.
  intros [Hn Hf]. destruct s as [|c r]; [congruence|]. exists c, r. split; [reflexivity|].
  cbn in Hf. now inversion Hf.
Qed.

Lemma atoi_digits s : digits s -> atoi s = match read_digits s with
  | Some n => if is_int64 (Z.of_N n) then Some (Z.of_N n) else None | None => None end.
Proof.
  intros H. destruct (digits_head s H) as (c & r & -> & Hc). unfold atoi.
  assert (N1 : c <> "+"%char) by (intros ->; unfold is_digit in Hc; vm_compute in Hc; destruct Hc; congruence).
  assert (N2 : c <> "-"%char) by (intros ->; unfold is_digit in Hc; vm_compute in Hc; destruct Hc; congruence).
  clear H Hc. destruct c as [b0 b1 b2 b3 b4 b5 b6 b7].
  destruct b0, b1, b2, b3, b4, b5, b6, b7; try reflexivity; exfalso; congruence.
Qed.

Lemma atoi_show z : (0 <= z < 2 ^ 63)%Z -> atoi (show_Z z) = Some z.
Proof.
  intros H. rewrite show_Z_nonneg by lia. rewrite atoi_digits by apply show_N_digits.
  rewrite read_digits_show. rewrite Z2N.id by lia. unfold is_int64.
  assert (E : ((- 2 ^ 63 <=? z) && (z <? 2 ^ 63))%Z = true) by (apply andb_true_intro; split; lia).
  now rewrite E.
Qed.

Lemma to_uint_show n : (n < 2 ^ 64)%N -> to_uint (show_N n) = Some n.
Proof.
  intros H. unfold to_uint. rewrite read_digits_show. apply N.ltb_lt in H. now rewrite H.
Qed.
