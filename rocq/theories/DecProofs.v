(** Lemmas about the decimal model. *)
From stdpp Require Import prelude.
From Coq Require Import QArith Qabs Lqa.
From Verif Require Import DecModel.

Lemma pow10_add a b : pow10 (a + b) = (pow10 a * pow10 b)%positive.
Proof. induction a as [|a IH]; cbn [pow10 Nat.add]; [done|]. rewrite IH. lia. Qed.

Lemma pow10Z_add a b : pow10Z (a + b) = (pow10Z a * pow10Z b)%Z.
Proof. unfold pow10Z. rewrite pow10_add. lia. Qed.

Lemma pow10Z_pos a : (0 < pow10Z a)%Z.
Proof. done. Qed.

Lemma pow10Z_sub s t : (t <= s)%nat → pow10Z s = (pow10Z (s - t) * pow10Z t)%Z.
Proof. intros. rewrite <- pow10Z_add. f_equal. lia. Qed.

Lemma dec_value_zero : (dec_value dec_zero == 0)%Q.
Proof. done. Qed.

Lemma dec_add_value a b : (dec_value (dec_add a b) == dec_value a + dec_value b)%Q.
Proof.
  destruct a as [m s], b as [n t]. unfold dec_value, dec_add, Qeq, Qplus. cbn [dec_mant dec_scale Qnum Qden].
  rewrite Pos2Z.inj_mul. fold (pow10Z s) (pow10Z t) (pow10Z (Nat.max s t)).
  pose proof (pow10Z_sub (Nat.max s t) s ltac:(lia)) as E1.
  pose proof (pow10Z_sub (Nat.max s t) t ltac:(lia)) as E2.
  rewrite !Z.mul_add_distr_r. f_equal.
  - rewrite E1. ring.
  - rewrite E2. ring.
Qed.

Lemma dec_neg_value a : (dec_value (dec_neg a) == - dec_value a)%Q.
Proof. destruct a as [m s]; unfold dec_value, dec_neg, Qeq, Qopp; cbn [dec_mant dec_scale Qnum Qden]. ring. Qed.

Lemma dec_sub_value a b : (dec_value (dec_sub a b) == dec_value a - dec_value b)%Q.
Proof. unfold dec_sub. rewrite dec_add_value, dec_neg_value. reflexivity. Qed.

Lemma dec_abs_value a : (dec_value (dec_abs a) == Qabs (dec_value a))%Q.
Proof. destruct a as [m s]. unfold dec_value, dec_abs, Qabs. reflexivity. Qed.

Lemma dec_mul_value a b : (dec_value (dec_mul a b) == dec_value a * dec_value b)%Q.
Proof.
  destruct a as [m s], b as [n t]. unfold dec_value, dec_mul, Qmult, Qeq. cbn [dec_mant dec_scale Qnum Qden].
  rewrite pow10_add. reflexivity.
Qed.

Lemma dec_gtb_value a b : dec_gtb a b = true ↔ (dec_value b < dec_value a)%Q.
Proof.
  destruct a as [m s], b as [n t]. unfold dec_gtb, dec_value, Qlt. cbn [dec_mant dec_scale Qnum Qden].
  rewrite Z.ltb_lt. done.
Qed.

Lemma dec_gtb_value_false a b : dec_gtb a b = false ↔ (dec_value a <= dec_value b)%Q.
Proof.
  rewrite <- not_true_iff_false, dec_gtb_value. split; [apply Qnot_lt_le|apply Qle_not_lt].
Qed.

Lemma dec_eqb_value a b : dec_eqb a b = true ↔ (dec_value a == dec_value b)%Q.
Proof.
  destruct a as [m s], b as [n t]. unfold dec_eqb, dec_value, Qeq. cbn [dec_mant dec_scale Qnum Qden].
  rewrite Z.eqb_eq. done.
Qed.

(** Exact addition is a commutative monoid even on representations. *)
Lemma dec_add_comm a b : dec_add a b = dec_add b a.
Proof. unfold dec_add. rewrite (Nat.max_comm (dec_scale a)). f_equal. ring. Qed.

Lemma dec_add_assoc a b c : dec_add (dec_add a b) c = dec_add a (dec_add b c).
Proof.
  destruct a as [m s], b as [n t], c as [p u]. unfold dec_add. cbn [dec_mant dec_scale].
  f_equal; [|lia].
  rewrite <- !Nat.max_assoc.
  rewrite !Z.mul_add_distr_r.
  assert (∀ x y z : nat, (y <= x)%nat → (z <= y)%nat →
     (pow10Z (y - z) * pow10Z (x - y) = pow10Z (x - z))%Z) as E.
  { intros x y z ??. rewrite <- pow10Z_add. f_equal. lia. }
  rewrite <- !Z.mul_assoc. 
  rewrite !Nat.max_assoc.
  rewrite (E _ (Nat.max s t) s), (E _ (Nat.max s t) t) by lia.
  rewrite <- !Nat.max_assoc.
  rewrite (E _ (Nat.max t u) t), (E _ (Nat.max t u) u) by lia.
  ring.
Qed.

Lemma dec_add_zero_r a : dec_add a dec_zero = a.
Proof.
  destruct a as [m s]. unfold dec_add. cbn [dec_mant dec_scale dec_zero].
  rewrite Nat.max_0_r, Nat.sub_diag. f_equal. change (pow10Z 0) with 1%Z. ring.
Qed.

Lemma fold_left_dec_add l a : fold_left dec_add l a = dec_add a (dec_sum l).
Proof.
  unfold dec_sum. revert a. induction l as [|x l IH]; intros a; cbn.
  - by rewrite dec_add_zero_r.
  - rewrite IH, (IH (dec_add dec_zero x)). rewrite !dec_add_assoc.
    f_equal. rewrite <- dec_add_assoc. f_equal. by rewrite dec_add_comm, dec_add_zero_r.
Qed.

Lemma dec_sum_cons x l : dec_sum (x :: l) = dec_add x (dec_sum l).
Proof.
  unfold dec_sum at 1. cbn. rewrite fold_left_dec_add. f_equal.
  by rewrite dec_add_comm, dec_add_zero_r.
Qed.

Lemma dec_sum_perm l l' : l ≡ₚ l' → dec_sum l = dec_sum l'.
Proof.
  induction 1; [done| | |].
  - rewrite !dec_sum_cons. congruence.
  - rewrite !dec_sum_cons, <- !dec_add_assoc. f_equal. apply dec_add_comm.
  - congruence.
Qed.

(** Sums of rationals over lists; the specification-level sum. *)
Lemma dec_sum_value l :
  (dec_value (dec_sum l) == foldr (λ d q, dec_value d + q) 0 l)%Q.
Proof.
  induction l as [|x l IH]; [done|]. rewrite dec_sum_cons, dec_add_value, IH. reflexivity.
Qed.
