(** Dates survive formatting and parsing. *)
From Coq Require Import Ascii.
From stdpp Require Import prelude strings.
From Verif Require Import LedgerTypes IsoModel.
Local Open Scope Z_scope.

Lemma digit_val_digit n : 0 <= n <= 9 → digit_val (digit n) = Some n.
Proof.
  intros H. assert (n = 0 ∨ n = 1 ∨ n = 2 ∨ n = 3 ∨ n = 4 ∨ n = 5 ∨ n = 6 ∨ n = 7 ∨ n = 8 ∨ n = 9) as Hn by lia.
  repeat destruct Hn as [->|Hn]; try reflexivity. by subst.
Qed.

Lemma digit_val_Some c n : digit_val c = Some n → 0 <= n <= 9 ∧ c = digit n.
Proof.
  destruct c as [b0 b1 b2 b3 b4 b5 b6 b7].
  destruct b0, b1, b2, b3, b4, b5, b6, b7; vm_compute; intros [= <-];
    (split; [split; discriminate|reflexivity]).
Qed.

Lemma digit_not_sign n : 0 <= n <= 9 → (digit n =? "-")%char = false ∧ (digit n =? "+")%char = false.
Proof.
  intros H. assert (n = 0 ∨ n = 1 ∨ n = 2 ∨ n = 3 ∨ n = 4 ∨ n = 5 ∨ n = 6 ∨ n = 7 ∨ n = 8 ∨ n = 9) as Hn by lia.
  repeat destruct Hn as [->|Hn]; try (by split). by subst.
Qed.

Lemma digits2 n : 0 <= n <= 99 → 0 <= n / 10 <= 9 ∧ 0 <= n mod 10 <= 9 ∧ 10 * (n / 10) + n mod 10 = n.
Proof. intros H. pose proof (Z.div_mod n 10). pose proof (Z.mod_pos_bound n 10). lia. Qed.

Lemma digits4 n : 0 <= n <= 9999 →
  0 <= n / 1000 <= 9 ∧ 0 <= n / 100 mod 10 <= 9 ∧ 0 <= n / 10 mod 10 <= 9 ∧ 0 <= n mod 10 <= 9 ∧
  1000 * (n / 1000) + 100 * (n / 100 mod 10) + 10 * (n / 10 mod 10) + n mod 10 = n.
Proof.
  intros H. pose proof (Z.div_mod n 10). pose proof (Z.mod_pos_bound n 10).
  pose proof (Z.div_mod (n / 10) 10). pose proof (Z.mod_pos_bound (n / 10) 10).
  pose proof (Z.div_mod (n / 100) 10). pose proof (Z.mod_pos_bound (n / 100) 10).
  assert (n / 10 / 10 = n / 100) by (by rewrite Z.div_div by lia).
  assert (n / 100 / 10 = n / 1000) by (by rewrite Z.div_div by lia). lia.
Qed.

Lemma month_days_bound y m : month_days y m <= 31.
Proof. unfold month_days. repeat case_match; lia. Qed.

Lemma valid_date_spec d : valid_date d = true ↔
  -9999 <= date_year d <= 9999 ∧ 1 <= date_month d <= 12 ∧
  1 <= date_day d <= month_days (date_year d) (date_month d).
Proof. unfold valid_date. rewrite !andb_true_iff, !Z.leb_le. lia. Qed.

Lemma parse_unsigned_digits (neg : bool) y m d :
  0 <= y <= 9999 → valid_date (Date (if neg then - y else y) m d) = true →
  parse_unsigned neg
    (String (digit (y / 1000)) (String (digit (y / 100 mod 10))
     (String (digit (y / 10 mod 10)) (String (digit (y mod 10))
     (String "-"%char (String (digit (m / 10)) (String (digit (m mod 10))
     (String "-"%char (String (digit (d / 10)) (String (digit (d mod 10)) "")))))))))) =
  Some (Date (if neg then - y else y) m d).
Proof.
  intros Hy Hv. pose proof Hv as Hv'. apply valid_date_spec in Hv' as (_ & Hm & Hd); cbn [date_month date_day date_year] in *.
  pose proof (month_days_bound (if neg then - y else y) m).
  destruct (digits4 y Hy) as (H1 & H2 & H3 & H4 & H5).
  destruct (digits2 m) as (M1 & M2 & M3); [lia|]. destruct (digits2 d) as (D1 & D2 & D3); [lia|].
  unfold parse_unsigned. rewrite !digit_val_digit by done. cbn [mbind option_bind].
  rewrite H5, M3, D3. cbn [Ascii.eqb Bool.eqb andb]. by rewrite Hv.
Qed.

Lemma parse_fmt_date d : valid_date d = true → parse_date (fmt_date d) = Some d.
Proof.
  intros Hv. pose proof Hv as Hv'. apply valid_date_spec in Hv' as (Hy & Hm & Hd).
  pose proof (parse_unsigned_digits (date_year d <? 0) (Z.abs (date_year d)) (date_month d) (date_day d)) as Hp.
  assert ((if date_year d <? 0 then - Z.abs (date_year d) else Z.abs (date_year d)) = date_year d) as Hyy.
  { destruct (date_year d <? 0) eqn:E; [apply Z.ltb_lt in E|apply Z.ltb_ge in E]; lia. }
  rewrite Hyy in Hp. destruct d as [y m k]; cbn [date_month date_day date_year] in *.
  specialize (Hp ltac:(lia) Hv). unfold fmt_date; cbn [date_month date_day date_year].
  destruct (y <? 0); [exact Hp|].
  destruct (digits4 (Z.abs y) ltac:(lia)) as (H1 & _).
  destruct (digit_not_sign _ H1) as [Hs1 Hs2].
  change ("" +:+ ?s) with s. unfold parse_date at 1. rewrite Hs1, Hs2. exact Hp.
Qed.

Lemma parse_unsigned_valid neg s d : parse_unsigned neg s = Some d → valid_date d = true.
Proof.
  unfold parse_unsigned. intros H. repeat (case_match; try discriminate H; []).
  repeat (apply bind_Some in H as (? & _ & H)). repeat (case_match; try discriminate H; []). by injection H as <-.
Qed.

Lemma parse_date_valid s d : parse_date s = Some d → valid_date d = true.
Proof.
  unfold parse_date. destruct s as [|c s]; [done|]. repeat case_match; apply parse_unsigned_valid.
Qed.

Lemma two_digits_of a b : 0 <= a <= 9 → 0 <= b <= 9 → (10 * a + b) / 10 = a ∧ (10 * a + b) mod 10 = b.
Proof.
  intros. split; [symmetry; apply (Z.div_unique _ _ _ b); lia|symmetry; apply (Z.mod_unique _ _ a); lia].
Qed.

Lemma parse_unsigned_fmt neg s d : parse_unsigned neg s = Some d →
  ∃ y, 0 <= y <= 9999 ∧ d = Date (if neg then - y else y) (date_month d) (date_day d) ∧
    s = String (digit (y / 1000)) (String (digit (y / 100 mod 10))
     (String (digit (y / 10 mod 10)) (String (digit (y mod 10))
     (String "-"%char (String (digit (date_month d / 10)) (String (digit (date_month d mod 10))
     (String "-"%char (String (digit (date_day d / 10)) (String (digit (date_day d mod 10)) ""))))))))).
Proof.
  unfold parse_unsigned. intros H.
  destruct s as [|c1 [|c2 [|c3 [|c4 [|h1 [|m1 [|m2 [|h2 [|d1 [|d2 [|? ?]]]]]]]]]]]; try done.
  apply bind_Some in H as (y1 & [B1 ->]%digit_val_Some & H).
  apply bind_Some in H as (y2 & [B2 ->]%digit_val_Some & H).
  apply bind_Some in H as (y3 & [B3 ->]%digit_val_Some & H).
  apply bind_Some in H as (y4 & [B4 ->]%digit_val_Some & H).
  apply bind_Some in H as (n1 & [B5 ->]%digit_val_Some & H).
  apply bind_Some in H as (n2 & [B6 ->]%digit_val_Some & H).
  apply bind_Some in H as (k1 & [B7 ->]%digit_val_Some & H).
  apply bind_Some in H as (k2 & [B8 ->]%digit_val_Some & H).
  destruct ((h1 =? "-")%char) eqn:E1; [|done]. destruct ((h2 =? "-")%char) eqn:E2; [|done].
  apply Ascii.eqb_eq in E1 as ->. apply Ascii.eqb_eq in E2 as ->. cbn [andb] in H.
  case_match; [|done]. injection H as <-. cbn [date_month date_day].
  exists (1000 * y1 + 100 * y2 + 10 * y3 + y4). split; [lia|]. split; [done|].
  destruct (two_digits_of n1 n2) as [-> ->]; [done..|]. destruct (two_digits_of k1 k2) as [-> ->]; [done..|].
  assert ((1000 * y1 + 100 * y2 + 10 * y3 + y4) / 1000 = y1) as ->
    by (symmetry; apply (Z.div_unique _ _ _ (100 * y2 + 10 * y3 + y4)); lia).
  assert ((1000 * y1 + 100 * y2 + 10 * y3 + y4) / 100 = 10 * y1 + y2) as ->
    by (symmetry; apply (Z.div_unique _ _ _ (10 * y3 + y4)); lia).
  assert ((1000 * y1 + 100 * y2 + 10 * y3 + y4) / 10 = 10 * (10 * y1 + y2) + y3) as ->
    by (symmetry; apply (Z.div_unique _ _ _ y4); lia).
  assert ((1000 * y1 + 100 * y2 + 10 * y3 + y4) mod 10 = y4) as ->
    by (symmetry; apply (Z.mod_unique _ _ (100 * y1 + 10 * y2 + y3)); lia).
  destruct (two_digits_of y1 y2) as [_ ->]; [done..|].
  assert ((10 * (10 * y1 + y2) + y3) mod 10 = y3) as ->
    by (symmetry; apply (Z.mod_unique _ _ (10 * y1 + y2)); lia).
  done.
Qed.

(** Whatever parses is the canonical text of the date, but for a redundant
    sign. *)
Lemma parse_date_text s d : parse_date s = Some d →
  s = fmt_date d ∨ (s = "+" +:+ fmt_date d ∧ 0 <= date_year d) ∨ (s = "-" +:+ fmt_date d ∧ date_year d = 0).
Proof.
  intros H. unfold parse_date in H. destruct s as [|c s]; [done|].
  destruct ((c =? "-")%char) eqn:E1; [|destruct ((c =? "+")%char) eqn:E2].
  - apply Ascii.eqb_eq in E1 as ->. apply parse_unsigned_fmt in H as (y & Hy & Hd & ->).
    destruct (decide (y = 0)) as [->|Hn].
    + right; right. rewrite Hd. cbn [date_year]. split; [|done]. reflexivity.
    + left. unfold fmt_date. rewrite Hd. cbn [date_year date_month date_day].
      destruct (- y <? 0) eqn:E; [|apply Z.ltb_ge in E; lia].
      replace (Z.abs (- y)) with y by lia. reflexivity.
  - apply Ascii.eqb_eq in E2 as ->. apply parse_unsigned_fmt in H as (y & Hy & Hd & ->).
    right; left. unfold fmt_date. rewrite Hd. cbn [date_year date_month date_day].
    destruct (y <? 0) eqn:E; [apply Z.ltb_lt in E; lia|]. replace (Z.abs y) with y by lia. split; [reflexivity|lia].
  - apply parse_unsigned_fmt in H as (y & Hy & Hd & ->).
    left. unfold fmt_date. rewrite Hd. cbn [date_year date_month date_day].
    destruct (y <? 0) eqn:E; [apply Z.ltb_lt in E; lia|]. replace (Z.abs y) with y by lia. reflexivity.
Qed.
