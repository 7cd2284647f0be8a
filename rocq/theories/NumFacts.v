(** Numbers written and read: lemmas. *)
From Coq Require Import Ascii.
From stdpp Require Import prelude strings pretty.
From Verif Require Import DecModel JsonModel JsonText NumText.
Local Open Scope nat_scope.

Lemma str_app_assoc (a b c : string) : (a +:+ b) +:+ c = a +:+ (b +:+ c).
Proof. induction a as [|x a IH]; [done|]. change (String x ((a +:+ b) +:+ c) = String x (a +:+ (b +:+ c))). by rewrite IH. Qed.
Lemma str_app_nil (a : string) : a +:+ "" = a.
Proof. induction a as [|x a IH]; [done|]. change (String x (a +:+ "") = String x a). by rewrite IH. Qed.
Lemma str_app_cons c (a b : string) : String c a +:+ b = String c (a +:+ b).
Proof. done. Qed.

Lemma digit_cases (P : N → Prop) x : (x < 10)%N →
  P 0%N → P 1%N → P 2%N → P 3%N → P 4%N → P 5%N → P 6%N → P 7%N → P 8%N → P 9%N → P x.
Proof.
  intros H. intros. assert (x = 0 ∨ x = 1 ∨ x = 2 ∨ x = 3 ∨ x = 4 ∨ x = 5 ∨ x = 6 ∨ x = 7 ∨ x = 8 ∨ x = 9)%N as Hx by lia.
  repeat (destruct Hx as [->|Hx]; [done|]). by subst.
Qed.
Lemma pretty_char_digit x : (x < 10)%N → pretty_N_char x = ascii_of_N (48 + x).
Proof. intros H. by apply (digit_cases (λ x, pretty_N_char x = ascii_of_N (48 + x)) x H). Qed.
Lemma digit_of_digit x : (x < 10)%N → digit_of (ascii_of_N (48 + x)) = Some (Z.of_N x).
Proof. intros H. by apply (digit_cases (λ x, digit_of (ascii_of_N (48 + x)) = Some (Z.of_N x)) x H). Qed.
Lemma digit_not_point x : (x < 10)%N → Ascii.eqb (ascii_of_N (48 + x)) "." = false.
Proof. intros H. by apply (digit_cases (λ x, Ascii.eqb (ascii_of_N (48 + x)) "." = false) x H). Qed.
Lemma digit_not_minus x : (x < 10)%N → Ascii.eqb (ascii_of_N (48 + x)) "-" = false.
Proof. intros H. by apply (digit_cases (λ x, Ascii.eqb (ascii_of_N (48 + x)) "-" = false) x H). Qed.
Lemma read_digit p m k x s : (x < 10)%N →
  read_rest p m k (String (ascii_of_N (48 + x)) s) = read_rest p (10 * m + Z.of_N x)%Z (if p then S k else k) s.
Proof. intros H. cbn [read_rest]. by rewrite digit_not_point, digit_of_digit. Qed.

Lemma pow10_S n : pow10Z (S n) = (10 * pow10Z n)%Z.
Proof. done. Qed.
Lemma pow10_pow n : pow10Z n = (10 ^ Z.of_nat n)%Z.
Proof. induction n as [|n IH]; [done|]. rewrite pow10_S, IH, Nat2Z.inj_succ, Z.pow_succ_r; lia. Qed.
(** The digits of a number of a given width. *)
Lemma read_fixed p n : ∀ x m k s, (x < 10 ^ N.of_nat n)%N →
  read_rest p m k (fixed_digits n x +:+ s) = read_rest p (pow10Z n * m + Z.of_N x)%Z (if p then n + k else k) s.
Proof.
  induction n as [|n IH]; intros x m k s Hx.
  - assert (x = 0%N) as -> by (cbn in Hx; lia). change (fixed_digits 0 0 +:+ s) with s. f_equal; [|by destruct p].
    unfold pow10Z. cbn. lia.
  - cbn [fixed_digits]. rewrite str_app_assoc, IH.
    + rewrite str_app_cons. change ("" +:+ s) with s. rewrite read_digit by (by apply N.mod_lt).
      f_equal; [|by destruct p].
      pose proof (N.div_mod' x 10) as Hd. rewrite Hd at 3. rewrite N2Z.inj_add, N2Z.inj_mul.
      rewrite pow10_S. lia.
    + apply N.div_lt_upper_bound; [done|]. rewrite Nat2N.inj_succ, N.pow_succ_r' in Hx. lia.
Qed.

(** [pretty] writes as many digits as are needed. *)
Lemma pretty_go_fixed x : ∀ s, ∃ n, pretty_N_go x s = fixed_digits n x +:+ s ∧ (x < 10 ^ N.of_nat n)%N ∧ (x ≠ 0%N → n ≠ 0) .
Proof.
  induction (N.lt_wf_0 x) as [x _ IH]. intros s. destruct (decide (x = 0%N)) as [->|Hx].
  { exists 0. rewrite pretty_N_go_0. split; [done|]. split; [done|]. done. }
  rewrite pretty_N_go_step by lia.
  destruct (IH (x / 10)%N (ltac:(apply N.div_lt; lia)) (String (pretty_N_char (x `mod` 10)) s)) as (n & -> & Hn & _).
  exists (S n). split_and!.
  - cbn [fixed_digits]. rewrite str_app_assoc. by rewrite pretty_char_digit by (by apply N.mod_lt).
  - rewrite Nat2N.inj_succ, N.pow_succ_r'. pose proof (N.div_mod' x 10). pose proof (N.mod_lt x 10). lia.
  - done.
Qed.
Lemma pretty_fixed (x : N) : ∃ n, pretty x = fixed_digits (S n) x ∧ (x < 10 ^ N.of_nat (S n))%N.
Proof.
  unfold pretty, pretty_N. case_decide as H.
  - subst. exists 0. by vm_compute.
  - destruct (pretty_go_fixed x "") as (n & -> & Hn & H0). destruct n as [|n]; [by destruct H0|].
    exists n. by rewrite str_app_nil.
Qed.
Lemma fixed_first n : ∀ x, ∃ y r, fixed_digits (S n) x = String (ascii_of_N (48 + y)) r ∧ (y < 10)%N.
Proof.
  induction n as [|n IH]; intros x.
  - exists (x `mod` 10)%N, "". split; [done|by apply N.mod_lt].
  - destruct (IH (x / 10)%N) as (y & r & E & Hy). exists y, (r +:+ String (ascii_of_N (48 + x mod 10)) ""). split; [|done].
    change (fixed_digits (S (S n)) x) with (fixed_digits (S n) (x / 10) +:+ String (ascii_of_N (48 + x mod 10)) "").
    by rewrite E.
Qed.
Lemma read_unsigned_pretty (x : N) s :
  read_unsigned (pretty x +:+ s) = read_rest false (Z.of_N x) 0 s ∧ ∃ y r, pretty x +:+ s = String (ascii_of_N (48 + y)) r ∧ (y < 10)%N.
Proof.
  destruct (pretty_fixed x) as (n & -> & Hn). destruct (fixed_first n x) as (y & r & E & Hy). split.
  - unfold read_unsigned. rewrite E. rewrite str_app_cons, digit_of_digit by done. rewrite <- str_app_cons, <- E.
    rewrite read_fixed by done. by rewrite Z.mul_0_r.
  - exists y, (r +:+ s). split; [|done]. by rewrite E.
Qed.

(** What [print_dec] writes is read as the number. *)
Theorem read_print d : read_number (print_dec d) = Some d.
Proof.
  unfold print_dec. set (m := Z.abs_N (dec_mant d)). set (p := Z.to_N (pow10Z (dec_scale d))).
  assert (p = 10 ^ N.of_nat (dec_scale d))%N as Hp.
  { unfold p. rewrite pow10_pow, Z2N.inj_pow by lia. f_equal. lia. }
  assert (read_unsigned (pretty (m / p)%N +:+ match dec_scale d with O => "" | n => "." +:+ fixed_digits n (m mod p)%N end) = Some (Z.of_N m, dec_scale d)) as Hu.
  { destruct (read_unsigned_pretty (m / p)%N (match dec_scale d with O => "" | n => "." +:+ fixed_digits n (m mod p)%N end)) as [-> _].
    destruct (dec_scale d) as [|n] eqn:E.
    - cbn [read_rest]. do 2 f_equal. rewrite Hp. cbn [N.of_nat]. by rewrite N.pow_0_r, N.div_1_r.
    - change ("." +:+ fixed_digits (S n) (m mod p)) with (String "." (fixed_digits (S n) (m mod p))). cbn [read_rest].
      change (Ascii.eqb "." ".") with true. cbn match.
      rewrite <- (str_app_nil (fixed_digits _ _)), read_fixed.
      + cbn [read_rest]. rewrite Nat.add_0_r. do 2 f_equal.
        assert (pow10Z (S n) = Z.of_N p) as -> by (unfold p; rewrite Z2N.id; done).
        rewrite <- N2Z.inj_mul, <- N2Z.inj_add. f_equal. symmetry. apply N.div_mod'.
      + rewrite Hp. apply N.mod_lt. apply N.pow_nonzero. lia. }
  destruct (dec_mant d <? 0)%Z eqn:Hs.
  - apply Z.ltb_lt in Hs. change ("-" +:+ ?s) with (String "-" s). unfold read_number. change (Ascii.eqb "-" "-") with true. cbn match.
    rewrite Hu. cbn. destruct d as [z k]. cbn [dec_mant dec_scale] in *. f_equal. f_equal. unfold m. lia.
  - apply Z.ltb_ge in Hs. change ("" +:+ ?s) with s.
    destruct (read_unsigned_pretty (m / p)%N (match dec_scale d with O => "" | n => "." +:+ fixed_digits n (m mod p)%N end)) as [_ (y & r & E & Hy)].
    unfold read_number. rewrite E. rewrite digit_not_minus by done. rewrite <- E, Hu. destruct d as [z k]. cbn [fmap option_fmap option_map fst snd dec_mant dec_scale] in *.
    f_equal. f_equal. unfold m. cbn [dec_mant]. lia.
Qed.

(** ** Widths *)
Lemma str_length_app (a b : string) : String.length (a +:+ b) = String.length a + String.length b.
Proof. induction a as [|x a IH]; [done|]. rewrite str_app_cons. cbn [String.length]. by rewrite IH. Qed.
Lemma fixed_length n : ∀ x, String.length (fixed_digits n x) = n.
Proof. induction n as [|n IH]; intros x; [done|]. cbn [fixed_digits]. rewrite str_length_app, IH. cbn. lia. Qed.
(** [pretty] writes no digit too many. *)
Lemma pretty_go_least x : ∀ s, x ≠ 0%N → (10 ^ N.of_nat (String.length (pretty_N_go x s) - String.length s - 1) ≤ x)%N ∧ String.length s < String.length (pretty_N_go x s).
Proof.
  induction (N.lt_wf_0 x) as [x _ IH]. intros s Hx. rewrite pretty_N_go_step by lia.
  destruct (decide (x / 10 = 0)%N) as [E|E].
  - rewrite E, pretty_N_go_0. cbn [String.length]. replace (S (String.length s) - String.length s - 1) with 0 by lia.
    split; [|lia]. cbn. lia.
  - destruct (IH (x / 10)%N (ltac:(apply N.div_lt; lia)) (String (pretty_N_char (x `mod` 10)) s) E) as [H1 H2].
    cbn [String.length] in *. split; [|lia]. set (l := String.length (pretty_N_go _ _)) in *.
    replace (l - String.length s - 1) with (S (l - S (String.length s) - 1)) by lia.
    rewrite Nat2N.inj_succ, N.pow_succ_r'. etransitivity; [by apply N.mul_le_mono_l|by apply N.mul_div_le].
Qed.
Lemma pretty_least (x : N) n : pretty x = fixed_digits (S n) x → x ≠ 0%N → (10 ^ N.of_nat n ≤ x)%N.
Proof.
  intros E Hx. assert (String.length (pretty x) = S n) as Hl by (rewrite E; apply fixed_length).
  unfold pretty, pretty_N in Hl. case_decide; [done|]. destruct (pretty_go_least x "" Hx) as [Hle _].
  rewrite Hl in Hle. cbn [String.length] in Hle. by replace (S n - 0 - 1) with n in Hle by lia.
Qed.

(** A text with a letter is no plain number. *)
Lemma read_rest_letter c s' : digit_of c = None → Ascii.eqb c "." = false → ∀ a p m k, read_rest p m k (a +:+ String c s') = None.
Proof.
  intros Hd Hp. induction a as [|x a IH]; intros p m k.
  - change ("" +:+ ?s) with s. cbn [read_rest]. by rewrite Hp, Hd.
  - rewrite str_app_cons. cbn [read_rest]. destruct (Ascii.eqb x "."); [destruct p; [done|apply IH]|].
    destruct (digit_of x); [apply IH|done].
Qed.
Lemma read_letter c s' : digit_of c = None → Ascii.eqb c "." = false → Ascii.eqb c "-" = false → ∀ a, read_number (a +:+ String c s') = None.
Proof.
  intros Hd Hp Hm. assert (∀ a, read_unsigned (a +:+ String c s') = None) as Hu.
  { intros [|x a]; [change ("" +:+ ?s) with s; cbn [read_unsigned]; by rewrite Hd|].
    rewrite str_app_cons. cbn [read_unsigned]. destruct (digit_of x); [|done].
    rewrite <- str_app_cons. by apply read_rest_letter. }
  intros [|x a].
  - change ("" +:+ ?s) with s. unfold read_number. rewrite Hm. by rewrite (Hu "" : read_unsigned (String c s') = None).
  - rewrite str_app_cons. unfold read_number. destruct (Ascii.eqb x "-"); [by rewrite Hu|].
    rewrite <- str_app_cons. by rewrite (Hu (String x a)).
Qed.
Lemma read_exponent a b e : read_number (a +:+ b +:+ "E" +:+ e) = None.
Proof. rewrite <- str_app_assoc. change ("E" +:+ e) with (String "E" e). by apply read_letter. Qed.

(** ** Scientific notation *)
Lemma fixed_head n : ∀ x, fixed_digits (S n) x = String (ascii_of_N (48 + (x / 10 ^ N.of_nat n) mod 10)) (fixed_digits n x).
Proof.
  induction n as [|n IH]; intros x.
  - cbn [fixed_digits N.of_nat]. by rewrite N.pow_0_r, N.div_1_r.
  - change (fixed_digits (S (S n)) x) with (fixed_digits (S n) (x / 10) +:+ String (ascii_of_N (48 + x mod 10)) "").
    rewrite IH, str_app_cons. f_equal. f_equal. rewrite N.div_div by (try done; by apply N.pow_nonzero).
    by rewrite Nat2N.inj_succ, N.pow_succ_r'.
Qed.
Lemma fixed_mod n : ∀ x, fixed_digits n x = fixed_digits n (x mod 10 ^ N.of_nat n).
Proof.
  induction n as [|n IH]; intros x; [done|]. cbn [fixed_digits].
  rewrite Nat2N.inj_succ, N.pow_succ_r'. rewrite (IH (x / 10)%N), (IH ((x mod (10 * 10 ^ N.of_nat n)) / 10)%N).
  rewrite N.mod_mul_r by (try done; by apply N.pow_nonzero).
  assert (x mod 10 + 10 * ((x / 10) mod 10 ^ N.of_nat n) = (x / 10) mod 10 ^ N.of_nat n * 10 + x mod 10)%N as -> by lia.
  rewrite N.div_add_l by done. rewrite (N.div_small (x mod 10)) by (by apply N.mod_lt). rewrite N.add_0_r, N.mod_mod by (by apply N.pow_nonzero).
  f_equal. f_equal. f_equal. f_equal. rewrite N.add_comm, N.mod_add by done. by rewrite N.mod_mod.
Qed.
(** A point after the first digit. *)
Lemma read_pointed n x : (x < 10 ^ N.of_nat (S n))%N →
  read_unsigned (match fixed_digits (S n) x with
                 | String c EmptyString => String c ""
                 | String c rest => String c ("." +:+ rest)
                 | EmptyString => ""
                 end) = Some (Z.of_N x, n).
Proof.
  intros Hx. rewrite fixed_head. set (h := ((x / 10 ^ N.of_nat n) mod 10)%N).
  assert (h < 10)%N as Hh by by apply N.mod_lt.
  assert (h = x / 10 ^ N.of_nat n)%N as Hh'.
  { apply N.mod_small. apply N.div_lt_upper_bound; [by apply N.pow_nonzero|]. rewrite Nat2N.inj_succ, N.pow_succ_r' in Hx. lia. }
  destruct n as [|n].
  - cbn [fixed_digits]. unfold read_unsigned. rewrite digit_of_digit, read_digit by done. cbn [read_rest].
    do 2 f_equal. rewrite Hh'. cbn [N.of_nat]. by rewrite N.pow_0_r, N.div_1_r.
  - assert (∃ c r, fixed_digits (S n) x = String c r) as (c & r & E) by (rewrite fixed_head; eauto). rewrite E.
    change ("." +:+ String c r) with (String "." (String c r)). rewrite <- E.
    unfold read_unsigned. rewrite digit_of_digit, read_digit by done. cbn [read_rest]. change (Ascii.eqb "." ".") with true. cbn match.
    change (read_rest true (10 * 0 + Z.of_N h) 0 (fixed_digits (S n) x) = Some (Z.of_N x, S n)).
    rewrite fixed_mod, <- (str_app_nil (fixed_digits _ _)), read_fixed by (apply N.mod_lt; by apply N.pow_nonzero).
    cbn [read_rest]. rewrite Nat.add_0_r. do 2 f_equal. rewrite Hh'.
    rewrite (N.div_mod' x (10 ^ N.of_nat (S n))) at 3. rewrite N2Z.inj_add, N2Z.inj_mul, N2Z.inj_pow, nat_N_Z, <- pow10_pow. lia.
Qed.
Lemma split_at_app c a b : (∀ x y, a = x +:+ String c y → False) → split_at c (a +:+ String c b) = Some (a, b).
Proof.
  induction a as [|x a IH]; intros H.
  - change ("" +:+ ?s) with s. cbn [split_at]. by rewrite Ascii.eqb_refl.
  - rewrite str_app_cons. cbn [split_at]. destruct (Ascii.eqb_spec x c) as [->|Hx].
    + destruct (H "" a). done.
    + rewrite IH; [done|]. intros y z ->. apply (H (String x y) z). done.
Qed.
Lemma split_at_read s : read_number s ≠ None → split_at "E" s = None.
Proof.
  intros H. assert (∀ s, (∀ x y, s = x +:+ String "E" y → False) → split_at "E" s = None) as Hn.
  { clear. induction s as [|x a IH]; intros H; [done|]. cbn [split_at]. destruct (Ascii.eqb_spec x "E") as [->|Hx].
    - destruct (H "" a). done.
    - rewrite IH; [done|]. intros y z ->. apply (H (String x y) z). done. }
  apply Hn. intros x y ->. apply H. by apply read_letter.
Qed.
