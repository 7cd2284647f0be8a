(** What client and server write is JSON text of what they mean. *)
From Coq Require Import Ascii QArith.
From stdpp Require Import prelude gmap strings pretty.
From Verif Require Import DecModel LedgerTypes JsonModel JsonText TextFacts NumFacts CljModel InventoryModel ClientModel FormatModel
  ReadModel ReadSpec ReadFacts.
Local Open Scope nat_scope.
Local Notation digits := ReadSpec.digits.
Local Notation string_app_assoc := TextFacts.string_app_assoc.
Local Notation length_app := ReadFacts.length_app.

(** * Numbers *)
Lemma value_of_app a b : value_of (a +:+ b) = (value_of a * 10 ^ Z.of_nat (String.length b) + value_of b)%Z.
Proof.
  induction a as [|c a IH]; [done|]. rewrite app_cons. cbn [value_of String.length]. rewrite IH, length_app, Nat2Z.inj_add, Z.pow_add_r by lia. lia.
Qed.
Lemma digit_code x : (x < 10)%N → N_of_ascii (ascii_of_N (48 + x)) = (48 + x)%N.
Proof. intros H. apply N_ascii_embedding. lia. Qed.
Lemma fixed_digits_digits n x : digits (fixed_digits n x).
Proof.
  revert x. induction n as [|n IH]; intros x; [done|]. cbn [fixed_digits]. apply every_app. split; [apply IH|]. split; [|done].
  assert (x mod 10 < 10)%N as Hx by by apply N.mod_lt. cbv beta. rewrite digit_code by done. revert Hx. generalize (x mod 10)%N. lia.
Qed.
Lemma fixed_value n x : (x < 10 ^ N.of_nat n)%N → value_of (fixed_digits n x) = Z.of_N x.
Proof.
  revert x. induction n as [|n IH]; intros x Hx; [cbn in *; lia|]. cbn [fixed_digits]. rewrite value_of_app, IH.
  - cbn [String.length value_of]. rewrite digit_code by by apply N.mod_lt. pose proof (N.div_mod' x 10).
    change (10 ^ Z.of_nat 1)%Z with 10%Z. change (10 ^ Z.of_nat 0)%Z with 1%Z. lia.
  - apply N.div_lt_upper_bound; [done|]. rewrite Nat2N.inj_succ, N.pow_succ_r' in Hx. lia.
Qed.
Lemma digits_bound ds : digits ds → (0 ≤ value_of ds < 10 ^ Z.of_nat (String.length ds))%Z.
Proof.
  induction ds as [|c ds IH]; [done|]. intros [Hc Hds]. specialize (IH Hds). cbn [value_of String.length].
  rewrite Nat2Z.inj_succ, Z.pow_succ_r by lia. nia.
Qed.
Lemma pretty_digits (x : N) : digits (pretty x) ∧ value_of (pretty x) = Z.of_N x ∧ whole_text (pretty x).
Proof.
  destruct (pretty_fixed x) as (n&E&Hn). rewrite E. pose proof (fixed_digits_digits (S n) x) as Hd. pose proof (fixed_value _ _ Hn) as Hv.
  split_and!; [done..|]. destruct (decide (x = 0%N)) as [->|Hx].
  { left. rewrite <- E. done. }
  right. split; [done|]. pose proof (pretty_least x n E Hx) as Hl. pose proof (fixed_length (S n) x) as Hlen.
  destruct (fixed_digits (S n) x) as [|c r]; [done|]. exists c, r. split; [done|]. intros ->. cbn [value_of] in Hv. destruct Hd as [_ Hr].
  apply digits_bound in Hr. cbn [String.length] in Hlen. injection Hlen as Hlen. rewrite Hlen in *. apply N2Z.inj_le in Hl. rewrite N2Z.inj_pow, nat_N_Z in Hl.
  change (Z.of_N (N_of_ascii "0")) with 48%Z in Hv. lia.
Qed.
Lemma pow_scale d : Z.to_N (pow10Z (dec_scale d)) = (10 ^ N.of_nat (dec_scale d))%N.
Proof. rewrite pow10_pow, Z2N.inj_pow by lia. f_equal. lia. Qed.
Theorem print_dec_text d : number_text (print_dec d) d.
Proof.
  unfold print_dec. rewrite pow_scale. set (m := Z.abs_N (dec_mant d)). set (p := (10 ^ N.of_nat (dec_scale d))%N).
  destruct (pretty_digits (m / p)) as (_&Hv&Hw).
  set (ds := match dec_scale d with O => "" | n => fixed_digits n (m mod p) end).
  assert (Hds : String.length ds = dec_scale d ∧ value_of ds = Z.of_N (m mod p) ∧ digits ds).
  { unfold ds. assert (m mod p < p)%N by (apply N.mod_lt; unfold p; by apply N.pow_nonzero).
    destruct (dec_scale d) as [|n] eqn:En.
    - assert (p = 1%N) as -> by (unfold p; done). split_and!; try done. by rewrite N.mod_1_r.
    - split_and!; [apply fixed_length|by apply fixed_value|apply fixed_digits_digits]. }
  destruct Hds as (Hlen&Hval&Hdig).
  exists (if (dec_mant d <? 0)%Z then "-" else ""), (pretty (m / p)%N), (match dec_scale d with O => "" | n => "." +:+ fixed_digits n (m mod p)%N end), ds, "", 0%Z.
  rewrite app_nil. split_and!; [done|done| |by left|].
  - unfold ds. destruct (dec_scale d) as [|n] eqn:En; [by left|]. right. split; [done|]. split; [apply fixed_digits_digits|].
    intros Hx. apply (f_equal String.length) in Hx. by rewrite fixed_length in Hx.
  - assert (Hm : value_of (pretty (m / p)%N +:+ ds) = Z.of_N m).
    { rewrite value_of_app, Hv, Hval, Hlen. unfold p. rewrite <- nat_N_Z. rewrite <- (N2Z.inj_pow 10), <- N2Z.inj_mul, <- N2Z.inj_add. f_equal. fold p.
      rewrite N.mul_comm. symmetry. apply N.div_mod'. }
    rewrite Hm, Hlen. destruct d as [z k]. cbn [dec_mant dec_scale] in *. unfold is_dec.
    destruct (Z.ltb_spec z 0); [right|left]; (split; [done|]); left; (split; [lia|]); f_equal; unfold m; lia.
Qed.
Theorem dec_text_text d : number_text (dec_text d) d.
Proof.
  unfold dec_text. destruct (_ && _) eqn:E; [|apply print_dec_text]. apply andb_true_iff in E as [E _]. apply Z.ltb_lt in E.
  unfold FormatModel.digits in *. destruct (pretty_digits (Z.to_N (Z.abs (dec_mant d)))) as (Hd&Hv&_).
  set (adj := (_ - 1 - _)%Z) in *. destruct (pretty _) as [|c rest] eqn:Ep.
  { exfalso. destruct (pretty_fixed (Z.to_N (Z.abs (dec_mant d)))) as (n&E'&_). rewrite Ep in E'. apply (f_equal String.length) in E'. by rewrite fixed_length in E'. }
  assert (Hi : int_text adj = "-" +:+ pretty (Z.abs_N adj)).
  { unfold int_text, print_dec. cbn [dec_mant dec_scale]. destruct (Z.ltb_spec adj 0); [|lia]. rewrite app_nil. do 2 f_equal. apply N.div_1_r. }
  rewrite Hi. destruct (pretty_digits (Z.abs_N adj)) as (Hd'&Hv'&Hw'). destruct Hd as [Hc Hr].
  exists (if (dec_mant d <? 0)%Z then "-" else ""), (String c ""), (match rest with "" => "" | _ => "." +:+ rest end), rest,
    ("E" +:+ "-" +:+ pretty (Z.abs_N adj)), adj. split_and!.
  - f_equal. destruct rest; [done|]. rewrite !app_cons, !nil_app. done.
  - destruct (Ascii.eqb_spec c "0") as [->|H]; [by left|right]. split; [done|]. by exists c, "".
  - destruct rest; [by left|right]. split_and!; try done; apply Hr.
  - right. exists "E", "-", (pretty (Z.abs_N adj)). split_and!; [done|auto|done| |].
    + intros Hx. apply whole_digits in Hw' as [_ Hw']. by rewrite Hx in Hw'.
    + right. split; [done|]. rewrite Hv'. lia.
  - assert (Hm : value_of (String c "" +:+ rest) = Z.abs (dec_mant d)).
    { rewrite app_cons, nil_app. rewrite Hv. lia. }
    rewrite Hm. assert ((adj - Z.of_nat (String.length rest) = - Z.of_nat (dec_scale d))%Z) as ->.
    { unfold adj. cbn [String.length]. lia. }
    destruct d as [z k]. cbn [dec_mant dec_scale] in *. unfold is_dec.
    destruct (Z.ltb_spec z 0); [right|left]; (split; [done|]); left; (split; [lia|]); f_equal; lia.
Qed.

(** * Strings *)
Lemma escape_char_text c u s : chars_text u s → chars_text (escape_char c +:+ u) (String c s).
Proof.
  intros H. destruct c as [[] [] [] [] [] [] [] []];
    first [ by apply (CT_plain _ u s)
          | apply (CT_escape _ _ u s); [rewrite !elem_of_cons; tauto|done]
          | eapply (CT_unicode _ _ _ _ _ (String _ "") u s); [apply hex4_spec; reflexivity|by left|left; split; reflexivity|done] ].
Qed.
Lemma jackson_char_text c u s : chars_text u s → chars_text (jackson_char c +:+ u) (String c s).
Proof.
  intros H. destruct c as [[] [] [] [] [] [] [] []];
    first [ by apply (CT_plain _ u s)
          | apply (CT_escape _ _ u s); [rewrite !elem_of_cons; tauto|done]
          | eapply (CT_unicode _ _ _ _ _ (String _ "") u s); [apply hex4_spec; reflexivity|by left|left; split; reflexivity|done] ].
Qed.
Lemma quote_text s : string_text (quote s) s.
Proof.
  exists (escape s). split; [done|]. induction s as [|c s IH]; [constructor|]. cbn [escape]. by apply escape_char_text.
Qed.
Lemma jackson_quote_text s : string_text (jackson_quote s) s.
Proof.
  exists (jackson_escape s). split; [done|]. induction s as [|c s IH]; [constructor|]. cbn [jackson_escape]. by apply jackson_char_text.
Qed.

(** * Values *)
Lemma list_written {A} (open close : string) (P : string → A → Prop) (f : A → string) l : (∀ x, x ∈ l → P (f x) x) →
  list_text open close P (open +:+ commas (map f l) +:+ close) l.
Proof.
  intros H. destruct l as [|x l]; [left; split; [done|]; by exists ""|]. right. split; [done|]. exists (map f (x :: l)). split; [|done].
  revert H. generalize (x :: l). clear x l. intros l H. induction l as [|x l IH]; constructor; [apply H; by left|apply IH; intros y Hy; apply H; by right].
Qed.
Lemma padded_self {A} (P : string → A → Prop) t x : P t x → padded P t x.
Proof. intros H. exists "", t, "". by rewrite app_nil. Qed.
Lemma member_written (V : string → json → Prop) q v k j : string_text q k → V v j → member_text V (q +:+ ":" +:+ v) (k, j).
Proof. intros Hq Hv. exists "", q, "", v. split_and!; try done. by apply padded_self. Qed.
Lemma nesting_arr l j n : j ∈ l → nesting (JArr l) ≤ S n → nesting j ≤ n.
Proof.
  intros Hj H. cbn [nesting] in H. apply le_S_n in H. etransitivity; [|exact H]. apply max_list_elem_of_le, elem_of_list_fmap. by exists j.
Qed.
Lemma nesting_obj fs kv n : kv ∈ fs → nesting (JObj fs) ≤ S n → nesting kv.2 ≤ n.
Proof.
  intros Hj H. cbn [nesting] in H. apply le_S_n in H. etransitivity; [|exact H]. apply max_list_elem_of_le, elem_of_list_fmap. by exists kv.
Qed.
Theorem print_json_text j n : nesting j ≤ n → value_text n (print_json j) j.
Proof.
  revert n. induction j as [|b|d|s|l IH|fs IH] using json_ind'; intros n Hn; try (by destruct n).
  - destruct n; apply print_dec_text.
  - destruct n; apply quote_text.
  - destruct n as [|n]; [cbn in Hn; lia|]. cbn [value_text print_json]. apply list_written. intros j Hj. apply padded_self, IH; [done|]. by eapply nesting_arr.
  - destruct n as [|n]; [cbn in Hn; lia|]. cbn [value_text print_json].
    apply (list_written "{" "}" (member_text (value_text n)) (λ kv, quote kv.1 +:+ ":" +:+ print_json kv.2)).
    intros [k j] Hj. apply member_written; [apply quote_text|]. apply (IH (k, j)); [done|]. by apply (nesting_obj fs (k, j)).
Qed.
Theorem generate_string_text j n : nesting j ≤ n → value_text n (generate_string j) j.
Proof.
  revert n. induction j as [|b|d|s|l IH|fs IH] using json_ind'; intros n Hn; try (by destruct n).
  - destruct n; apply dec_text_text.
  - destruct n; apply jackson_quote_text.
  - destruct n as [|n]; [cbn in Hn; lia|]. cbn [value_text generate_string]. apply list_written. intros j Hj. apply padded_self, IH; [done|]. by eapply nesting_arr.
  - destruct n as [|n]; [cbn in Hn; lia|]. cbn [value_text generate_string].
    apply (list_written "{" "}" (member_text (value_text n)) (λ kv, jackson_quote kv.1 +:+ ":" +:+ generate_string kv.2)).
    intros [k j] Hj. apply member_written; [apply jackson_quote_text|]. apply (IH (k, j)); [done|]. by apply (nesting_obj fs (k, j)).
Qed.

(** * No control characters *)
Definition plain : string → Prop := every (λ c, (32 ≤ N_of_ascii c)%N).
Lemma plain_app a b : plain (a +:+ b) ↔ plain a ∧ plain b.
Proof. apply every_app. Qed.
Lemma plain_digits ds : digits ds → plain ds.
Proof. induction ds as [|c ds IH]; [done|]. intros [Hc H]. split; [cbv beta in *; lia|by apply IH]. Qed.
Lemma plain_char c : (32 <=? N_of_ascii c)%N = true → plain (String c "").
Proof. intros H. split; [by apply N.leb_le|done]. Qed.
Lemma number_plain t d : number_text t d → plain t.
Proof.
  intros (sg&w&ft&ds&xt&e&->&Hw&Hf&Hx&Hd). rewrite !plain_app. split_and!.
  - destruct Hd as [[-> _]|[-> _]]; [done|]. by apply plain_char.
  - apply plain_digits. by apply whole_digits.
  - destruct Hf as [[-> _]|(->&Hf&_)]; [done|]. apply plain_app. split; [by apply plain_char|by apply plain_digits].
  - destruct Hx as [[-> _]|(m&sg'&ds'&->&Hm&Hds&_&Hs)]; [done|]. rewrite !plain_app. split_and!; [|..|by apply plain_digits].
    + destruct Hm as [->| ->]; by apply plain_char.
    + destruct Hs as [[[->| ->] _]|[-> _]]; try done; by apply plain_char.
Qed.
Lemma hex_plain c n : hex c n → (32 ≤ N_of_ascii c)%N.
Proof. unfold hex. lia. Qed.
Lemma chars_plain u s : chars_text u s → plain u.
Proof.
  induction 1 as [|c t s H1 H2 H3 H IH|e c t s He H IH|h1 h2 h3 h4 n x t s Hn Hr Hx H IH|h1 h2 h3 h4 l1 l2 l3 l4 n m x t s Hn Hm Hrn Hrm Hx H IH].
  - done.
  - by split.
  - split; [by apply N.leb_le|]. split; [|done]. rewrite !elem_of_cons, elem_of_nil in He.
    repeat (destruct He as [[= -> ->]|He]; [by apply N.leb_le|]). done.
  - destruct Hn as (a&b&c&d&Ha&Hb&Hc&Hd&_). apply hex_plain in Ha, Hb, Hc, Hd.
    apply plain_app. split; [by split; [apply N.leb_le|by apply plain_char]|]. done.
  - destruct Hn as (a&b&c&d&Ha&Hb&Hc&Hd&_). apply hex_plain in Ha, Hb, Hc, Hd.
    destruct Hm as (a'&b'&c'&d'&Ha'&Hb'&Hc'&Hd'&_). apply hex_plain in Ha', Hb', Hc', Hd'.
    apply plain_app. split; [by split; [apply N.leb_le|by apply plain_char]|].
    do 4 (split; [done|]). change (plain ("\u" +:+ String l1 (String l2 (String l3 (String l4 t))))).
    apply plain_app. split; [by split; [apply N.leb_le|by apply plain_char]|]. done.
Qed.
Lemma string_plain t s : string_text t s → plain t.
Proof. intros (u&->&Hu). split; [by apply N.leb_le|]. apply plain_app. split; [by eapply chars_plain|by apply plain_char]. Qed.
Lemma plain_commas l : (∀ x, x ∈ l → plain x) → plain (commas l).
Proof.
  intros H. destruct l as [|x l]; [done|]. unfold commas. rewrite concat_commas. apply plain_app. split; [apply H; by left|].
  assert (∀ y, y ∈ l → plain y) as Hl by (intros y Hy; apply H; by right). clear H. induction l as [|y l IH]; [done|].
  rewrite after_commas_cons. split; [by apply N.leb_le|]. apply plain_app. split; [apply Hl; by left|]. apply IH. intros z Hz. apply Hl. by right.
Qed.
Lemma print_json_plain j : plain (print_json j).
Proof.
  induction j as [|b|d|s|l IH|fs IH] using json_ind'; cbn [print_json].
  - by repeat (split; [by apply N.leb_le|]).
  - destruct b; by repeat (split; [by apply N.leb_le|]).
  - eapply number_plain, print_dec_text.
  - eapply string_plain, quote_text.
  - rewrite !plain_app. split_and!; [by apply plain_char| |by apply plain_char]. apply plain_commas. intros x Hx.
    apply elem_of_list_fmap in Hx as (j&->&Hj). by apply IH.
  - rewrite !plain_app. split_and!; [by apply plain_char| |by apply plain_char]. apply plain_commas. intros x Hx.
    apply elem_of_list_fmap in Hx as (kv&->&Hj). rewrite !plain_app. split_and!; [eapply string_plain, quote_text|by apply plain_char|by apply IH].
Qed.
Lemma generate_string_plain j : plain (generate_string j).
Proof.
  induction j as [|b|d|s|l IH|fs IH] using json_ind'; cbn [generate_string].
  - by repeat (split; [by apply N.leb_le|]).
  - destruct b; by repeat (split; [by apply N.leb_le|]).
  - eapply number_plain, dec_text_text.
  - eapply string_plain, jackson_quote_text.
  - rewrite !plain_app. split_and!; [by apply plain_char| |by apply plain_char]. apply plain_commas. intros x Hx.
    apply elem_of_list_fmap in Hx as (j&->&Hj). by apply IH.
  - rewrite !plain_app. split_and!; [by apply plain_char| |by apply plain_char]. apply plain_commas. intros x Hx.
    apply elem_of_list_fmap in Hx as (kv&->&Hj). rewrite !plain_app. split_and!; [eapply string_plain, jackson_quote_text|by apply plain_char|by apply IH].
Qed.
