(** Names and values as words, and how they are read. *)
From Coq Require Import Ascii QArith.
From stdpp Require Import prelude gmap strings.
From Verif Require Import DecModel LedgerTypes IsoModel IsoFacts NumText TextFacts FormatModel TextSpec WriteSpec TextWords.
Local Open Scope nat_scope.

Ltac all_chars c := destruct c as [[] [] [] [] [] [] [] []].
Lemma digit_word c : is_Some (digit_of c) → no_word c = false ∧ upper c = false ∧ lower c = false ∧ beyond_ascii c = false.
Proof. all_chars c; intros [? H]; try done. Qed.

(** * Numbers *)
Lemma read_rest_chars s : ∀ b m k x, read_rest b m k s = Some x → has_char no_word s = false.
Proof.
  induction s as [|c s IH]; intros b m k x H; [done|]. cbn [has_char read_rest] in *. destruct (Ascii.eqb_spec c ".") as [->|_].
  - destruct b; [done|]. by eapply IH.
  - destruct (digit_of c) eqn:E; [|done]. destruct (digit_word c) as [-> _]; [done|]. by eapply IH.
Qed.
Lemma read_unsigned_first s x : read_unsigned s = Some x → ∃ c s', s = String c s' ∧ is_Some (digit_of c) ∧ has_char no_word s = false.
Proof.
  destruct s as [|c s]; [done|]. cbn [read_unsigned]. destruct (digit_of c) eqn:E; [|done]. intros H. exists c, s. split_and!; [done|by rewrite E|].
  by eapply read_rest_chars.
Qed.
Lemma read_number_first w d : read_number w = Some d →
  ∃ c s, w = String c s ∧ (is_Some (digit_of c) ∨ c = "-"%char) ∧ has_char no_word w = false.
Proof.
  destruct w as [|c s]; [done|]. cbn [read_number]. destruct (Ascii.eqb_spec c "-") as [->|_].
  - destruct (read_unsigned s) as [x|] eqn:E; [|done]. intros _. destruct (read_unsigned_first _ _ E) as (?&?&?&_&H). exists "-"%char, s. split_and!; [done|auto|done].
  - destruct (read_unsigned (String c s)) as [x|] eqn:E; [|done]. intros _. destruct (read_unsigned_first _ _ E) as (c'&s'&[= <- <-]&?&H). eauto 10.
Qed.
Lemma digit_val_of c z : digit_val c = Some z → is_Some (digit_of c).
Proof. all_chars c; intros H; try done. Qed.
Lemma read_rest_minus b m k s : digit_of "-" = None → read_rest b m k (String "-" s) = None.
Proof. done. Qed.
Lemma parse_unsigned_not s b d : parse_unsigned b s = Some d → read_unsigned s = None.
Proof.
  intros H. do 5 (destruct s as [|? s]; [done|]). cbn in H.
  destruct s as [|? [|? [|? [|? [|? [|]]]]]]; try done. repeat (apply bind_Some in H as (?&?&H)).
  destruct (Ascii.eqb_spec a3 "-") as [->|]; [|done].
  unfold read_unsigned. destruct (digit_val_of _ _ H0) as [? ->].
  assert (∀ c z b m k t, digit_val c = Some z → read_rest b m k (String c t) = read_rest b (10 * m + default 0%Z (digit_of c)) (if b then S k else k) t) as Hd.
  { intros c z b0 m0 k0 t Hc. cbn. destruct (digit_val_of _ _ Hc) as [? ->]. destruct (Ascii.eqb_spec c ".") as [->|]; [by vm_compute in Hc|done]. }
  by rewrite (Hd _ _ _ _ _ _ H0), (Hd _ _ _ _ _ _ H1), (Hd _ _ _ _ _ _ H2), (Hd _ _ _ _ _ _ H3).
Qed.
Lemma date_not_number w d : parse_date w = Some d → read_number w = None.
Proof.
  destruct w as [|c s]; [done|]. cbn [parse_date read_number]. destruct (Ascii.eqb_spec c "-") as [->|_].
  - intros H. by rewrite (parse_unsigned_not _ _ _ H).
  - destruct (Ascii.eqb_spec c "+") as [->|_]; [done|]. intros H. by rewrite (parse_unsigned_not _ _ _ H).
Qed.
Lemma number_not_date w d : read_number w = Some d → parse_date w = None.
Proof. intros H. destruct (parse_date w) eqn:E; [|done]. apply date_not_number in E. congruence. Qed.
Lemma number_word w d : read_number w = Some d → word_name w.
Proof. intros H. destruct (read_number_first _ _ H) as (c&s&->&_&?). by split. Qed.
Lemma number_not w d : read_number w = Some d →
  is_currency w = false ∧ is_account w = false ∧ labelled "#" w = None ∧ labelled "^" w = None ∧ is_flag w = false ∧ w ≠ "*" ∧ w ≠ "#" ∧ read_key w = None.
Proof.
  intros H. pose proof (number_word _ _ H) as _. destruct (read_number_first _ _ H) as (c&s&->&Hc&_).
  assert (w_first : upper c || Ascii.eqb c "/" = false ∧ upper c || beyond_ascii c = false ∧ Ascii.eqb c "#" = false ∧ Ascii.eqb c "^" = false ∧
    lower c = false ∧ existsb (Ascii.eqb c) ["*"; "!"; "&"; "#"; "?"; "%"; "'"]%char = false).
  { clear H. destruct Hc as [[? Hc]| ->]; [|done]. all_chars c; done. }
  destruct w_first as (H1&H2&H3&H4&H5&H6). cbn in H6. rewrite !orb_false_iff, !Ascii.eqb_neq in H6. destruct H6 as (?&?&?&?&?&?&?&_).
  unfold is_currency, is_account, labelled, read_key. rewrite H1, H2, H3, H4, H5. split_and!; try done; try (by destruct s); try congruence.
  unfold is_flag. apply orb_false_iff. split.
  - cbn [existsb]. rewrite !orb_false_iff. split_and!; try done; apply String.eqb_neq; congruence.
  - destruct (decide (c = "'"%char)); [done|]. clear H. by all_chars c.
Qed.

(** * Dates *)
Lemma parse_unsigned_chars s b d : parse_unsigned b s = Some d → has_char no_word s = false ∧ s ≠ "".
Proof.
  intros H. split; [|by intros ->]. do 5 (destruct s as [|? s]; [done|]). cbn in H.
  destruct s as [|? [|? [|? [|? [|? [|]]]]]]; try done. repeat (apply bind_Some in H as (?&?&H)).
  destruct (Ascii.eqb_spec a3 "-") as [->|]; [|done]. destruct (Ascii.eqb_spec a6 "-") as [->|]; [|done].
  repeat match goal with H : digit_val ?c = Some _ |- _ => apply digit_val_of, digit_word in H as [? _] end.
  cbn [has_char]. rewrite !orb_false_iff. done.
Qed.
Lemma date_word w d : parse_date w = Some d → word_name w.
Proof.
  destruct w as [|c s]; [done|]. cbn [parse_date]. destruct (Ascii.eqb_spec c "-") as [->|_]; [|destruct (Ascii.eqb_spec c "+") as [->|_]].
  - intros [H _]%parse_unsigned_chars. split; [done|]. cbn [has_char]. by rewrite H.
  - intros [H _]%parse_unsigned_chars. split; [done|]. cbn [has_char]. by rewrite H.
  - intros [H _]%parse_unsigned_chars. by split.
Qed.
Lemma fmt_date_word d : valid_date d = true → word_name (fmt_date d).
Proof. intros H. eapply date_word. by apply parse_fmt_date. Qed.

(** * Names *)
Lemma account_not a : is_account a = true →
  read_number a = None ∧ parse_date a = None ∧ labelled "#" a = None ∧ labelled "^" a = None ∧ is_flag a = false ∧ read_key a = None ∧ is_currency a = false ∧
  a ≠ "TRUE" ∧ a ≠ "FALSE" ∧ a ≠ "NULL".
Proof.
  unfold is_account. rewrite !andb_true_iff. intros [[Hc Hh] He]. destruct a as [|c s]; [done|].
  assert (read_number (String c s) = None) as H1.
  { cbn [read_number read_unsigned]. clear Hh He. by all_chars c. }
  assert (parse_date (String c s) = None) as H2.
  { cbn [parse_date]. destruct (Ascii.eqb_spec c "-") as [->|]; [done|]. destruct (Ascii.eqb_spec c "+") as [->|]; [done|].
    destruct (parse_unsigned false (String c s)) as [d|] eqn:E; [|done]. do 5 (destruct s as [|? s]; [done|]). cbn in E.
    destruct s as [|? [|? [|? [|? [|? [|]]]]]]; try done. apply bind_Some in E as (?&E&_). clear -Hc E. by all_chars c. }
  split_and!; try done.
  - unfold labelled. destruct s; [done|]. clear -Hc. by all_chars c.
  - unfold labelled. destruct s; [done|]. clear -Hc. by all_chars c.
  - unfold is_flag. clear -Hc Hh. apply orb_false_iff. split; [|by all_chars c].
    apply not_true_is_false. rewrite existsb_exists. intros (x&Hx&E%String.eqb_eq). subst x. apply elem_of_list_In in Hx.
    rewrite !elem_of_cons in Hx. by destruct_or! Hx; try (injection Hx as -> ->); try (by apply elem_of_nil in Hx).
  - unfold read_key. destruct s; [done|]. clear -Hc. by all_chars c.
  - unfold is_currency. rewrite Hh. by rewrite andb_false_r.
  - by intros [= -> ->].
  - by intros [= -> ->].
  - by intros [= -> ->].
Qed.
Lemma currency_not a : is_currency a = true →
  read_number a = None ∧ parse_date a = None ∧ labelled "#" a = None ∧ labelled "^" a = None ∧ is_account a = false ∧
  a ≠ "TRUE" ∧ a ≠ "FALSE" ∧ a ≠ "NULL" ∧ a ≠ "#" ∧ a ≠ "*" ∧ a ≠ "~" ∧ a ≠ "@" ∧ a ≠ "@@".
Proof.
  unfold is_currency. rewrite !andb_true_iff. intros [[Hc Hh] He]. destruct a as [|c s]; [done|].
  assert (read_number (String c s) = None) as H1.
  { cbn [read_number read_unsigned]. clear Hh He. by all_chars c. }
  assert (parse_date (String c s) = None) as H2.
  { cbn [parse_date]. destruct (Ascii.eqb_spec c "-") as [->|]; [done|]. destruct (Ascii.eqb_spec c "+") as [->|]; [done|].
    destruct (parse_unsigned false (String c s)) as [d|] eqn:E; [|done]. do 5 (destruct s as [|? s]; [done|]). cbn in E.
    destruct s as [|? [|? [|? [|? [|? [|]]]]]]; try done. apply bind_Some in E as (?&E&_). clear -Hc E. by all_chars c. }
  split_and!; try done.
  - unfold labelled. destruct s; [done|]. clear -Hc. by all_chars c.
  - unfold labelled. destruct s; [done|]. clear -Hc. by all_chars c.
  - unfold is_account. apply negb_true_iff in Hh. rewrite Hh. by rewrite andb_false_r.
  - by intros [= -> ->].
  - by intros [= -> ->].
  - by intros [= -> ->].
  - by intros [= -> ->].
  - by intros [= -> ->].
  - by intros [= -> ->].
  - by intros [= -> ->].
  - by intros [= -> ->].
Qed.
Lemma flag_letter f : match f with String "'" (String c EmptyString) => upper c | _ => false end = true → ∃ c, f = String "'" (String c "") ∧ upper c = true.
Proof.
  destruct f as [|c f]; [done|]. intros H. assert (c = "'"%char) as -> by (by all_chars c). destruct f as [|u [|]]; try done. eauto.
Qed.
Lemma flag_word f : is_flag f = true → word_name f.
Proof.
  unfold is_flag. rewrite orb_true_iff. intros [H|H].
  - apply existsb_exists in H as (x&Hx&E%String.eqb_eq). subst x. apply elem_of_list_In in Hx. rewrite !elem_of_cons in Hx.
    destruct_or! Hx; try (subst f; by split). by apply elem_of_nil in Hx.
  - apply flag_letter in H as (u&->&Hu). split; [done|]. by all_chars u.
Qed.
(** A flag is one of a few, or a quote and a letter. *)
Lemma flag_cases f : is_flag f = true → f ∈ ["*"; "!"; "&"; "#"; "?"; "%"] ∨ ∃ c, f = String "'" (String c "").
Proof.
  unfold is_flag. rewrite orb_true_iff. intros [H|H].
  - apply existsb_exists in H as (x&Hx&E%String.eqb_eq). subst x. apply elem_of_list_In in Hx. by left.
  - apply flag_letter in H as (u&->&Hu). eauto.
Qed.
Lemma label_word p s : no_word p = false → word_name s → word_name (String p s).
Proof. intros Hp [_ Hs]. split; [done|]. cbn [has_char]. by rewrite Hp, Hs. Qed.
Lemma labelled_label p s : s ≠ "" → labelled p (String p s) = Some s.
Proof. intros H. destruct s; [done|]. cbn. by rewrite Ascii.eqb_refl. Qed.

(** Keys. *)
Lemma ends_colon_app k : ends_in_colon (k +:+ ":") = true.
Proof. induction k as [|c k IH]; [done|]. change (String c k +:+ ":") with (String c (k +:+ ":")). destruct (k +:+ ":") eqn:E; [by destruct k|]. exact IH. Qed.
Lemma colon_length k : 0 < String.length (k +:+ ":").
Proof. destruct k as [|c k]; [change (0 < 1); lia|]. change (String c k +:+ ":") with (String c (k +:+ ":")). cbn [String.length]. lia. Qed.
Lemma chop_app k : chop (k +:+ ":") = k.
Proof.
  unfold chop. induction k as [|c k IH]; [done|]. change (String c k +:+ ":") with (String c (k +:+ ":")). cbn [String.length].
  replace (S (String.length (k +:+ ":")) - 1) with (S (String.length (k +:+ ":") - 1)) by (pose proof (colon_length k); lia). cbn [String.substring]. by rewrite IH.
Qed.
Lemma read_key_key k : key_name k → read_key (k +:+ ":") = Some k.
Proof.
  intros (Hk&_). destruct k as [|c k]; [done|]. unfold read_key. pose proof (ends_colon_app (String c k)) as He. pose proof (chop_app (String c k)) as Hc.
  change (String c k +:+ ":") with (String c (k +:+ ":")) in *. destruct (k +:+ ":") eqn:E; [by destruct k|]. by rewrite Hk, He, Hc.
Qed.
Lemma has_char_app P s s' : has_char P (s +:+ s') = has_char P s || has_char P s'.
Proof. induction s as [|c s IH]; [done|]. change (String c s +:+ s') with (String c (s +:+ s')). cbn [has_char]. by rewrite IH, orb_assoc. Qed.
Lemma key_word k : key_name k → word_name (k +:+ ":").
Proof. intros (_&[Hn Hk]&_). split; [by destruct k|]. by rewrite has_char_app, Hk. Qed.
