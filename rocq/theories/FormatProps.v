(** Theorems about the text of directives. *)
From Coq Require Import Ascii QArith.
From stdpp Require Import prelude gmap strings pretty.
From Verif Require Import DecModel LedgerTypes IsoModel JsonModel JsonText WireModel CljModel InventoryModel ClientModel NumText NumFacts FormatModel RollupFacts.
Local Open Scope nat_scope.

(** * Specification *)

(** There is no double quote in the string. *)
Fixpoint no_quote (s : string) : bool :=
  match s with EmptyString => true | String c s' => negb (Ascii.eqb c """") && no_quote s' end.
(** The payee and the narration. *)
Definition string_at (k : string) (d : cval) : option string :=
  match vget k d with Some (VStr s) => Some s | _ => None end.
Definition unquoted (o : option string) : bool := match o with Some s => no_quote s | None => true end.
(** Two directives are the same but for payee and narration. *)
Definition same_otherwise (d1 d2 : cval) : Prop :=
  ∀ k, k ≠ "payee" → k ≠ "narration" → vget k d1 = vget k d2.

(** * Lemmas *)

Lemma is_txn_dct d : is_txn d = true → vget "dct" d = Some (VKw "txn").
Proof.
  unfold is_txn. destruct (vget "dct" d) as [[]|]; try done. intros Hd.
  repeat (match type of Hd with match ?x with _ => _ end = true => destruct x; try done end).
Qed.
Lemma append_inj_l a b c : a +:+ b = a +:+ c → b = c.
Proof. induction a as [|x a IH]; [done|]. rewrite !append_cons. intros H. apply IH. by injection H. Qed.
Lemma length_app a b : String.length (a +:+ b) = String.length a + String.length b.
Proof. induction a as [|x a IH]; [done|]. rewrite append_cons. cbn [String.length]. lia. Qed.
Lemma append_inj_r a b c : a +:+ c = b +:+ c → a = b.
Proof.
  revert b. induction a as [|x a IH]; intros b H.
  - destruct b as [|y b]; [done|]. apply (f_equal String.length) in H. rewrite !length_app in H. cbn in H. lia.
  - destruct b as [|y b].
    + apply (f_equal String.length) in H. rewrite !length_app in H. cbn in H. lia.
    + rewrite !append_cons in H. injection H as -> H. by rewrite (IH b H).
Qed.
Lemma cat_app l1 l2 :
  cat (l1 ++ l2) = match cat l1, cat l2 with Some a, Some b => Some (a +:+ b) | _, _ => None end.
Proof.
  induction l1 as [|x l1 IH]; cbn [app cat].
  - by destruct (cat l2).
  - destruct x as [s|]; [|done]. cbn [mbind option_bind]. rewrite IH.
    destruct (cat l1) as [a|]; [|done]. cbn [mbind option_bind]. destruct (cat l2) as [b|]; [|done]. cbn [mbind option_bind].
    by rewrite append_assoc.
Qed.
(** Text in quotes ends at the first quote. *)
Lemma quoted_end p q x y :
  no_quote p = true → no_quote q = true → p +:+ String """" x = q +:+ String """" y → p = q ∧ x = y.
Proof.
  revert q. induction p as [|c p IH]; intros q Hp Hq H; destruct q as [|c' q].
  - injection H as <-. done.
  - rewrite append_nil_l, append_cons in H. injection H as <- H. done.
  - rewrite append_nil_l, append_cons in H. injection H as -> H. done.
  - rewrite !append_cons in H. injection H as -> H. cbn [no_quote] in *. apply andb_true_iff in Hp as [_ Hp], Hq as [_ Hq].
    destruct (IH q Hp Hq H) as [-> ->]. done.
Qed.

Definition fields_text (p n : option string) : string :=
  match p, n with
  | Some p, Some n => " " +:+ String """" (p +:+ """") +:+ " " +:+ String """" (n +:+ """")
  | Some p, None => " " +:+ String """" (p +:+ """") +:+ " " +:+ """"""
  | None, Some n => " " +:+ String """" (n +:+ """")
  | None, None => ""
  end.
Lemma txn_fields_text d : txn_fields d = Some (fields_text (string_at "payee" d) (string_at "narration" d)).
Proof.
  unfold txn_fields, string_at, fields_text, double_quote.
  destruct (vget "payee" d) as [[]|], (vget "narration" d) as [[]|]; done.
Qed.
Lemma two_quoted p n : " " +:+ String """" (p +:+ """") +:+ " " +:+ String """" (n +:+ """") =
  String " " (String """" (p +:+ String """" (String " " (String """" (n +:+ String """" ""))))).
Proof. rewrite !append_cons, append_nil_l, append_assoc. done. Qed.
Lemma one_quoted n : " " +:+ String """" (n +:+ """") = String " " (String """" (n +:+ String """" "")).
Proof. done. Qed.
Lemma fields_text_inj p1 n1 p2 n2 :
  unquoted p1 = true → unquoted n1 = true → unquoted p2 = true → unquoted n2 = true →
  fields_text p1 n1 = fields_text p2 n2 →
  p1 = p2 ∧ (n1 = n2 ∨ is_Some p1 ∧ default "" n1 = default "" n2).
Proof.
  intros Hp1 Hn1 Hp2 Hn2.
  assert (∀ p, " " +:+ String """" (p +:+ """") +:+ " " +:+ """""" = fields_text (Some p) (Some "")) as He by done.
  destruct p1 as [p1|], p2 as [p2|].
  - replace (fields_text (Some p1) n1) with (fields_text (Some p1) (Some (default "" n1))) by (by destruct n1).
    replace (fields_text (Some p2) n2) with (fields_text (Some p2) (Some (default "" n2))) by (by destruct n2).
    unfold fields_text. rewrite !two_quoted. intros H. injection H as H. cbn [unquoted] in *.
    destruct (quoted_end _ _ _ _ Hp1 Hp2 H) as [-> H']. injection H' as H'.
    assert (no_quote (default "" n1) = true) as H1 by (by destruct n1).
    assert (no_quote (default "" n2) = true) as H2 by (by destruct n2).
    destruct (quoted_end _ _ _ _ H1 H2 H') as [Hn _]. split; [done|]. right. split; [by eexists|done].
  - intros H. exfalso.
    assert (fields_text (Some p1) n1 = fields_text (Some p1) (Some (default "" n1))) as Heq by (by destruct n1).
    rewrite Heq in H. unfold fields_text in H. rewrite two_quoted in H. destruct n2 as [n2|]; [|done].
    rewrite one_quoted in H. injection H as H. destruct (quoted_end _ _ _ _ Hp1 Hn2 H) as [_ H']. done.
  - intros H. exfalso.
    assert (fields_text (Some p2) n2 = fields_text (Some p2) (Some (default "" n2))) as Heq by (by destruct n2).
    rewrite Heq in H. unfold fields_text in H. rewrite two_quoted in H. destruct n1 as [n1|]; [|done].
    rewrite one_quoted in H. injection H as H. destruct (quoted_end _ _ _ _ Hn1 Hp2 H) as [_ H']. done.
  - intros H. split; [done|]. left. destruct n1 as [n1|], n2 as [n2|]; try done.
    unfold fields_text in H. rewrite !one_quoted in H. injection H as H. by destruct (quoted_end _ _ _ _ Hn1 Hn2 H) as [-> _].
Qed.

(** * C59 *)

Definition s_text_txn (payee narration : option string) : cval :=
  VMap ([("dct", VKw "txn"); ("date", VDate (Date 2024 1 2)); ("flag", VStr "*")] ++
        match payee with Some s => [("payee", VStr s)] | None => [] end ++
        match narration with Some s => [("narration", VStr s)] | None => [] end ++
        [("tags", VSet [VStr "trip"]); ("postings", VVec [VMap [("acc", VStr "Assets:Cash"); ("units", VNum (CDec (Dec 1250 2))); ("cur", VStr "NZD")]])]).
Definition as_listed (l : list cval) : list cval := l.

(** The text as it is in the golden files of the tests. *)
Example text_example :
  directive_text as_listed (s_text_txn (Some "Repco") None) =
  Some ("2024-01-02 * ""Repco"" """" #trip" +:+ line_end +:+ "  Assets:Cash 12.50 NZD" +:+ line_end).
Proof. by vm_compute. Qed.

(** A narration with quotes in it looks like a payee and a narration; and a payee
    alone looks like one with an empty narration. *)
Theorem C59_refuted :
  ∃ d1 d2 d3 d4,
    is_txn d1 = true ∧ is_txn d2 = true ∧ same_otherwise d1 d2 ∧ string_at "payee" d1 ≠ string_at "payee" d2 ∧
    is_Some (directive_text as_listed d1) ∧ directive_text as_listed d1 = directive_text as_listed d2 ∧
    is_txn d3 = true ∧ is_txn d4 = true ∧ same_otherwise d3 d4 ∧ string_at "narration" d3 ≠ string_at "narration" d4 ∧
    is_Some (directive_text as_listed d3) ∧ directive_text as_listed d3 = directive_text as_listed d4.
Proof.
  exists (s_text_txn (Some "a") (Some "b")), (s_text_txn None (Some "a"" ""b")), (s_text_txn (Some "a") None), (s_text_txn (Some "a") (Some "")).
  assert (∀ p n p' n', same_otherwise (s_text_txn p n) (s_text_txn p' n')) as Hs.
  { intros p n p' n' k Hp Hn. unfold s_text_txn, vget, vfield, entries.
    assert (∀ (o : option string) f, k ≠ f → filter (λ e : string * cval, e.1 = k) (match o with Some s => [(f, VStr s)] | None => [] end) = []) as Hnone.
    { intros o f Hf. destruct o; [|done]. rewrite filter_cons, decide_False; [done|]. cbn. congruence. }
    rewrite !filter_app. rewrite !Hnone by done. done. }
  split; [done|]. split; [done|]. split; [apply Hs|]. split; [by vm_compute|]. split; [vm_compute; by eexists|].
  split; [by vm_compute|]. split; [done|]. split; [done|]. split; [apply Hs|]. split; [by vm_compute|].
  split; [vm_compute; by eexists|]. by vm_compute.
Qed.
Print Assumptions C59_refuted.

(** Two transactions which differ only in payee or narration, none of which contains
    a double quote, are formatted differently unless both have the same payee and
    their narrations are missing or empty.  Missing: strings with quotes, and the
    difference of a missing from an empty narration. *)
Theorem C59_strings_partial so d1 d2 t :
  is_txn d1 = true → same_otherwise d1 d2 →
  Forall (λ o, unquoted o = true) [string_at "payee" d1; string_at "narration" d1; string_at "payee" d2; string_at "narration" d2] →
  directive_text so d1 = Some t → directive_text so d2 = Some t →
  string_at "payee" d1 = string_at "payee" d2 ∧
  (string_at "narration" d1 = string_at "narration" d2 ∨
   is_Some (string_at "payee" d1) ∧ default "" (string_at "narration" d1) = default "" (string_at "narration" d2)).
Proof.
  intros Ht Hs HF H1 H2.
  inversion HF as [|? ? Hp1 HF1]; subst. inversion HF1 as [|? ? Hn1 HF2]; subst.
  inversion HF2 as [|? ? Hp2 HF3]; subst. inversion HF3 as [|? ? Hn2 _]; subst.
  apply fields_text_inj; try done.
  assert (is_txn d2 = true) as Ht2. { unfold is_txn in *. by rewrite <- (Hs "dct"). }
  assert (∀ d, is_txn d = true → specific so d = txn_fields d ∧ is_custom d = false) as Hspec.
  { intros d Hd. apply is_txn_dct in Hd. unfold specific, is_custom. by rewrite Hd. }
  assert (common_header d1 = common_header d2) as Hc.
  { unfold common_header, dct_type. by rewrite (Hs "date"), (Hs "dct"), (Hs "flag"). }
  assert (vpostings d1 = vpostings d2) as Hv. { unfold vpostings. by rewrite (Hs "postings"). }
  destruct (Hspec d1 Ht) as [Hs1 Hc1], (Hspec d2 Ht2) as [Hs2 Hc2].
  unfold directive_text in H1, H2. rewrite Ht, Hs1, Hc1, txn_fields_text in H1. rewrite Ht2, Hs2, Hc2, txn_fields_text in H2.
  unfold vget_true in *. rewrite <- Hc, <- Hv in H2. rewrite <- (Hs "tags"), <- (Hs "links"), <- (Hs "metadata") in H2 by done.
  rewrite cat_app in H1, H2. cbn [cat] in H1, H2.
  destruct (common_header d1) as [ch|]; [|done]. cbn [mbind option_bind] in H1, H2.
  set (rest := cat _) in H1. change (cat _) with rest in H2.
  destruct rest as [r|]; [|done]. rewrite !append_nil_r in H1, H2.
  injection H1 as H1. injection H2 as H2. rewrite <- H1 in H2. apply append_inj_r in H2. by apply append_inj_l in H2.
Qed.
Print Assumptions C59_strings_partial.
Example C59_strings_example :
  is_txn (s_text_txn (Some "a") (Some "b")) = true ∧
  Forall (λ o, unquoted o = true) [Some "a"; Some "b"; None; Some "b"] ∧
  directive_text as_listed (s_text_txn (Some "a") (Some "b")) ≠ directive_text as_listed (s_text_txn None (Some "b")).
Proof. split; [done|]. split; [by repeat constructor|]. by vm_compute. Qed.

(** * C70 *)

(** A number written plainly can be read by [read_number] of [NumText.v]: an optional
    sign and digits with at most one point. *)

(** A small number is written with an exponent. *)
Theorem C70_refuted :
  ∃ d p t, dec_scale d = 7 ∧ vget "units" p = Some (VNum (CDec d)) ∧ posting_text as_listed p = Some t ∧
    t = "  Assets:Coin 1E-7 BTC" +:+ line_end ∧ read_number (num_text (CDec d)) = None.
Proof.
  exists (Dec 1 7), (VMap [("acc", VStr "Assets:Coin"); ("units", VNum (CDec (Dec 1 7))); ("cur", VStr "BTC")]). eexists.
  split; [done|]. split; [done|]. split; [by vm_compute|]. split; by vm_compute.
Qed.
Print Assumptions C70_refuted.

Lemma pretty_go_length x : ∀ s, ∃ k, String.length (pretty_N_go x s) = k + String.length s ∧ (x < 10 ^ N.of_nat k)%N.
Proof.
  induction (N.lt_wf_0 x) as [x _ IH]. intros s. destruct (decide (x = 0%N)) as [->|Hx].
  { exists 0. by rewrite pretty_N_go_0. }
  rewrite pretty_N_go_step by lia.
  destruct (IH (x / 10)%N (ltac:(apply N.div_lt; lia)) (String (pretty_N_char (x `mod` 10)) s)) as (k & Hl & Hk).
  exists (S k). split; [rewrite Hl; cbn [String.length]; lia|].
  rewrite Nat2N.inj_succ, N.pow_succ_r'. pose proof (N.div_mod' x 10). pose proof (N.mod_lt x 10). lia.
Qed.
Lemma pretty_length (n : N) : (n < 10 ^ N.of_nat (String.length (pretty n)))%N.
Proof.
  unfold pretty, pretty_N. case_decide as Hn; [subst; by vm_compute|].
  destruct (pretty_go_length n "") as (k & Hl & Hk). rewrite Hl. cbn [String.length]. by rewrite Nat.add_0_r.
Qed.
(** Where the exponent begins. *)
Lemma small_exponent d :
  (Z.of_nat (String.length (digits (Z.to_N (Z.abs (dec_mant d))))) - 1 - Z.of_nat (dec_scale d) <? -6)%Z && (0 <? dec_scale d)%nat = false ↔
  dec_scale d ≤ 6 ∨ (10 ^ Z.of_nat (dec_scale d) ≤ Z.abs (dec_mant d) * 10 ^ 6)%Z.
Proof.
  set (len := String.length _). destruct (pretty_fixed (Z.to_N (Z.abs (dec_mant d)))) as (n & E & Hn).
  assert (len = S n) as Hlen.
  { unfold len, digits. rewrite E. apply fixed_length. }
  assert (Z.abs (dec_mant d) < 10 ^ Z.of_nat len)%Z as Hz.
  { rewrite Hlen. apply N2Z.inj_lt in Hn. rewrite Z2N.id in Hn by lia. rewrite N2Z.inj_pow in Hn. by rewrite nat_N_Z in Hn. }
  assert (n = 0 ∨ (10 ^ Z.of_nat n ≤ Z.abs (dec_mant d))%Z) as Hl.
  { destruct n as [|n]; [by left|]. right. destruct (decide (Z.to_N (Z.abs (dec_mant d)) = 0%N)) as [H0|H0].
    { rewrite H0 in E. exfalso. assert (String.length (pretty 0%N) = String.length (fixed_digits (S (S n)) 0)) as Hc by by rewrite E.
      rewrite fixed_length in Hc. done. }
    pose proof (pretty_least _ _ E H0) as Hc. apply N2Z.inj_le in Hc. rewrite Z2N.id in Hc by lia. rewrite N2Z.inj_pow in Hc. by rewrite nat_N_Z in Hc. }
  rewrite andb_false_iff, Z.ltb_ge, Nat.ltb_ge. rewrite Hlen in *. split.
  - intros [H|H]; [|left; lia]. destruct Hl as [->|Hl]; [left; lia|].
    destruct (decide (dec_scale d ≤ 6)); [by left|]. right.
    assert (10 ^ Z.of_nat (dec_scale d) ≤ 10 ^ (Z.of_nat n + 6))%Z as Hp by (apply Z.pow_le_mono_r; lia).
    rewrite Z.pow_add_r in Hp by lia. lia.
  - intros [H|H]; [left; lia|]. left.
    assert (10 ^ Z.of_nat (dec_scale d) < 10 ^ (Z.of_nat (S n) + 6))%Z as Hp by (rewrite Z.pow_add_r by lia; lia).
    apply Z.pow_lt_mono_r_iff in Hp; lia.
Qed.

(** Whole numbers, and decimals of at least a millionth, are written plainly, as the
    number they are and with all their digits.  Missing: smaller ones. *)
Theorem C70_plain_partial n :
  (∀ d, n = CDec d → dec_scale d ≤ 6 ∨ (10 ^ Z.of_nat (dec_scale d) ≤ Z.abs (dec_mant d) * 10 ^ 6)%Z) →
  read_number (num_text n) = Some (cn_dec n).
Proof.
  intros H. destruct n as [z|z|d]; cbn [num_text]; [apply read_print|apply read_print|].
  specialize (H d eq_refl). unfold dec_text. rewrite (proj2 (small_exponent d) H). apply read_print.
Qed.
Print Assumptions C70_plain_partial.
(** Smaller ones never are. *)
Theorem C70_small_refuted d :
  6 < dec_scale d → (Z.abs (dec_mant d) * 10 ^ 6 < 10 ^ Z.of_nat (dec_scale d))%Z →
  read_number (num_text (CDec d)) = None.
Proof.
  intros Hs Hm. cbn [num_text]. unfold dec_text.
  destruct (_ && _) eqn:E; [|apply small_exponent in E; lia]. clear E.
  apply read_exponent.
Qed.
Print Assumptions C70_small_refuted.
Example C70_plain_example :
  read_number (num_text (CDec (Dec (-125) 2))) = Some (Dec (-125) 2) ∧ num_text (CDec (Dec (-125) 2)) = "-1.25" ∧
  num_text (CDec (Dec 120 8)) = "0.00000120" ∧ num_text (CDec (Dec 0 7)) = "0E-7" ∧ num_text (CLong (-12)) = "-12".
Proof. by vm_compute. Qed.
Example C70_small_example : 6 < dec_scale (Dec 15 8) ∧ (Z.abs (dec_mant (Dec 15 8)) * 10 ^ 6 < 10 ^ Z.of_nat (dec_scale (Dec 15 8)))%Z ∧
  num_text (CDec (Dec 15 8)) = "1.5E-7".
Proof. split; [cbn; lia|]. by vm_compute. Qed.

(** Who understands scientific notation can read every number. *)
Theorem C70_scientific n : read_scientific (num_text n) = Some (cn_dec n).
Proof.
  assert (∀ d, read_scientific (print_dec d) = Some d) as Hp.
  { intros d. unfold read_scientific. rewrite split_at_read by (by rewrite read_print). apply read_print. }
  destruct n as [z|z|d]; cbn [num_text]; [apply Hp|apply Hp|]. unfold dec_text.
  destruct (_ && _) eqn:E; [|apply Hp]. clear Hp.
  destruct (pretty_fixed (Z.to_N (Z.abs (dec_mant d)))) as (n & En & Hn).
  assert (digits (Z.to_N (Z.abs (dec_mant d))) = fixed_digits (S n) (Z.to_N (Z.abs (dec_mant d)))) as Ed by done.
  rewrite Ed in *. rewrite fixed_length in *. pose proof (read_pointed n _ Hn) as Hr.
  set (mid := match fixed_digits (S n) _ with String c EmptyString => _ | _ => _ end) in *.
  apply andb_true_iff in E as [E1 E2]. apply Z.ltb_lt in E1.
  assert (read_number ((if (dec_mant d <? 0)%Z then "-" else "") +:+ mid) = Some (Dec (dec_mant d) n)) as Hm.
  { assert (mid ≠ "") as Hne by (intros H0; by rewrite H0 in Hr).
    destruct (dec_mant d <? 0)%Z eqn:Hs.
    - change ("-" +:+ mid) with (String "-" mid). unfold read_number. change (Ascii.eqb "-" "-") with true. cbn match. rewrite Hr.
      cbn [fmap option_fmap option_map fst snd]. do 2 f_equal. apply Z.ltb_lt in Hs. rewrite Z2N.id by lia. lia.
    - change ("" +:+ mid) with mid. unfold read_number. destruct mid as [|c r] eqn:Em; [done|].
      assert (Ascii.eqb c "-" = false) as ->.
      { destruct (Ascii.eqb_spec c "-") as [->|]; [|done]. cbn in Hr. done. }
      rewrite Hr. cbn [fmap option_fmap option_map fst snd]. do 2 f_equal. apply Z.ltb_ge in Hs. rewrite Z2N.id by lia. lia. }
  rewrite <- str_app_assoc. change ("E" +:+ ?s) with (String "E" s). unfold read_scientific. rewrite split_at_app.
  - rewrite Hm. unfold int_text. rewrite read_print. destruct d as [m k]. cbn [dec_scale dec_mant cn_dec] in *. do 2 f_equal. lia.
  - intros x y Hxy. rewrite Hxy in Hm. assert (read_number (x +:+ String "E" y) = None) as H0 by by apply read_letter. by rewrite H0 in Hm.
Qed.
Print Assumptions C70_scientific.
Example C70_scientific_example : read_scientific "-1.5E-7" = Some (Dec (-15) 8) ∧ read_scientific "0E-7" = Some (Dec 0 7) ∧ read_scientific "2.50" = Some (Dec 250 2).
Proof. by vm_compute. Qed.
