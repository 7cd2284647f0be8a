(** What is printed is read again, and what plugins are given. *)
From Coq Require Import Ascii QArith.
From stdpp Require Import prelude gmap strings pretty.
From Verif Require Import DecModel LedgerTypes IsoModel IsoFacts JsonModel JsonText CljModel InventoryModel ClientModel FormatModel TextFacts ReadModel ReadSpec ReadFacts ReadWrite EdnModel EdnSpec EdnWords EdnNumbers EdnForms.
Local Open Scope nat_scope.
Local Notation digits := ReadSpec.digits.
Local Notation app_assoc := TextFacts.string_app_assoc.

(** * Values of the client *)
Lemma mapM_expresses l : Forall (λ v, ∀ w, to_cval v = Some w ↔ expresses v w) l → ∀ l', mapM to_cval l = Some l' ↔ Forall2 expresses l l'.
Proof.
  intros H l'. rewrite mapM_Some. split; intros Hf.
  - revert l' Hf. induction H as [|v l Hv _ IH]; intros l' Hf; inversion Hf; subst; constructor; [by apply Hv|auto].
  - revert l' Hf. induction H as [|v l Hv _ IH]; intros l' Hf; inversion Hf; subst; constructor; [by apply Hv|auto].
Qed.
Lemma keys_of (key : string → edn) (get : edn → option string) fs ks : (∀ k s, get k = Some s ↔ k = key s) →
  mapM (λ kv : edn * edn, get kv.1) fs = Some ks ↔ Forall2 (λ kv k, kv.1 = key k) fs ks.
Proof. intros H. rewrite mapM_Some. split; intros Hf; (eapply Forall2_impl; [exact Hf|]); intros ? ?; apply H. Qed.
Lemma zip_maps (key : string → edn) (fs : list (edn * edn)) ks vs :
  Forall2 (λ kv k, kv.1 = key k) fs ks → Forall2 (λ kv v, expresses kv.2 v) fs vs →
  Forall2 (λ kv kw, kv.1 = key kw.1 ∧ expresses kv.2 kw.2) fs (zip ks vs).
Proof. intros H. revert vs. induction H as [|kv k fs ks Hk _ IH]; intros vs Hv; inversion Hv; subst; constructor; auto. Qed.
Lemma unzip_maps (key : string → edn) fs gs : Forall2 (λ (kv : edn * edn) (kw : string * cval), kv.1 = key kw.1 ∧ expresses kv.2 kw.2) fs gs →
  Forall2 (λ kv k, kv.1 = key k) fs (gs.*1) ∧ Forall2 (λ kv v, expresses kv.2 v) fs (gs.*2) ∧ zip gs.*1 gs.*2 = gs.
Proof.
  induction 1 as [|kv [k v] fs gs [H1 H2] _ (IH1&IH2&IH3)]; [split_and!; constructor|]. rewrite !fmap_cons. cbn [zip zip_with]. split_and!; try by constructor.
  f_equal. exact IH3.
Qed.
Lemma keyword_key_spec k s : keyword_key k = Some s ↔ k = EKw s.
Proof. destruct k; cbn; naive_solver. Qed.
Lemma string_key_spec k s : string_key k = Some s ↔ k = EStr s.
Proof. destruct k; cbn; naive_solver. Qed.
Lemma to_cval_spec v w : to_cval v = Some w ↔ expresses v w.
Proof.
  revert w. induction v as [|x|x|x|x|x|x|x|x|l IH|l IH|l IH|fs IH] using edn_ind'; intros w; cbn [to_cval].
  all: try (split; [intros [= <-]; constructor|intros H; by inversion H]).
  - split.
    + intros (l'&H&->)%fmap_Some. constructor. by apply (mapM_expresses l IH).
    + intros H. inversion H as [| | | | | |? l' Hl| |]; subst. apply fmap_Some. exists l'. split; [by apply (mapM_expresses l IH)|done].
  - split.
    + intros (l'&H&->)%fmap_Some. constructor. by apply (mapM_expresses l IH).
    + intros H. inversion H as [| | | | | | |? l' Hl|]; subst. apply fmap_Some. exists l'. split; [by apply (mapM_expresses l IH)|done].
  - assert (Hvs : ∀ vs, mapM (λ kv : edn * edn, to_cval kv.2) fs = Some vs ↔ Forall2 (λ kv v, expresses kv.2 v) fs vs).
    { intros vs. rewrite mapM_Some. revert vs. induction IH as [|kv fs [_ Hkv] _ IH']; intros vs.
      - split; intros H; inversion H; constructor.
      - split; intros H; inversion H; subst; constructor; try (by apply Hkv); by apply IH'. }
    split.
    + intros (vs&Hv&H)%bind_Some. apply Hvs in Hv.
      destruct (mapM (λ kv, keyword_key kv.1) fs) as [ks|] eqn:Ek.
      { injection H as <-. apply (X_map EKw); [auto|]. apply zip_maps; [|done]. by apply (keys_of EKw keyword_key _ _ keyword_key_spec). }
      destruct (mapM (λ kv, string_key kv.1) fs) as [ks|] eqn:Ek2; [|done]. injection H as <-.
      apply (X_map EStr); [auto|]. apply zip_maps; [|done]. by apply (keys_of EStr string_key _ _ string_key_spec).
    + intros H. inversion H as [| | | | | | | |key ? gs Hk Hf]; subst. apply unzip_maps in Hf as (H1&H2&H3).
      apply Hvs in H2. rewrite H2. cbn [mbind option_bind]. destruct Hk as [->| ->].
      * apply (keys_of EKw keyword_key _ _ keyword_key_spec) in H1. rewrite H1. by rewrite H3.
      * pose proof H1 as H1'. apply (keys_of EStr string_key _ _ string_key_spec) in H1. rewrite H1.
        destruct (mapM (λ kv, keyword_key kv.1) fs) as [ks|] eqn:Ek; [|by rewrite H3].
        destruct fs as [|kv fs]; [by inversion H1'; destruct gs; [injection Ek as <-|]|].
        exfalso. inversion H1' as [|? ? ? ? He]; subst. cbn [mapM] in Ek. rewrite He in Ek. done.
Qed.

(** * Printing *)
Lemma pr_chars_text s : string_chars (pr_chars s) s.
Proof.
  induction s as [|c s IH]; [constructor|]. cbn [pr_chars].
  destruct c as [[] [] [] [] [] [] [] []];
    first [ by apply (S_plain _ (pr_chars s) s)
          | apply (S_escape _ _ (pr_chars s) s); [rewrite !elem_of_cons; tauto|done] ].
Qed.
Lemma form_string s r : form (EStr s) (pr_string s +:+ r) r.
Proof.
  unfold pr_string. rewrite app_cons, app_assoc. exact (F_string _ _ r (pr_chars_text s)).
Qed.
Lemma int_text_signed z : ∃ w b, signed_text (int_text z) w b ∧ whole_text w ∧ z = signed b (value_of w).
Proof.
  destruct (pretty_digits (Z.abs_N z)) as (_&Hv&Hw). exists (pretty (Z.abs_N z)), (z <? 0)%Z.
  assert (E : int_text z = (if (z <? 0)%Z then "-" else "") +:+ pretty (Z.abs_N z)).
  { unfold int_text, print_dec. cbn [dec_mant dec_scale]. rewrite app_nil. do 2 f_equal. apply N.div_1_r. }
  rewrite E, Hv. split_and!; [|done|].
  - destruct (z <? 0)%Z; [by right|left; by rewrite nil_app; auto].
  - unfold signed. destruct (Z.ltb_spec z 0); lia.
Qed.
Lemma signed_app t u b x : signed_text t u b → signed_text (t +:+ x) (u +:+ x) b.
Proof. intros [[[->| ->] ->]|[-> ->]]; [left; auto|left; rewrite app_assoc; auto|right; by rewrite app_assoc]. Qed.
Lemma pr_number n : match n with CLong z => in_long z | _ => True end → number (pr_num n) (ENum n).
Proof.
  destruct n as [z|z|d]; cbn [pr_num]; intros Hl.
  - destruct (int_text_signed z) as (w&b&Hs&Hw&E). rewrite E at 2. apply N_long; [done..|by rewrite <- E].
  - destruct (int_text_signed z) as (w&b&Hs&Hw&E). rewrite E at 2. apply N_big; [|done]. by apply signed_app.
  - destruct (dec_text_text d) as (sg&w&ft&ds&xt&e&->&Hw&Hf&Hx&Hd).
    assert (Hft : float_text (w +:+ ft +:+ xt) w ds e).
    { destruct (whole_chars w Hw) as (Hdw&_&Hsd). exists ft, xt. split_and!; [done|done|by intros ->| |done].
      destruct Hf as [?|(?&?&_)]; auto. }
    destruct Hd as [[-> Hd]|[-> Hd]].
    + apply (N_decimal _ (w +:+ ft +:+ xt) false w ds e); [left; auto|done|exact Hd].
    + apply (N_decimal _ (w +:+ ft +:+ xt) true w ds e); [right; by rewrite app_assoc|done|exact Hd].
Qed.
Lemma after_word_number r : after_word r → after_number r.
Proof. rewrite after_word_stopped, after_number_stopped. destruct r as [|c r]; [done|]. cbn. rewrite ends_word_spec, ends_number_spec. tauto. Qed.
Lemma white_space : white " ".
Proof. by left. Qed.
Lemma after_space r : after_word (" " +:+ r).
Proof. left. apply white_space. Qed.
Definition prints (v : edn) : Prop := ∀ r, after_word r → form v (pr v +:+ r) r.
Lemma skip_space_form v s r : form v s r → form v (" " +:+ s) r.
Proof. intros H. eapply F_gap; [|exact H]. apply (G_white " "); [apply white_space|constructor]. Qed.
Lemma prints_items close l r : delimiter close → Forall prints l →
  forms close l (String.concat " " (map pr l) +:+ String close r) r.
Proof.
  intros Hc Hl. assert (Hend : after_word (String close r)) by (right; by left).
  induction Hl as [|v l Hv Hl IH]; [constructor; constructor|]. destruct l as [|w l].
  - cbn [map String.concat]. eapply L_more; [by apply Hv|]. constructor. constructor.
  - change (String.concat " " (map pr (v :: w :: l))) with (pr v +:+ " " +:+ String.concat " " (map pr (w :: l))).
    rewrite !app_assoc. eapply L_more; [apply Hv, after_space|]. inversion IH as [|? ? ? ? r1 ? Hf Hi]; subst. eapply L_more; [by apply skip_space_form|done].
Qed.
Lemma prints_entries fs r : Forall (λ kv, prints kv.1 ∧ prints kv.2) fs →
  forms "}" (fs ≫= λ kv, [kv.1; kv.2]) (String.concat ", " (map (λ kv, pr kv.1 +:+ " " +:+ pr kv.2) fs) +:+ String "}" r) r.
Proof.
  intros Hl. assert (Hc : delimiter "}") by (unfold delimiter; rewrite !elem_of_cons; tauto).
  assert (Hend : after_word (String "}" r)) by (right; by left).
  induction Hl as [|[k v] l [Hk Hv] Hl IH]; [constructor; constructor|].
  change (((k, v) :: l) ≫= λ kv, [kv.1; kv.2]) with (k :: v :: (l ≫= λ kv, [kv.1; kv.2])). cbn [fst snd] in *. destruct l as [|[k' v'] l].
  - cbn [map String.concat fst snd]. rewrite !app_assoc. eapply L_more; [apply Hk, after_space|]. eapply L_more; [apply skip_space_form; by apply Hv|].
    constructor. constructor.
  - change (String.concat ", " (map (λ kv, pr kv.1 +:+ " " +:+ pr kv.2) ((k, v) :: (k', v') :: l))) with
      ((pr k +:+ " " +:+ pr v) +:+ ", " +:+ String.concat ", " (map (λ kv, pr kv.1 +:+ " " +:+ pr kv.2) ((k', v') :: l))).
    rewrite !app_assoc. eapply L_more; [apply Hk, after_space|]. eapply L_more; [apply skip_space_form; apply Hv; left; right; by left|].
    inversion IH as [|? ? ? ? r1 ? Hf Hi]; subst. eapply L_more; [|exact Hi].
    change (", " +:+ ?s) with (String "," (" " +:+ s)). eapply F_gap; [apply (G_white ","); [right; by left|constructor]|]. by apply skip_space_form.
Qed.
Lemma digit_plain n : (0 <= n <= 9)%Z → digit n ≠ """"%char ∧ digit n ≠ "\"%char.
Proof. intros H. apply digit_val_digit in H. split; intros E; by rewrite E in H. Qed.
Lemma fmt_date_plain d : valid_date d = true → string_chars (fmt_date d) (fmt_date d).
Proof.
  intros Hv. assert (H : every (λ c, c ≠ """"%char ∧ c ≠ "\"%char) (fmt_date d)).
  2: { revert H. generalize (fmt_date d). intros s. induction s as [|c s IH]; [constructor|]. intros [[H1 H2] H]. constructor; auto. }
  apply valid_date_spec in Hv as (Hy & Hm & Hd). unfold fmt_date. apply every_app. split; [by destruct (_ <? 0)%Z; repeat split|].
  assert (Hday : (date_day d <= 31)%Z).
  { etransitivity; [apply Hd|]. unfold month_days. repeat case_match; lia. }
  destruct (digits4 (Z.abs (date_year d)) ltac:(lia)) as (Y1&Y2&Y3&Y4&_).
  destruct (digits2 (date_month d) ltac:(lia)) as (M1&M2&_). destruct (digits2 (date_day d) ltac:(lia)) as (D1&D2&_).
  repeat (split; [first [by split|by apply digit_plain]|]). done.
Qed.
Lemma form_date d r : valid_date d = true → form (EDate d) (pr (EDate d) +:+ r) r.
Proof.
  intros Hv. cbn [pr]. change ("#time/date """ +:+ fmt_date d +:+ """") with ("#time/date" +:+ " " +:+ """" +:+ fmt_date d +:+ """").
  rewrite !app_assoc. apply (F_date (fmt_date d) d); [|apply after_space|by apply parse_fmt_date].
  apply skip_space_form. by apply F_string, fmt_date_plain.
Qed.
Lemma form_printed v : readable v → prints v.
Proof.
  induction v as [|x|x|x|x|x|x|x|x|l IH|l IH|l IH|fs IH] using edn_ind'; intros Hr r Hend.
  - apply F_word; [constructor|done].
  - apply F_word; [destruct x; constructor|done].
  - apply F_number; [|by apply after_word_number]. apply pr_number. inversion Hr; subst; done.
  - apply F_number; [by inversion Hr|by apply after_word_number].
  - apply form_string.
  - apply F_word; [constructor; by inversion Hr|done].
  - apply F_word; [by inversion Hr|done].
  - apply form_date. by inversion Hr.
  - inversion Hr.
  - cbn [pr]. rewrite !app_assoc. apply F_list. apply (prints_items ")"); [unfold delimiter; rewrite !elem_of_cons; tauto|].
    inversion Hr as [| | | | | | | | | |? H| | |]; subst. rewrite Forall_forall in *. auto.
  - cbn [pr]. rewrite !app_assoc. apply F_vector. apply (prints_items "]"); [unfold delimiter; rewrite !elem_of_cons; tauto|].
    inversion Hr as [| | | | | | | | | | |? H| |]; subst. rewrite Forall_forall in *. auto.
  - inversion Hr as [| | | | | | | | | | | |? H Hd|]; subst. cbn [pr]. rewrite !app_assoc. apply F_set; [|done].
    apply (prints_items "}"); [unfold delimiter; rewrite !elem_of_cons; tauto|]. rewrite Forall_forall in *. auto.
  - inversion Hr as [| | | | | | | | | | | | |? H1 H2 Hd]; subst. cbn [pr]. rewrite !app_assoc. apply F_map; [|done].
    apply prints_entries. rewrite Forall_forall in IH |- *. intros kv Hkv. destruct (IH kv Hkv) as [A B].
    split; [apply A, (proj1 (Forall_forall _ _) H1)|apply B, (proj1 (Forall_forall _ _) H2)]; by apply elem_of_list_fmap_1.
Qed.
