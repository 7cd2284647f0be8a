(** Forms are read as [EdnSpec.v] says. *)
From Coq Require Import Ascii QArith.
From stdpp Require Import prelude gmap strings.
From Verif Require Import DecModel LedgerTypes IsoModel JsonModel CljModel TextFacts DecProofs ReadModel ReadSpec ReadFacts EdnModel EdnSpec EdnWords EdnNumbers.
Local Open Scope nat_scope.
Local Notation app_assoc := TextFacts.string_app_assoc.
Local Notation length_app := ReadFacts.length_app.

(** * Equal values *)
Lemma edn_ind' (P : edn → Prop) :
  P ENil → (∀ b, P (EBool b)) → (∀ n, P (ENum n)) → (∀ t, P (EDouble t)) → (∀ s, P (EStr s)) → (∀ s, P (EKw s)) → (∀ s, P (ESym s)) →
  (∀ d, P (EDate d)) → (∀ s, P (ERegex s)) →
  (∀ l, Forall P l → P (EList l)) → (∀ l, Forall P l → P (EVec l)) → (∀ l, Forall P l → P (ESet l)) →
  (∀ fs, Forall (λ kv, P kv.1 ∧ P kv.2) fs → P (EMap fs)) → ∀ v, P v.
Proof.
  intros H1 H2 H3 H4 H5 H6 H7 H8 H9 Hl Hv Hs Hm. fix IH 1. intros v.
  destruct v as [|b|n|t|s|s|s|d|s|l|l|l|fs]; [exact H1|apply H2|apply H3|apply H4|apply H5|apply H6|apply H7|apply H8|apply H9| | | |].
  - apply Hl. induction l as [|c l IHl]; constructor; [apply IH|exact IHl].
  - apply Hv. induction l as [|c l IHl]; constructor; [apply IH|exact IHl].
  - apply Hs. induction l as [|c l IHl]; constructor; [apply IH|exact IHl].
  - apply Hm. induction fs as [|[k c] l IHl]; constructor; [split; apply IH|exact IHl].
Qed.
Lemma cn_equiv_spec a b : cn_equiv a b = true ↔ equal_numbers a b.
Proof.
  unfold cn_equiv, equal_numbers. rewrite andb_true_iff, eqb_true_iff.
  assert (Hd : CljModel.is_dec a = CljModel.is_dec b ↔ ((∃ d, a = CDec d) ↔ (∃ d, b = CDec d))).
  { assert (Ha : ∀ c, CljModel.is_dec c = true ↔ ∃ d, c = CDec d) by (intros []; cbn; naive_solver).
    rewrite <- !Ha. destruct (CljModel.is_dec a), (CljModel.is_dec b); naive_solver. }
  rewrite Hd. enough (match cn_compare a b with Eq => true | _ => false end = true ↔ (cn_value a == cn_value b)%Q) by tauto.
  unfold cn_compare, dec_compare, cn_value, Qeq, dec_value, pow10Z. cbn [Qnum Qden]. destruct (Z.compare_spec (dec_mant (cn_dec a) * Z.pos (pow10 (dec_scale (cn_dec b)))) (dec_mant (cn_dec b) * Z.pos (pow10 (dec_scale (cn_dec a))))); 
    (split; [done||lia|]); intros; done || lia.
Qed.
Fixpoint each (l l' : list edn) : bool :=
  match l, l' with [], [] => true | x :: l, y :: l' => same x y && each l l' | _, _ => false end.
Lemma each_spec l : Forall (λ x, ∀ y, same x y = true ↔ equal x y) l → ∀ l', each l l' = true ↔ Forall2 equal l l'.
Proof.
  induction 1 as [|x l Hx _ IH]; intros [|y l']; cbn [each].
  - split; [constructor|done].
  - split; [done|]. by intros ?%Forall2_nil_cons_inv.
  - split; [done|]. by intros ?%Forall2_cons_nil_inv.
  - rewrite andb_true_iff, Hx, IH. split; [by intros [? ?]; constructor|]. by intros [? ?]%Forall2_cons.
Qed.
Lemma existsb_Exists {A} (f : A → bool) (P : A → Prop) l : (∀ x, f x = true ↔ P x) → existsb f l = true ↔ Exists P l.
Proof. intros H. rewrite existsb_exists, Exists_exists. by setoid_rewrite elem_of_list_In; setoid_rewrite H. Qed.
Lemma forallb_spec {A} (f : A → bool) (P : A → Prop) l : Forall (λ x, f x = true ↔ P x) l → forallb f l = true ↔ Forall P l.
Proof. induction 1 as [|x l Hx _ IH]; [done|]. cbn [forallb]. by rewrite andb_true_iff, Forall_cons, Hx, IH. Qed.
Lemma same_list l b : same (EList l) b = match b with EList l' | EVec l' => each l l' | _ => false end.
Proof. done. Qed.
Lemma same_vec l b : same (EVec l) b = match b with EList l' | EVec l' => each l l' | _ => false end.
Proof. done. Qed.
Lemma equal_seq a b l l' : (a = EList l ∨ a = EVec l) → (b = EList l' ∨ b = EVec l') → equal a b ↔ Forall2 equal l l'.
Proof.
  intros Ha Hb. split; [|by apply Q_seq]. intros H. inversion H as [| | | | | | | |? ? k k' Hk Hk' Hf| |]; subst; try (destruct Ha, Hb; congruence).
  assert (k = l ∧ k' = l') as [-> ->]; [|done]. split; [destruct Ha, Hk|destruct Hb, Hk']; congruence.
Qed.
Ltac apart := split; [done|]; intros H; inversion H as [| | | | | | | |? ? ? ? [Ha|Ha] [Hb|Hb]| |]; discriminate.
Lemma same_spec a b : same a b = true ↔ equal a b.
Proof.
  revert b. induction a as [|x|x|x|x|x|x|x|x|l IH|l IH|l IH|l IH] using edn_ind'; intros b;
    destruct b as [|y|y|y|y|y|y|y|y|l'|l'|l'|l']; try apart.
  - split; [constructor|done].
  - cbn [same]. rewrite eqb_true_iff. split; [intros ->; constructor|]. intros H. inversion H as [| | | | | | | |? ? ? ? [Ha|Ha] [Hb|Hb]| |]; congruence.
  - cbn [same]. rewrite cn_equiv_spec. split; [by constructor|]. intros H. inversion H as [| | | | | | | |? ? ? ? [Ha|Ha] [Hb|Hb]| |]; try discriminate. done.
  - cbn [same]. rewrite String.eqb_eq. split; [intros ->; constructor|]. intros H. inversion H as [| | | | | | | |? ? ? ? [Ha|Ha] [Hb|Hb]| |]; congruence.
  - cbn [same]. rewrite String.eqb_eq. split; [intros ->; constructor|]. intros H. inversion H as [| | | | | | | |? ? ? ? [Ha|Ha] [Hb|Hb]| |]; congruence.
  - cbn [same]. rewrite String.eqb_eq. split; [intros ->; constructor|]. intros H. inversion H as [| | | | | | | |? ? ? ? [Ha|Ha] [Hb|Hb]| |]; congruence.
  - cbn [same]. rewrite String.eqb_eq. split; [intros ->; constructor|]. intros H. inversion H as [| | | | | | | |? ? ? ? [Ha|Ha] [Hb|Hb]| |]; congruence.
  - cbn [same]. rewrite bool_decide_eq_true. split; [intros ->; constructor|]. intros H. inversion H as [| | | | | | | |? ? ? ? [Ha|Ha] [Hb|Hb]| |]; congruence.
  - rewrite same_list, each_spec by done. symmetry. apply equal_seq; auto.
  - rewrite same_list, each_spec by done. symmetry. apply equal_seq; auto.
  - rewrite same_vec, each_spec by done. symmetry. apply equal_seq; auto.
  - rewrite same_vec, each_spec by done. symmetry. apply equal_seq; auto.
  - cbn [same]. rewrite andb_true_iff, Nat.eqb_eq, (forallb_spec _ (λ x, Exists (equal x) l')).
    + split; [intros [? ?]; by constructor|]. intros H. inversion H as [| | | | | | | |? ? ? ? [Ha|Ha] [Hb|Hb]| |]; try discriminate. done.
    + eapply Forall_impl; [exact IH|]. intros x Hx. by apply existsb_Exists.
  - cbn [same]. rewrite andb_true_iff, Nat.eqb_eq, (forallb_spec _ (λ kv, Exists (λ kw, equal kv.1 kw.1 ∧ equal kv.2 kw.2) l')).
    + split; [intros [? ?]; by constructor|]. intros H. inversion H as [| | | | | | | |? ? ? ? [Ha|Ha] [Hb|Hb]| |]; try discriminate. done.
    + eapply Forall_impl; [exact IH|]. intros x [Hx Hy]. apply existsb_Exists. intros kw. by rewrite andb_true_iff, Hx, Hy.
Qed.
Lemma distinct_spec l : distinct l = true ↔ all_different l.
Proof.
  induction l as [|x l IH]; [split; [|done]; intros _ i j a b _ H; by rewrite lookup_nil in H|].
  cbn [distinct]. rewrite andb_true_iff, negb_true_iff, <- not_true_iff_false, IH, (existsb_Exists _ (equal x)) by apply same_spec. split.
  - intros [H1 H2] [|i] [|j] a b Hij Ha Hb; [lia| |lia|].
    + injection Ha as <-. intros He. apply H1, Exists_exists. exists b. split; [by eapply elem_of_list_lookup_2|done].
    + apply (H2 i j); [lia|done..].
  - intros H. split.
    + intros (b&Hb&He)%Exists_exists. apply elem_of_list_lookup in Hb as [j Hj]. by apply (H 0 (S j) x b); [lia|..].
    + intros i j a b Hij Ha Hb. apply (H (S i) (S j)); [lia|done..].
Qed.
Lemma paired_spec l fs : paired l = Some fs ↔ l = fs ≫= λ kv, [kv.1; kv.2].
Proof.
  split.
  - remember (length l) as n eqn:En. revert l fs En. induction (lt_wf n) as [n _ IH]. intros l fs -> H.
    destruct l as [|k [|v l]]; [by injection H as <-|done|]. cbn [paired] in H. apply bind_Some in H as (fs'&H&[= <-]).
    apply (IH (length l)) in H; [|cbn; lia|done]. by subst l.
  - intros ->. induction fs as [|[k v] fs IH]; [done|]. change (((k, v) :: fs) ≫= λ kv, [kv.1; kv.2]) with (k :: v :: (fs ≫= λ kv, [kv.1; kv.2])).
    cbn [paired]. by rewrite IH.
Qed.

(** * Reading is sound *)
Lemma after_line_spec s : ∃ t, one_line t ∧ (s = t ∧ after_line s = "" ∨ ∃ c, (c = "010"%char ∨ c = "013"%char) ∧ s = t +:+ String c (after_line s)).
Proof.
  unfold after_line. destruct (take_until newline s) as [t r] eqn:E. apply take_until_spec in E as (->&Ht&Hr). exists t. split.
  - eapply every_impl; [|exact Ht]. intros c [H1 H2]%orb_false_iff. by apply Ascii.eqb_neq in H1, H2.
  - cbn [snd]. destruct r as [|c r]; [left; by rewrite app_nil|]. right. exists c. split; [|done]. cbn in Hr.
    apply orb_true_iff in Hr as [->%Ascii.eqb_eq| ->%Ascii.eqb_eq]; auto.
Qed.
Lemma letter_spec c : letter c = true ↔ is_letter c.
Proof. unfold letter, is_letter. rewrite orb_true_iff, !andb_true_iff, !N.leb_le. tauto. Qed.
Lemma kind_cases c s : match kind_of c s with
  | KBlank => white c
  | KComment => c = ";"%char
  | KNumber => True
  | KString => c = """"%char
  | KOpen => c = "("%char ∨ c = "["%char ∨ c = "{"%char
  | KClose => c = ")"%char ∨ c = "]"%char ∨ c = "}"%char
  | KHash => c = "#"%char
  | KUnread => True
  | KWord => begins_word (String c s) ∧ ends_word c = false
  end.
Proof.
  unfold kind_of. destruct (blank c) eqn:Eb; [by apply blank_spec|]. destruct (is_digit c) eqn:Ed; [done|].
  assert (Hc : ∀ t, c ≠ "#"%char → ¬ ((c = "+"%char ∨ c = "-"%char) ∧ ∃ d t', t = String d t' ∧ is_digit_char d) → begins_word (String c t)).
  { intros t H1 H2. exists c, t. split_and!; try done. unfold is_digit_char. rewrite <- is_digit_spec. by rewrite Ed. }
  assert (Hw : ends_word c = macro c && negb (Ascii.eqb c "#")) by (unfold ends_word; by rewrite Eb).
  assert (Hs : c = "+"%char ∨ c = "-"%char →
     match match s with String d _ => if is_digit d then KNumber else KWord | _ => KWord end with
     | KNumber => True
     | KWord => begins_word (String c s)
     | _ => False
     end).
  { intros H. destruct s as [|d s]; [apply Hc; [destruct H as [->| ->]; done|]; intros (_&?&?&?&_); done|].
    destruct (is_digit d) eqn:E; [done|]. apply Hc; [destruct H as [->| ->]; done|]. intros (_&?&?&[= <- <-]&H2). apply is_digit_spec in H2. congruence. }
  destruct c as [[] [] [] [] [] [] [] []]; try done; try (by auto); try (split; [|by rewrite Hw]; apply Hc; [done|]; by intros [[|] _]).
  all: specialize (Hs ltac:(auto)); destruct s as [|d s]; [done|]; destruct (is_digit d); done.
Qed.
Definition means (s : string) (f : found) : Prop :=
  match f with
  | Got v r => form v s r
  | Closed c r => gap s (String c r)
  | End => gap s ""
  end.
Lemma means_after s s' f : gap s s' → (∀ s'', gap s' s'' → gap s s'') → means s' f → means s f.
Proof. intros H Ht. destruct f as [v r|c r|]; cbn; [by apply F_gap|apply Ht..]. Qed.
Lemma collection_spec c l v s r : (c = "("%char ∨ c = "["%char ∨ c = "{"%char) → collection c l = Some v →
  forms (closer c) l s r → form v (String c s) r.
Proof.
  intros [->|[->| ->]]; cbn [collection closer].
  - intros [= <-]. apply F_list.
  - intros [= <-]. apply F_vector.
  - intros (fs&Hp&H)%bind_Some. apply paired_spec in Hp as ->. destruct (distinct _) eqn:E; [|done]. injection H as <-.
    apply distinct_spec in E. intros Hf. by apply F_map.
Qed.
Lemma tagged_spec t v w : tagged t v = Some w →
  ∃ x, v = EStr x ∧ (t = "time/date" ∧ (∃ d, parse_date x = Some d ∧ w = EDate d) ∨ t = "regex" ∧ w = ERegex x).
Proof.
  unfold tagged. intros H. destruct (decide (t = "time/date")) as [->|H1].
  { destruct v; try done. destruct (parse_date s) as [d|] eqn:E; [|done]. injection H as <-. exists s. split; [done|]. left. split; [done|]. by exists d. }
  destruct (decide (t = "regex")) as [->|H2]; [destruct v; try done; injection H as <-; eexists; auto|].
  exfalso. revert H. clear -H1 H2. intros H.
  assert (Hn : ∀ (A : Type) (a b c : A), match t with "time/date" => a | "regex" => b | _ => c end = c).
  { intros A a b c. clear H v. do 9 try (destruct t as [|[[] [] [] [] [] [] [] []] t]; try reflexivity; try done); by destruct t. }
  assert (Hm : match t with "time/date" => match v with EStr s => EDate <$> parse_date s | _ => None end | "regex" => match v with EStr s => Some (ERegex s) | _ => None end | _ => None end = Some w) by exact H.
  by rewrite Hn in Hm.
Qed.
Lemma next_sound n : (∀ s f, next n s = Some f → means s f) ∧ (∀ close s l r, items n close s = Some (l, r) → forms close l s r).
Proof.
  induction n as [|n [IHn IHi]]; [done|]. split.
  - intros [|c s] f; cbn [next]; [intros [= <-]; constructor|]. pose proof (kind_cases c s) as Hk. destruct (kind_of c s) eqn:Ek.
    + intros H. apply (means_after _ s); [constructor; [done|constructor]|intros; by constructor|auto].
    + subst c. intros H. apply IHn in H. destruct (after_line_spec s) as (t&Ht&[[-> E]|(d&Hd&E)]).
      * rewrite E in H. apply (means_after _ ""); [by apply (G_last_comment t)|intros s'' Hs|done].
        inversion Hs; subst; try done. by apply (G_last_comment t).
      * apply (means_after _ (after_line s)); [rewrite E at 1; apply (G_comment t); [done..|constructor]|intros s'' Hs|done].
        rewrite E. by apply (G_comment t).
    + destruct (take_until ends_number (String c s)) as [t r] eqn:E. apply take_until_spec in E as (->&_&Hr).
      intros (v&Hv%number_sound&[= <-])%bind_Some. apply F_number; [done|]. by apply after_number_stopped.
    + subst c. intros ([x r]&Hx&[= <-])%bind_Some. apply edn_chars_spec in Hx as (u&->&Hu). by apply (F_string u).
    + intros ([l r]&Hl&H)%bind_Some. apply bind_Some in H as (v&Hv&[= <-]). apply IHi in Hl. by eapply collection_spec.
    + intros [= <-]. constructor.
    + subst c. destruct s as [|d s]; [done|]. destruct (Ascii.eqb_spec d "{") as [->|H1].
      { intros ([l r]&Hl&H)%bind_Some. apply IHi in Hl. cbn [fst snd] in H. destruct (distinct l) eqn:E; [|done]. injection H as <-.
        apply distinct_spec in E. by apply (F_set l s). }
      destruct (Ascii.eqb_spec d "_") as [->|H2].
      { destruct (next n s) as [[v r| |]|] eqn:E; try done. apply IHn in E. intros H. apply IHn in H.
        apply (means_after _ r); [apply (G_discard v s r); [done|constructor]|intros s'' Hs; by apply (G_discard v s r)|done]. }
      destruct (letter d); [|done]. destruct (take_until ends_word (String d s)) as [t r] eqn:E. apply take_until_spec in E as (->&_&Hr).
      apply after_word_stopped in Hr. destruct (next n r) as [[v r'| |]|] eqn:En; try done. apply IHn in En.
      intros (w&Hw&[= <-])%bind_Some. apply tagged_spec in Hw as (x&->&[(->&d'&Hd&->)|[-> ->]]); cbn [means] in *.
      * by apply (F_date x d' r).
      * by apply (F_regex x r).
    + done.
    + destruct Hk as [Hb _]. destruct (take_until ends_word (String c s)) as [t r] eqn:E. 
      pose proof E as E'. apply take_until_spec in E' as (Es&Ht&Hr). intros (v&Hv&[= <-])%bind_Some. cbn [means]. rewrite Es.
      apply F_word; [|by apply after_word_stopped]. apply word_sound; [done| |done].
      destruct Hb as (c'&t'&[= <- <-]&H1&H2&H3). destruct t as [|c' t]; [done|]. rewrite app_cons in Es. injection Es as <- ->.
      exists c, t. split_and!; try done. intros (Hc&d&t'&->&Hd). apply H3. split; [done|]. exists d, (t' +:+ r). done.
  - intros close s l r. cbn [items]. destruct (next n s) as [[v r'|c r'|]|] eqn:En; try done.
    + intros ([l' r'']&Hl&[= <- <-])%bind_Some. apply IHn in En. apply IHi in Hl. by eapply L_more.
    + destruct (Ascii.eqb_spec c close) as [->|]; [|done]. intros [= <- <-]. apply IHn in En. by constructor.
Qed.

(** * Reading is complete *)
Scheme gap_mut := Minimality for gap Sort Prop
  with form_mut := Minimality for form Sort Prop
  with forms_mut := Minimality for forms Sort Prop.
Combined Scheme forms_ind' from gap_mut, form_mut, forms_mut.
Definition reads (v : edn) (s r : string) : Prop :=
  String.length r < String.length s ∧ ∀ n, 2 * String.length s < n → next n s = Some (Got v r).
Lemma kind_white c s : white c → kind_of c s = KBlank.
Proof. intros H. apply blank_spec in H. unfold kind_of. by rewrite H. Qed.
Lemma kind_digit c s : is_digit c = true → kind_of c s = KNumber.
Proof. intros H. unfold kind_of. rewrite H. revert H. destruct c as [[] [] [] [] [] [] [] []]; done. Qed.
Lemma kind_sign c s : (c = "+"%char ∨ c = "-"%char) → starts_digit s → kind_of c s = KNumber.
Proof. intros [->| ->] H; (destruct s as [|d s]; [done|]); unfold starts_digit in H; unfold kind_of; by rewrite H. Qed.
Lemma kind_word c s : begins_word (String c s) → ends_word c = false → kind_of c s = KWord.
Proof.
  intros (c'&s'&[= <- <-]&H1&H2&H3) Hw. unfold kind_of. apply orb_false_iff in Hw as [-> Hm].
  destruct (is_digit c) eqn:Ed; [by apply is_digit_spec in Ed|].
  assert (Hs : c = "+"%char ∨ c = "-"%char → match s with String d _ => if is_digit d then KNumber else KWord | _ => KWord end = KWord).
  { intros H. destruct s as [|d s]; [done|]. destruct (is_digit d) eqn:E; [|done]. exfalso. apply H3. split; [done|]. exists d, s. split; [done|].
    by apply is_digit_spec. }
  revert Hm H1 Hs. clear. destruct c as [[] [] [] [] [] [] [] []]; try done; intros _ _ H; apply H; auto.
Qed.
Lemma after_line_text t c s : one_line t → (c = "010"%char ∨ c = "013"%char) → after_line (t +:+ String c s) = s.
Proof.
  intros Ht Hc. unfold after_line. rewrite take_until_app; [done| |destruct Hc as [->| ->]; done].
  eapply every_impl; [|exact Ht]. intros d [H1 H2]. apply Ascii.eqb_neq in H1, H2. unfold newline. by rewrite H1, H2.
Qed.
Lemma after_line_none t : one_line t → after_line t = "".
Proof.
  intros Ht. unfold after_line. rewrite <- (app_nil t), take_until_app; [done| |done].
  eapply every_impl; [|exact Ht]. intros d [H1 H2]. apply Ascii.eqb_neq in H1, H2. unfold newline. by rewrite H1, H2.
Qed.
Lemma tag_text t s : (t = "time/date" ∨ t = "regex") → after_word s → take_until ends_word (t +:+ s) = (t, s).
Proof. intros Ht Hs. apply take_until_app; [destruct Ht as [->| ->]; by repeat split|]. by apply after_word_stopped. Qed.
Lemma begins_word_app t r : begins_word t → after_word r → begins_word (t +:+ r).
Proof.
  intros (c&t'&->&H1&H2&H3) Hr. exists c, (t' +:+ r). split_and!; try done. intros (Hc&d&u&E&Hd). destruct t' as [|d' t'].
  - rewrite nil_app in E. subst r. apply is_digit_spec in Hd. apply after_word_stopped in Hr. cbn in Hr. revert Hd Hr. clear. destruct d as [[] [] [] [] [] [] [] []]; done.
  - rewrite app_cons in E. injection E as <- <-. apply H3. split; [done|]. by exists d', t'.
Qed.
Lemma next_complete :
  (∀ s s', gap s s' → String.length s' ≤ String.length s ∧
     ∀ n, 2 * String.length s < n → ∃ m, 2 * String.length s' < m ∧ next n s = next m s') ∧
  (∀ v s r, form v s r → reads v s r) ∧
  (∀ close l s r, forms close l s r → (close = ")"%char ∨ close = "]"%char ∨ close = "}"%char) →
     String.length r < String.length s ∧ ∀ n, S (2 * String.length s) < n → items n close s = Some (l, r)).
Proof.
  apply forms_ind'.
  - intros s. split; [done|]. intros n Hn. by exists n.
  - intros c s r Hc _ [Hl IH]. split; [cbn; lia|]. intros [|n] Hn; [lia|]. cbn [next]. rewrite kind_white by done. apply IH. cbn in Hn. lia.
  - intros t c s r Ht Hc _ [Hl IH]. change (";" +:+ t +:+ String c s) with (String ";" (t +:+ String c s)). cbn [String.length].
    rewrite length_app. cbn [String.length]. split; [lia|].
    intros [|n] Hn; [lia|]. cbn [next]. change (kind_of ";" _) with KComment. cbv iota. rewrite after_line_text by done. apply IH. lia.
  - intros t Ht. split; [cbn; lia|]. change (";" +:+ t) with (String ";" t). intros [|n] Hn; [lia|]. cbn [next]. change (kind_of ";" _) with KComment. cbv iota.
    rewrite after_line_none by done. cbn in Hn. exists n. split; [cbn; lia|done].
  - intros v s r r' _ [Hl IH] _ [Hl' IH']. change ("#_" +:+ s) with (String "#" (String "_" s)). cbn [String.length]. split; [lia|].
    intros [|n] Hn; [lia|]. cbn [next]. change (kind_of "#" _) with KHash. cbv iota.
    change (Ascii.eqb "_" "{") with false. change (Ascii.eqb "_" "_") with true. cbv iota. rewrite IH by lia. apply IH'. lia.
  - intros v s s' r _ [Hl IH] _ [Hl' IH']. split; [lia|]. intros n Hn. destruct (IH n Hn) as (m&Hm&->). auto.
  - intros t v r Hw Hr. apply word_complete in Hw as (Hv&Ht&Hb). unfold reads. rewrite length_app. pose proof Hb as (c&t'&->&_). cbn [String.length].
    split; [lia|]. intros [|n] Hn; [lia|]. rewrite app_cons. cbn [next].
    rewrite kind_word; [|rewrite <- app_cons; by apply begins_word_app|by destruct Ht].
    rewrite <- app_cons, take_until_app; [|done|by apply after_word_stopped]. by rewrite Hv.
  - intros t v r Hn Hr. pose proof (number_shape _ _ Hn) as (Hc&u&b&Hs&Hu). apply number_complete in Hn. unfold reads. rewrite length_app.
    assert (Hk : ∃ c t', t = String c t' ∧ kind_of c (t' +:+ r) = KNumber).
    { destruct Hs as [[[->| ->] _]|[-> _]].
      - destruct u as [|c u]; [done|]. exists c, u. split; [done|]. by apply kind_digit.
      - eexists _, u. split; [done|]. apply kind_sign; [auto|by apply starts_app].
      - eexists _, u. split; [done|]. apply kind_sign; [auto|by apply starts_app]. }
    destruct Hk as (c&t'&->&Hk). cbn [String.length]. split; [lia|]. intros [|n] Hlen; [lia|]. rewrite app_cons. cbn [next]. rewrite Hk.
    rewrite <- app_cons, take_until_app; [|done|by apply after_number_stopped]. by rewrite Hn.
  - intros t x r Hx. change ("""" +:+ t +:+ """" +:+ r) with (String """" (t +:+ String """" r)). split; [cbn [String.length]; pose proof (length_app t (String """" r)) as Hlen; cbn [String.length] in Hlen; lia|].
    intros [|n] Hn; [lia|]. cbn [next]. change (kind_of """" _) with KString. cbv iota. by rewrite (edn_chars_app t x).
  - intros l s r _ IH. destruct (IH ltac:(auto)) as [Hl H]. change ("(" +:+ s) with (String "(" s). split; [cbn; lia|]. intros [|n] Hn; [lia|].
    cbn [next]. change (kind_of "(" _) with KOpen. cbv iota. cbn [closer]. rewrite H by (cbn in Hn; lia). done.
  - intros l s r _ IH. destruct (IH ltac:(auto)) as [Hl H]. change ("[" +:+ s) with (String "[" s). split; [cbn; lia|]. intros [|n] Hn; [lia|].
    cbn [next]. change (kind_of "[" _) with KOpen. cbv iota. cbn [closer]. rewrite H by (cbn in Hn; lia). done.
  - intros l s r _ IH Hd. destruct (IH ltac:(auto)) as [Hl H]. change ("#{" +:+ s) with (String "#" (String "{" s)). split; [cbn; lia|]. intros [|n] Hn; [lia|].
    cbn [next]. change (kind_of "#" _) with KHash. cbv iota. change (Ascii.eqb "{" "{") with true. cbv iota. rewrite H by (cbn in Hn; lia).
    cbn [mbind option_bind fst snd]. apply distinct_spec in Hd. by rewrite Hd.
  - intros fs s r _ IH Hd. destruct (IH ltac:(auto)) as [Hl H]. change ("{" +:+ s) with (String "{" s). split; [cbn; lia|]. intros [|n] Hn; [lia|].
    cbn [next]. change (kind_of "{" _) with KOpen. cbv iota. cbn [closer]. rewrite H by (cbn in Hn; lia). cbn [mbind option_bind fst snd collection].
    rewrite (proj2 (paired_spec _ _) eq_refl). apply distinct_spec in Hd. cbn [mbind option_bind]. by rewrite Hd.
  - intros x d s r _ [Hl IH] Hs Hd. split; [change (String.length ("#time/date" +:+ s)) with (10 + String.length s); lia|]. intros [|n] Hn; [lia|].
    change ("#time/date" +:+ s) with (String "#" ("time/date" +:+ s)). cbn [next]. change (kind_of "#" _) with KHash. cbv iota.
    change ("time/date" +:+ s) with (String "t" ("ime/date" +:+ s)) at 1. change (Ascii.eqb "t" "{") with false. change (Ascii.eqb "t" "_") with false.
    change (letter "t") with true. cbv iota. rewrite tag_text by auto. rewrite IH by (change (String.length ("#time/date" +:+ s)) with (10 + String.length s) in Hn; lia).
    cbn [tagged]. by rewrite Hd.
  - intros x s r _ [Hl IH] Hs. split; [change (String.length ("#regex" +:+ s)) with (6 + String.length s); lia|]. intros [|n] Hn; [lia|].
    change ("#regex" +:+ s) with (String "#" ("regex" +:+ s)). cbn [next]. change (kind_of "#" _) with KHash. cbv iota.
    change ("regex" +:+ s) with (String "r" ("egex" +:+ s)) at 1. change (Ascii.eqb "r" "{") with false. change (Ascii.eqb "r" "_") with false.
    change (letter "r") with true. cbv iota. rewrite tag_text by auto. rewrite IH by (change (String.length ("#regex" +:+ s)) with (6 + String.length s) in Hn; lia). done.
  - intros close s r _ [Hl IH] Hc. cbn [String.length] in Hl. split; [lia|]. intros [|n] Hn; [lia|]. cbn [items].
    destruct (IH n ltac:(lia)) as (m&Hm&->). destruct m as [|m]; [lia|]. cbn [next].
    assert (kind_of close r = KClose) as -> by (destruct Hc as [->|[->| ->]]; done). by rewrite Ascii.eqb_refl.
  - intros close v l s r r' _ [Hl IH] _ IH' Hc. destruct (IH' Hc) as [Hl' H]. split; [lia|]. intros [|n] Hn; [lia|]. cbn [items].
    rewrite IH by lia. by rewrite H by lia.
Qed.
Theorem edn_read_spec s v : edn_read s = Some v ↔ begins_with v s.
Proof.
  unfold edn_read, begins_with. split.
  - destruct (next _ s) as [[v' r| |]|] eqn:E; try done. intros [= ->]. exists r. by apply next_sound in E.
  - intros (r&H). apply next_complete in H as [_ H]. rewrite H by lia. done.
Qed.
Lemma form_functional v w s r r' : form v s r → form w s r' → v = w ∧ r = r'.
Proof.
  intros H1 H2. apply next_complete in H1 as [_ H1], H2 as [_ H2]. specialize (H1 (S (2 * String.length s)) ltac:(lia)).
  rewrite H2 in H1 by lia. by injection H1.
Qed.
