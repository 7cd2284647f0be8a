(** Cells of inventories, journals and roll-ups: lemmas for [CellProps.v]. *)
From Coq Require Import Ascii QArith Sorted.
From stdpp Require Import prelude gmap strings pretty sorting.
From Verif Require Import DecModel LedgerTypes IsoModel IsoFacts JsonModel JsonText WireModel WireSpec CljModel OrderFacts InventoryModel InventorySpec RollupModel FormatModel
  NumText NumFacts FormatProps CellModel CellSpec.
Local Open Scope nat_scope.

(** * Leaves *)
Lemma num_text_inj a b : num_text a = num_text b ↔ cn_dec a = cn_dec b.
Proof.
  split; [|intros E].
  - intros E. pose proof (C70_scientific a) as Ha. rewrite E, C70_scientific in Ha. congruence.
  - assert (∀ n, num_text n = dec_text (cn_dec n)) as H.
    { intros [z|z|d]; [| |done]; cbn; unfold dec_text, int_text; cbn [dec_scale]; by rewrite andb_false_r. }
    by rewrite !H, E.
Qed.
Lemma num_cell_inj a b : num_cell a = num_cell b ↔ cn_dec a = cn_dec b.
Proof.
  rewrite <- num_text_inj. unfold num_cell. split; [congruence|intros E; by rewrite E].
Qed.
Lemma date_cell_inj a b : ok_date a → ok_date b → date_cell a = date_cell b → a = b.
Proof.
  intros Ha Hb [= E]. apply parse_fmt_date in Ha, Hb. rewrite E in Ha. congruence.
Qed.
Lemma opt_cell_inj {A} (f : A → cell) (P : A → Prop) a b :
  (∀ x, f x ≠ CEmpty) → (∀ x y, P x → P y → f x = f y → x = y) →
  match a with Some x => P x | None => True end → match b with Some x => P x | None => True end →
  opt_cell f a = opt_cell f b → a = b.
Proof. intros He Hi. destruct a as [x|], b as [y|]; cbn; intros; [f_equal; auto|by destruct (He x)|by destruct (He y)|done]. Qed.
Lemma opt_str_inj a b : opt_cell str_cell a = opt_cell str_cell b → a = b.
Proof. apply (opt_cell_inj _ (λ _, True)); [done|by intros x y _ _ [=]|by destruct a|by destruct b]. Qed.

(** * Positions *)
Lemma cost_cell_inj a b : ok_date (cc_date a) → ok_date (cc_date b) → cost_cell a = cost_cell b ↔ shown_cost a = shown_cost b.
Proof.
  intros Ha Hb. unfold cost_cell, shown_cost. split.
  - intros E. assert (E' := E). injection E as E1 E2 E3 E4 E5 E6.
    assert (date_cell (cc_date a) = date_cell (cc_date b)) as Ed by (unfold date_cell, str_cell; by rewrite E1).
    apply date_cell_inj in Ed; [|done|done]. rewrite Ed, E2.
    assert (num_cell (cc_per_unit a) = num_cell (cc_per_unit b)) as En by (unfold num_cell; by rewrite E3).
    apply num_cell_inj in En. rewrite En. apply opt_str_inj in E5. rewrite E5. f_equal.
    destruct (cc_merge a) as [[]|], (cc_merge b) as [[]|]; done.
  - intros [= -> -> E3 -> E5]. apply num_cell_inj in E3. rewrite E3. do 2 f_equal.
    destruct (cc_merge a) as [[]|], (cc_merge b) as [[]|]; done.
Qed.
Lemma position_cell_inj a b : position_dated a → position_dated b → position_cell a = position_cell b ↔ shown_position a = shown_position b.
Proof.
  unfold position_dated, position_cell, shown_position. intros Ha Hb. split.
  - intros E. assert (num_cell (pos_units a) = num_cell (pos_units b) ∧ pos_cur a = pos_cur b) as [Eu Ec].
    { unfold str_cell in E. destruct (pos_cost a), (pos_cost b); split; congruence. }
    apply num_cell_inj in Eu. rewrite Eu, Ec. f_equal.
    destruct (pos_cost a) as [ca|], (pos_cost b) as [cb|]; try done; cbn [fmap option_fmap option_map].
    f_equal. apply cost_cell_inj; [done..|]. congruence.
  - intros [= E1 -> E3]. apply num_cell_inj in E1. rewrite E1.
    destruct (pos_cost a) as [ca|], (pos_cost b) as [cb|]; try done.
    assert (shown_cost ca = shown_cost cb) as E4 by (cbn [fmap option_fmap option_map] in E3; congruence). apply cost_cell_inj in E4; [|done..]. by rewrite E4.
Qed.
Definition is_row (c : cell) : Prop := match c with CRow _ _ => True | _ => False end.
Lemma position_is_row p : is_row (position_cell p).
Proof. unfold position_cell. by destruct (pos_cost p). Qed.
Lemma vec_cell_inj l1 l2 : Forall is_row l1 → Forall is_row l2 → vec_cell l1 = vec_cell l2 → l1 = l2.
Proof.
  intros H1 H2. destruct l1 as [|a [|b l1]], l2 as [|c [|d l2]]; cbn [vec_cell]; intros E; try done.
  - apply Forall_inv in H2. by rewrite <- E in H2.
  - apply Forall_inv in H1. by rewrite E in H1.
  - by rewrite E.
  - apply Forall_inv in H1. by rewrite E in H1.
  - apply Forall_inv in H2. by rewrite <- E in H2.
  - congruence.
Qed.
Lemma fmap_inj_on {A B C} (f : A → B) (g : A → C) (P : A → Prop) l1 l2 :
  (∀ x y, P x → P y → f x = f y ↔ g x = g y) → Forall P l1 → Forall P l2 → f <$> l1 = f <$> l2 ↔ g <$> l1 = g <$> l2.
Proof.
  intros H H1. revert l2. induction H1 as [|x l1 Hx _ IH]; intros [|y l2] H2; cbn; try done.
  apply Forall_cons in H2 as [Hy H2]. specialize (IH l2 H2). specialize (H x y Hx Hy). 
  split; intros [= E1 E2]; f_equal; tauto.
Qed.
Lemma positions_cell_inj l1 l2 : Forall position_dated l1 → Forall position_dated l2 →
  vec_cell (position_cell <$> l1) = vec_cell (position_cell <$> l2) ↔ shown_position <$> l1 = shown_position <$> l2.
Proof.
  intros H1 H2. rewrite <- (fmap_inj_on position_cell shown_position position_dated) by (done || apply position_cell_inj).
  split; [|by intros ->]. apply vec_cell_inj; apply Forall_forall; intros c (p & -> & _)%elem_of_list_fmap; apply position_is_row.
Qed.

(** * Maps *)
Definition rows {A} (m : gmap string A) : list (string * A) :=
  omap (λ k, (λ v, (k, v)) <$> m !! k) (sort_strings ((λ e, e.1) <$> map_to_list m)).
Lemma rows_perm {A} (m : gmap string A) : rows m ≡ₚ map_to_list m.
Proof.
  unfold rows. rewrite sort_strings_perm.
  assert (∀ l, l ⊆ map_to_list m → omap (λ k, (λ v, (k, v)) <$> m !! k) ((λ e, e.1) <$> l) = l) as H; [|by rewrite H].
  induction l as [|[k v] l IH]; intros Hl; [done|]. cbn. rewrite (proj1 (elem_of_map_to_list m k v)) by (apply Hl; left). cbn.
  f_equal. apply IH. intros x Hx. apply Hl. by right.
Qed.
Lemma map_cell_rows {A} (f : A → cell) (m : gmap string A) :
  map_cell f m = CStack ((λ kv, CRow [str_cell kv.1; f kv.2] space_medium) <$> rows m).
Proof.
  unfold map_cell, rows. f_equal. induction (sort_strings _) as [|k l IH]; [done|]. cbn. destruct (m !! k); cbn; by rewrite IH.
Qed.
Global Instance before_antisym : AntiSymm eq before.
Proof.
  intros a. induction a as [|x a IH]; intros [|y b]; cbn; try done. intros [H1|[-> H1]] [H2|[E H2]]; try subst; try lia.
  by rewrite (IH b).
Qed.
Lemma sort_strings_unique l1 l2 : NoDup l1 → l1 ≡ₚ l2 → sort_strings l1 = sort_strings l2.
Proof.
  intros Hn Hp. apply (StronglySorted_unique before).
  - by apply sort_strings_sorted.
  - apply sort_strings_sorted. by rewrite <- Hp.
  - by rewrite !sort_strings_perm.
Qed.
Lemma rows_fmap {A B} (f : A → B) (m : gmap string A) : rows (f <$> m) = (λ kv, (kv.1, f kv.2)) <$> rows m.
Proof.
  unfold rows.
  assert (sort_strings ((λ e : string * B, e.1) <$> map_to_list (f <$> m)) = sort_strings ((λ e : string * A, e.1) <$> map_to_list m)) as ->.
  { apply sort_strings_unique; [apply NoDup_fst_map_to_list|]. etransitivity; [apply fmap_Permutation, map_to_list_fmap|].
    rewrite <- list_fmap_compose. apply reflexive_eq, list_fmap_ext. by intros ? []. }
  induction (sort_strings _) as [|k l IH]; [done|]. cbn. rewrite lookup_fmap. destruct (m !! k); cbn; by rewrite IH.
Qed.
Lemma rows_inj {A} (m1 m2 : gmap string A) : rows m1 = rows m2 → m1 = m2.
Proof. intros E. apply map_to_list_inj. by rewrite <- !rows_perm, E. Qed.
Lemma map_cell_inj {A} (f : A → cell) m1 m2 : map_cell f m1 = map_cell f m2 ↔ f <$> m1 = f <$> m2.
Proof.
  rewrite !map_cell_rows. split.
  - intros [= E]. apply rows_inj. rewrite !rows_fmap. revert E. generalize (rows m1) (rows m2).
    induction l as [|[k v] l IH]; intros [|[k' v'] l']; try done. cbn. intros [= -> -> E]. by rewrite (IH l').
  - intros E. f_equal. assert (∀ m, (λ kv : string * A, CRow [str_cell kv.1; f kv.2] space_medium) <$> rows m = (λ kv, CRow [str_cell kv.1; kv.2] space_medium) <$> rows (f <$> m)) as H.
    { intros m. rewrite rows_fmap, <- list_fmap_compose. done. }
    by rewrite !H, E.
Qed.
Lemma fmap_map_inj {A B C} (f : A → B) (g : A → C) (P : A → Prop) (m1 m2 : gmap string A) :
  (∀ x y, P x → P y → f x = f y ↔ g x = g y) → (∀ k x, m1 !! k = Some x → P x) → (∀ k x, m2 !! k = Some x → P x) →
  f <$> m1 = f <$> m2 ↔ g <$> m1 = g <$> m2.
Proof.
  intros H H1 H2. rewrite !map_eq_iff. apply forall_proper. intros k. rewrite !lookup_fmap.
  specialize (H1 k). specialize (H2 k). destruct (m1 !! k) as [x|], (m2 !! k) as [y|]; cbn; try done.
  specialize (H x y (H1 _ eq_refl) (H2 _ eq_refl)). split; intros [= E]; f_equal; tauto.
Qed.
(** The accounts of a table, from top to bottom. *)
Lemma rows_sorted {A} (m : gmap string A) : StronglySorted before (rows m).*1.
Proof.
  assert ((rows m).*1 = sort_strings ((λ e, e.1) <$> map_to_list m)) as ->.
  { unfold rows. assert (∀ l, (∀ k, k ∈ l → is_Some (m !! k)) → (omap (λ k, (λ v, (k, v)) <$> m !! k) l).*1 = l) as H.
    { induction l as [|k l IH]; intros Hl; [done|]. cbn. destruct (Hl k) as [v Hv]; [by left|]. rewrite Hv. cbn. f_equal.
      apply IH. intros k' Hk. apply Hl. by right. }
    apply H. intros k. rewrite sort_strings_perm. intros ([k' v] & -> & Hk)%elem_of_list_fmap. apply elem_of_map_to_list in Hk. by exists v. }
  apply sort_strings_sorted. apply NoDup_fst_map_to_list.
Qed.

(** * Numbers *)
Lemma index_of_app c a b : (∀ i, index_of c a ≠ Some i) → index_of c (a +:+ b) = Nat.add (String.length a) <$> index_of c b.
Proof.
  induction a as [|x a IH]; intros H.
  - change ("" +:+ b) with b. by destruct (index_of c b).
  - rewrite str_app_cons. cbn [index_of]. cbn [index_of] in H. destruct (Ascii.eqb x c) eqn:E; [by destruct (H 0)|].
    rewrite IH; [by destruct (index_of c b)|]. intros i Hi. rewrite Hi in H. by destruct (H (S i)).
Qed.
Lemma index_digits c n : (∀ x, (x < 10)%N → Ascii.eqb (ascii_of_N (48 + x)) c = false) → ∀ x, index_of c (fixed_digits n x) = None.
Proof.
  intros Hc. induction n as [|n IH]; intros x; [done|]. cbn [fixed_digits]. rewrite index_of_app by (intros i; by rewrite IH).
  cbn [index_of]. by rewrite Hc by (by apply N.mod_lt).
Qed.
Lemma digit_not_slash x : (x < 10)%N → Ascii.eqb (ascii_of_N (48 + x)) "/" = false.
Proof. intros H. by apply (digit_cases (λ x, Ascii.eqb (ascii_of_N (48 + x)) "/" = false) x H). Qed.
Definition sign (z : Z) : string := if (z <? 0)%Z then "-" else "".
Lemma anchor_print d :
  ∃ whole frac, print_dec d = whole +:+ frac ∧ (text_anchor (print_dec d) + 1)%Z = Z.of_nat (String.length whole) ∧
    read_number whole = Some (Dec (dec_mant d ÷ pow10Z (dec_scale d)) 0) ∧
    match dec_scale d with 0 => frac = "" | S _ => ∃ ds, frac = String "." ds ∧ String.length ds = dec_scale d end.
Proof.
  set (p := pow10Z (dec_scale d)).
  assert (∃ n, sign (dec_mant d) +:+ pretty (Z.abs_N (dec_mant d) / Z.to_N p)%N = sign (dec_mant d) +:+ fixed_digits n (Z.abs_N (dec_mant d) / Z.to_N p)%N) as (n & En).
  { destruct (pretty_fixed (Z.abs_N (dec_mant d) / Z.to_N p)%N) as (n & -> & _). by exists (S n). }
  exists (sign (dec_mant d) +:+ pretty (Z.abs_N (dec_mant d) / Z.to_N p)%N),
    (match dec_scale d with O => "" | n => "." +:+ fixed_digits n (Z.abs_N (dec_mant d) mod Z.to_N p)%N end).
  split_and!.
  - unfold print_dec. by rewrite str_app_assoc.
  - unfold text_anchor, print_dec. fold (sign (dec_mant d)). fold p. rewrite <- str_app_assoc.
    assert (∀ c, (∀ x, (x < 10)%N → Ascii.eqb (ascii_of_N (48 + x)) c = false) → index_of c "-" = None → 
      index_of c (sign (dec_mant d) +:+ pretty (Z.abs_N (dec_mant d) / Z.to_N p)%N) = None) as Hno.
    { intros c Hc Hm. rewrite En. unfold sign. destruct (_ <? _)%Z; rewrite index_of_app by (intros i; by rewrite ?Hm); by rewrite index_digits. }
    rewrite index_of_app by (intros i; by rewrite (Hno "."%char digit_not_point)).
    destruct (dec_scale d) as [|k].
    + cbn [index_of fmap option_fmap option_map]. rewrite str_app_nil. rewrite (Hno "/"%char digit_not_slash) by done. lia.
    + change ("." +:+ ?s) with (String "." s). cbn [index_of]. change (Ascii.eqb "." ".") with true. cbn [fmap option_fmap option_map].
      rewrite Nat.add_0_r. lia.
  - assert (sign (dec_mant d) +:+ pretty (Z.abs_N (dec_mant d) / Z.to_N p)%N = print_dec (Dec (dec_mant d ÷ p) 0) ∨
            (dec_mant d ÷ p = 0)%Z ∧ sign (dec_mant d) +:+ pretty (Z.abs_N (dec_mant d) / Z.to_N p)%N = "-0") as [->|[-> ->]]; [|apply read_print|done].
    assert (0 < p)%Z as Hp by done.
    assert (Z.abs_N (dec_mant d) / Z.to_N p = Z.abs_N (dec_mant d ÷ p))%N as Hq.
    { by rewrite Zabs2N.inj_quot. }
    rewrite Hq. set (q := (dec_mant d ÷ p)%Z) in *.
    assert (print_dec (Dec q 0) = sign q +:+ pretty (Z.abs_N q)) as ->.
    { unfold print_dec. cbn [dec_mant dec_scale]. rewrite str_app_nil. change (Z.to_N (pow10Z 0)) with 1%N. by rewrite N.div_1_r. }
    assert (q = Z.sgn (dec_mant d) * (Z.abs (dec_mant d) / p))%Z as Eq.
    { unfold q. rewrite Z.quot_div by lia. rewrite (Z.sgn_pos p), (Z.abs_eq p) by lia. lia. }
    assert (0 ≤ Z.abs (dec_mant d) / p)%Z as Hd by (apply Z.div_pos; lia).
    unfold sign. destruct (Z.ltb_spec (dec_mant d) 0) as [Hm|Hm].
    + destruct (decide (q = 0%Z)) as [->|Hq0]; [by right|]. left. destruct (Z.ltb_spec q 0); [done|]. lia.
    + left. destruct (Z.ltb_spec q 0); [|done]. lia.
  - destruct (dec_scale d) as [|k]; [done|]. eexists. split; [done|]. apply fixed_length.
Qed.
