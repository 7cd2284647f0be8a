(** What the client reads and sends back unchanged means the same to the server. *)
From Coq Require Import Ascii QArith.
From stdpp Require Import prelude gmap strings.
From Verif Require Import DecModel LedgerTypes IsoModel IsoFacts JsonModel JsonText TextFacts WireModel WireSpec WireFacts
  CljModel InventoryModel ClientModel EncodeModel.
Local Open Scope nat_scope.

(** * The same tree but for order *)

(** Fields of objects, and members of arrays which stand for sets, may be in another
    order. *)
Inductive jsim : option string → json → json → Prop :=
| JSnull k : jsim k JNull JNull
| JSbool k b : jsim k (JBool b) (JBool b)
| JSnum k d : jsim k (JNum d) (JNum d)
| JSstr k s : jsim k (JStr s) (JStr s)
| JSarr k l l' : is_set_key k = false → Forall2 (jsim None) l l' → jsim k (JArr l) (JArr l')
| JSset k l l' l'' : is_set_key k = true → Forall2 (jsim None) l l' → l' ≡ₚ l'' → jsim k (JArr l) (JArr l'')
| JSobj k fs fs' fs'' : NoDup fs.*1 → Forall2 (λ a b, a.1 = b.1 ∧ jsim (Some a.1) a.2 b.2) fs fs' → fs' ≡ₚ fs'' →
    jsim k (JObj fs) (JObj fs'').

(** * Trees which survive *)

(** Under [dct] and [booking] there is text, under [date] nothing but the text of a
    date is text, and no key occurs twice. *)
Definition keeps (k : string) (v : json) : Prop :=
  (k = "dct" ∨ k = "booking" → v = JNull ∨ ∃ s, v = JStr s) ∧
  (k = "date" → ∀ s, v = JStr s → ∃ d, parse_date s = Some d ∧ fmt_date d = s).
Inductive stable : json → Prop :=
| StNull : stable JNull
| StBool b : stable (JBool b)
| StNum d : stable (JNum d)
| StStr s : stable (JStr s)
| StArr l : Forall stable l → stable (JArr l)
| StObj fs : NoDup fs.*1 → Forall (λ kv, keeps kv.1 kv.2 ∧ stable kv.2) fs → stable (JObj fs).

Section Encode.
Context (so : list json → list json) (mo : list (string * json) → list (string * json)).
Context (Hso : ∀ l, so l ≡ₚ l) (Hmo : ∀ l, mo l ≡ₚ l).
Notation encode := (encode so mo).

Lemma distinct_NoDup {A} (fs : list (string * A)) : NoDup fs.*1 → distinct fs = fs.
Proof.
  induction fs as [|[k v] fs IH]; [done|]. cbn [fmap list_fmap fst]. rewrite NoDup_cons. intros (Hk&Hn). cbn [distinct fst].
  destruct (existsb (λ e, String.eqb e.1 k) fs) eqn:E.
  - exfalso. apply Hk. apply existsb_exists in E as ([k' v']&Hin&E). apply String.eqb_eq in E. cbn in E. subst.
    apply elem_of_list_In in Hin. by apply (elem_of_list_fmap_1 fst) in Hin.
  - by rewrite IH.
Qed.

Lemma cn_dec_of d : cn_dec (cn_of_dec d) = d.
Proof. destruct d as [m [|n]]; unfold cn_of_dec; cbn; [|done]. by destruct (fits_long m). Qed.

Definition converted1 (k : string) (v : cval) : cval :=
  if String.eqb k "dct" || String.eqb k "booking" then to_keyword v
  else if String.eqb k "date" then to_local_date v else v.

Lemma vupdate_absent k f fs : k ∉ fs.*1 → vupdate k f fs = fs.
Proof.
  induction fs as [|[k' v] fs IH]; [done|]. cbn [fmap list_fmap fst]. intros H. apply not_elem_of_cons in H as (H1&H2).
  unfold vupdate in *. cbn [fmap list_fmap fst snd]. destruct (String.eqb k' k) eqn:E; [apply String.eqb_eq in E; congruence|].
  by rewrite IH.
Qed.
Lemma convert_map_pointwise fs : NoDup fs.*1 → convert_map fs = (λ kv, (kv.1, converted1 kv.1 kv.2)) <$> fs.
Proof.
  intros Hn. unfold convert_map.
  assert (Hd : (match vfield "date" fs with Some (VStr _) => vupdate "date" to_local_date fs | _ => fs end) = vupdate "date" to_local_date fs).
  { unfold vfield. pose proof (entries_NoDup fs "date" Hn) as Hl.
    destruct (entries "date" fs) as [|v [|]] eqn:E; cbn in Hl; [| |lia].
    - cbn. rewrite vupdate_absent; [done|]. intros Hin. apply elem_of_list_fmap in Hin as ([k v]&Ek&Hin). cbn in Ek. subst k.
      apply entries_spec in Hin. rewrite E in Hin. by apply elem_of_nil in Hin.
    - cbn. assert (Hx : (∀ s, v ≠ VStr s) → vupdate "date" to_local_date fs = fs).
      { intros Hv. unfold vupdate. apply list_eq. intros i. rewrite list_lookup_fmap.
        destruct (fs !! i) as [[k w]|] eqn:Ei; [|done]. cbn. destruct (String.eqb k "date") eqn:Ek; [|done].
        apply String.eqb_eq in Ek as ->. assert (w ∈ entries "date" fs) as Hw by (apply entries_spec; by eapply elem_of_list_lookup_2).
        rewrite E in Hw. apply elem_of_list_singleton in Hw as ->. destruct v; try done. by destruct (Hv s). }
      destruct v; try done; symmetry; apply Hx; intros; discriminate. }
  rewrite Hd. unfold vupdate. rewrite <- !list_fmap_compose. apply list_fmap_ext. intros i [k v] _. cbn.
  unfold converted1. 
  destruct (String.eqb k "date") eqn:E1; cbn; [apply String.eqb_eq in E1 as ->; done|].
  destruct (String.eqb k "dct") eqn:E2; cbn; [apply String.eqb_eq in E2 as ->; done|].
  destruct (String.eqb k "booking") eqn:E3; done.
Qed.

Lemma encode_converted k v : keeps k v → encode (converted1 k (decode (Some k) v)) = encode (decode (Some k) v).
Proof.
  intros (H1&H2). unfold converted1.
  destruct (String.eqb k "dct" || String.eqb k "booking") eqn:E.
  - destruct H1 as [->|(s&->)]; [|done|done].
    apply orb_true_iff in E as [E|E]; apply String.eqb_eq in E; auto.
  - destruct (String.eqb k "date") eqn:Ed; [|done]. apply String.eqb_eq in Ed as ->.
    destruct v; try done. destruct (H2 eq_refl s eq_refl) as (d&Hp&Hf). cbn. rewrite Hp. cbn. by rewrite Hf.
Qed.

Theorem encode_decode j : stable j → ∀ k, jsim k j (encode (decode k j)).
Proof.
  induction j as [|b|d|s|l IH|fs IH] using json_ind'; intros Hs k; inversion Hs as [| | | |? Hl|? Hn Hf]; subst; cbn [decode].
  - constructor.
  - constructor.
  - cbn. rewrite cn_dec_of. constructor.
  - constructor.
  - assert (F : Forall2 (jsim None) l (map encode (map (decode None) l))).
    { clear Hs. rewrite <- Forall_forall in IH. induction l as [|x l IHl]; [constructor|].
      apply Forall_cons_1 in IH as (I1&I2). apply Forall_cons_1 in Hl as (L1&L2). constructor; [by apply I1|by apply IHl]. }
    destruct (is_set_key k) eqn:Ek; cbn [EncodeModel.encode].
    + eapply JSset; [done|exact F|by rewrite Hso].
    + by apply JSarr.
  - cbn [EncodeModel.encode].
    set (gs := map (λ '(k, v), (k, decode (Some k) v)) fs).
    assert (Hk : gs.*1 = fs.*1).
    { unfold gs. clear. induction fs as [|[a b] fs IH]; [done|]. cbn. f_equal. exact IH. }
    rewrite convert_map_pointwise by by rewrite Hk.
    assert (E : map (λ '(k0, v), (k0, encode v)) ((λ kv, (kv.1, converted1 kv.1 kv.2)) <$> gs) =
                (λ kv, (kv.1, encode (decode (Some kv.1) kv.2))) <$> fs).
    { unfold gs. clear -Hf. induction Hf as [|[a b] fs (H1&H2) Hf IH]; [done|]. cbn in *. f_equal; [|exact IH].
      f_equal. by apply encode_converted. }
    rewrite E. rewrite distinct_NoDup.
    2: { rewrite <- list_fmap_compose. unfold compose. cbn. exact Hn. }
    eapply JSobj; [done| |by rewrite Hmo].
    rewrite <- Forall_forall in IH. clear -IH Hf. induction fs as [|[a b] fs IHf]; [constructor|].
    apply Forall_cons_1 in IH as (I1&I2). apply Forall_cons_1 in Hf as ((H1&H2)&H3). cbn [fmap list_fmap fst snd].
    constructor; [|by apply IHf]. split; [done|]. cbn. by apply I1.
Qed.
End Encode.

(** * The meaning is the same *)

Lemma entries_perm {A} k (a b : list (string * A)) : NoDup a.*1 → a ≡ₚ b → entries k a = entries k b.
Proof.
  intros Hn Hp. assert (Hq : entries k a ≡ₚ entries k b) by (unfold entries; by rewrite Hp).
  pose proof (entries_NoDup a k Hn) as Hl.
  destruct (entries k a) as [|x [|]] eqn:E; cbn in Hl; [| |lia].
  - symmetry in Hq. by apply Permutation_nil_r in Hq.
  - symmetry in Hq. by apply Permutation_singleton_r in Hq as ->.
Qed.
Lemma jsim_entries fs fs' fs'' k :
  NoDup fs.*1 → Forall2 (λ a b, a.1 = b.1 ∧ jsim (Some a.1) a.2 b.2) fs fs' → fs' ≡ₚ fs'' →
  Forall2 (jsim (Some k)) (entries k fs) (entries k fs'').
Proof.
  intros Hn Hf Hp.
  assert (Hk : fs'.*1 = fs.*1) by (clear -Hf; induction Hf as [|a b fs fs' (H&_) Hf IH]; [done|]; cbn; by f_equal).
  rewrite <- (entries_perm k fs' fs''); [|by rewrite Hk|done].
  clear -Hf. induction Hf as [|[a v] [b w] fs fs' (H&H') Hf IH]; [constructor|]. cbn in H, H'. subst b.
  destruct (decide (a = k)) as [->|Hne].
  - rewrite !entries_cons_eq. by constructor.
  - by rewrite !entries_cons_ne.
Qed.

(** A relation which does not depend on order. *)
Definition kept {A} (k : option string) (R : json → A → Prop) : Prop := ∀ j j' x, jsim k j j' → R j x → R j' x.
Lemma jsim_null k j : jsim k j JNull → j = JNull.
Proof. by inversion 1. Qed.
Lemma kept_has {A} (R : json → A → Prop) k fs fs' x :
  Forall2 (jsim (Some k)) (entries k fs) (entries k fs') → kept (Some k) R → has R k fs x → has R k fs' x.
Proof.
  intros Hf HR (v&E&Hv). rewrite E in Hf. inversion Hf as [|? v' ? ? H1 H2 E1 E2]; subst. inversion H2; subst.
  exists v'. split; [done|]. by eapply HR.
Qed.
Lemma kept_has_opt {A} (R : json → A → Prop) k fs fs' o :
  Forall2 (jsim (Some k)) (entries k fs) (entries k fs') → kept (Some k) R → has_opt R k fs o → has_opt R k fs' o.
Proof.
  intros Hf HR H. destruct o as [x|]; cbn in *.
  - destruct H as (v&E&Hn&Hv). rewrite E in Hf. inversion Hf as [|? v' ? ? H1 H2 E1 E2]; subst. inversion H2; subst.
    exists v'. split; [done|]. split; [intros ->; by apply jsim_null in H1|]. by eapply HR.
  - destruct H as [E|E]; rewrite E in Hf.
    + left. by inversion Hf.
    + right. inversion Hf as [|? v' ? ? H1 H2 E1 E2]; subst. inversion H2; subst. by inversion H1.
Qed.
Lemma kept_text k : kept k text_json.
Proof. intros j j' x H ->. by inversion H. Qed.
Lemma kept_name k : kept k name_json.
Proof. intros j j' x H (->&?). by inversion H. Qed.
Lemma kept_bool k : kept k bool_json.
Proof. intros j j' x H ->. by inversion H. Qed.
Lemma kept_nat k : kept k nat_json.
Proof. intros j j' x H ->. by inversion H. Qed.
Lemma kept_num dp k : kept k (num_json dp).
Proof. intros j j' x H [->|(s&->&?)]; inversion H; [by left|right; by eexists]. Qed.
Lemma kept_date k : kept k date_json.
Proof. intros j j' x H (s&->&?). inversion H. by exists s. Qed.
Lemma kept_booking k : kept k booking_json.
Proof. intros j j' x H ->. by inversion H. Qed.
Lemma kept_span k : is_set_key k = false → kept k span_json.
Proof.
  intros Hk j j' x H (a&b&c&->&Ha&Hb&Hc). inversion H as [| | | |? ? ? _ F|? ? ? ? Hk'|]; subst; [|congruence].
  repeat match goal with F : Forall2 _ (_ :: _) _ |- _ => inversion F; clear F; subst end.
  match goal with F : Forall2 _ [] _ |- _ => inversion F; subst end.
  eexists _, _, _. split; [done|]. split_and!; eapply kept_nat; eassumption.
Qed.
Lemma kept_list {A} (R : json → A → Prop) k : is_set_key k = false → kept None R → kept k (list_json R).
Proof.
  intros Hk HR j j' x H (js&->&Hf). inversion H as [| | | |? ? l' _ F|? ? ? ? Hk'|]; subst; [|congruence].
  exists l'. split; [done|]. clear H. revert l' F. induction Hf as [|a b js x Hab Hf IH]; intros l' F; inversion F; subst; constructor.
  - by eapply HR.
  - by apply IH.
Qed.
Lemma kept_set k : is_set_key k = true → kept k set_json.
Proof.
  intros Hk j j' x H (l&(js&->&Hf)&Hx). inversion H as [| | | |? ? ? Hk'|? ? l' l'' _ F Hp|]; subst; [congruence|].
  assert (Hf' : Forall2 name_json l' l).
  { clear -Hf F. revert l' F. induction Hf as [|a b js x Hab Hf IH]; intros l' F; inversion F; subst; constructor.
    - by eapply kept_name.
    - by apply IH. }
  destruct (Permutation_Forall2 Hp Hf') as (m&Hm&Hf'').
  exists m. split; [by exists l''|]. intros s. by rewrite Hx, Hm.
Qed.
Lemma kept_map {A} (R : json → A → Prop) k : (∀ k, kept k R) → kept k (map_json R).
Proof.
  intros HR j j' x H (fs&kvs&->&Hf&Hx). inversion H as [| | | | | |? ? fs' fs'' Hn F Hp]; subst.
  assert (Hf' : Forall2 (λ (kv : string * json) (kx : string * A), kv.1 = kx.1 ∧ plain kv.1 = true ∧ R kv.2 kx.2) fs' kvs).
  { clear -Hf F HR. revert fs' F. induction Hf as [|a b js x (E1&E2&E3) Hf IH]; intros l' F; inversion F as [|? c ? ? (Ec&Hc)]; subst; constructor.
    - rewrite <- Ec. split_and!; [done..|]. by eapply HR.
    - by apply IH. }
  destruct (Permutation_Forall2 Hp Hf') as (m&Hm&Hf'').
  exists fs'', m. split; [done|]. split; [done|]. intros s. rewrite Hx. f_equal. apply entries_perm; [|done].
  assert (kvs.*1 = fs.*1) as ->; [|done].
  clear -Hf. induction Hf as [|a b js x (E1&E2&E3) Hf IH]; [done|]. cbn. by rewrite E1, IH.
Qed.
Lemma jsim_obj1 k key v j : jsim k (JObj [(key, v)]) j → ∃ v', j = JObj [(key, v')] ∧ jsim (Some key) v v'.
Proof.
  inversion 1 as [| | | | | |? ? fs' fs'' Hn F Hp]; subst.
  inversion F as [|? [c w] ? ? (Ec&Hc) F' E1 E2]; subst. inversion F'; subst. cbn in *. subst c.
  symmetry in Hp. apply Permutation_singleton_r in Hp as ->. by exists w.
Qed.
Lemma jsim_obj2 k k1 v1 k2 v2 j : jsim k (JObj [(k1, v1); (k2, v2)]) j →
  ∃ w1 w2, (j = JObj [(k1, w1); (k2, w2)] ∨ j = JObj [(k2, w2); (k1, w1)]) ∧ jsim (Some k1) v1 w1 ∧ jsim (Some k2) v2 w2.
Proof.
  inversion 1 as [| | | | | |? ? fs' fs'' Hn F Hp]; subst.
  inversion F as [|? [c w] ? ? (Ec&Hc) F' E1 E2]; subst. inversion F' as [|? [c' w'] ? ? (Ec'&Hc') F'' E3 E4]; subst. inversion F''; subst.
  cbn in *. subst c c'. exists w, w'. split; [|done].
  apply Permutation_length_2_inv in Hp as [->| ->]; auto.
Qed.
Lemma kept_meta dp k : kept k (meta_json dp).
Proof.
  intros j j' v H M. destruct v; cbn in M |- *.
  1: { destruct M as (ju&jc&Hu&Hc&[->| ->]); apply jsim_obj2 in H as (w1&w2&[->| ->]&H1&H2);
         eexists _, _; (split; [|split; [|eauto]]); first [eapply kept_num|eapply kept_name]; eassumption. }
  all: try (destruct M as (x&->&M); apply jsim_obj1 in H as (v'&->&H'); exists v'; split; [done|];
            first [eapply kept_text|eapply kept_name|eapply kept_date|eapply kept_bool|eapply kept_num]; eassumption).
  subst. by inversion H.
Qed.
Local Ltac kept_leaf :=
  first [apply kept_text|apply kept_name|apply kept_num|apply kept_date|apply kept_bool|apply kept_booking
        |by apply kept_span|by apply kept_set|apply kept_map; intros; apply kept_meta].
Local Ltac kept_field :=
  first [eapply kept_has; [by eapply jsim_entries| |eassumption]|eapply kept_has_opt; [by eapply jsim_entries| |eassumption]];
  first [kept_leaf|apply kept_list; [done|apply kept_meta]].
Lemma kept_cost_spec dp k : kept k (cost_spec_json dp).
Proof.
  intros j j' c H (fs&->&M). inversion H as [| | | | | |? ? fs' fs'' Hn F Hp]; subst.
  destruct M as (M1&M2&M3&M4&M5&M6). exists fs''. split; [done|]. split_and!; try kept_field.
  destruct M6 as [M6|(M6&M7)]; [left; kept_field|right]. split; [|done].
  pose proof (jsim_entries _ _ _ "merge" Hn F Hp) as X. rewrite M6 in X. by inversion X.
Qed.
Lemma kept_price_spec dp k : kept k (price_spec_json dp).
Proof.
  intros j j' c H (fs&->&M). inversion H as [| | | | | |? ? fs' fs'' Hn F Hp]; subst.
  destruct M as (M1&M2&M3). exists fs''. split; [done|]. split_and!; kept_field.
Qed.
Lemma kept_price dp k : kept k (price_json dp).
Proof.
  intros j j' c H (fs&->&M). inversion H as [| | | | | |? ? fs' fs'' Hn F Hp]; subst.
  destruct M as (M1&M2&M3). exists fs''. split; [done|]. split_and!; kept_field.
Qed.
Local Ltac kept_leaf ::=
  first [apply kept_text|apply kept_name|apply kept_num|apply kept_date|apply kept_bool|apply kept_booking
        |by apply kept_span|by apply kept_set|apply kept_map; intros; apply kept_meta
        |apply kept_cost_spec|apply kept_price_spec|apply kept_price].
Lemma kept_posting dp k : kept k (posting_json dp).
Proof.
  intros j j' c H (fs&->&M). inversion H as [| | | | | |? ? fs' fs'' Hn F Hp]; subst.
  destruct M as (M1&M2&M3&M4&M5&M6&M7&M8&M9&M10). exists fs''. split; [done|]. split_and!; kept_field.
Qed.
Theorem kept_directive dp k : kept k (directive_json dp).
Proof.
  intros j j' c H (fs&->&M). inversion H as [| | | | | |? ? fs' fs'' Hn F Hp]; subst.
  destruct M as (M1&M2&M3&M4&M5&M6). exists fs''. split; [done|]. split_and!; try kept_field.
  destruct (d_variant c); cbn in M6 |- *; destruct_and?; split_and?; try kept_field.
  eapply kept_has; [by eapply jsim_entries| |eassumption]. apply kept_list; [done|apply kept_posting].
Qed.
