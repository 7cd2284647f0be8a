(** Lemmas for [PluginProps.v]: fields of maps, synthetic spans. *)
From Coq Require Import Ascii QArith.
From stdpp Require Import prelude gmap strings.
From Verif Require Import DecModel LedgerTypes IsoModel JsonModel WireModel CljModel InventoryModel ClientModel FormatModel PluginModel PluginSpec.
Local Open Scope nat_scope.

(** * [assoc] *)
Lemma entries_cons {V} k k' (v : V) fs :
  entries k ((k', v) :: fs) = if String.eqb k' k then v :: entries k fs else entries k fs.
Proof.
  unfold entries. rewrite filter_cons. destruct (decide _) as [H|H]; cbn in H.
  - subst. by rewrite String.eqb_refl.
  - by rewrite (proj2 (String.eqb_neq _ _) H).
Qed.
Lemma entries_filter_same {V} k (fs : list (string * V)) : entries k (filter (λ e, e.1 ≠ k) fs) = [].
Proof.
  induction fs as [|[k' v] fs IH]; [done|]. rewrite filter_cons. destruct (decide _) as [H|H]; [|done].
  rewrite entries_cons, IH. cbn in H. by rewrite (proj2 (String.eqb_neq _ _) H).
Qed.
Lemma entries_filter_other {V} k k' (fs : list (string * V)) : k ≠ k' → entries k' (filter (λ e, e.1 ≠ k) fs) = entries k' fs.
Proof.
  intros Hk. induction fs as [|[k2 v] fs IH]; [done|]. rewrite filter_cons. destruct (decide _) as [H|H]; cbn in H.
  - by rewrite !entries_cons, IH.
  - rewrite entries_cons, IH. assert (k2 = k) as -> by (by destruct (decide (k2 = k))).
    by rewrite (proj2 (String.eqb_neq _ _) Hk).
Qed.
Lemma entries_assoc_same k v fs : entries k (fields_assoc k v fs) = [v].
Proof.
  induction fs as [|[k' w] fs IH]; cbn [fields_assoc fst].
  { by rewrite entries_cons, String.eqb_refl. }
  destruct (String.eqb k' k) eqn:He; rewrite entries_cons.
  - by rewrite String.eqb_refl, entries_filter_same.
  - by rewrite He, IH.
Qed.
Lemma entries_assoc_other k k' v fs : k ≠ k' → entries k' (fields_assoc k v fs) = entries k' fs.
Proof.
  intros Hk. induction fs as [|[k2 w] fs IH]; cbn [fields_assoc fst].
  { rewrite entries_cons. by rewrite (proj2 (String.eqb_neq _ _) Hk). }
  destruct (String.eqb k2 k) eqn:He; rewrite !entries_cons.
  - apply String.eqb_eq in He as ->. rewrite (proj2 (String.eqb_neq _ _) Hk). by rewrite entries_filter_other.
  - by rewrite IH.
Qed.
Lemma vget_vassoc_same k v m m' : vassoc k v m = Some m' → vget k m' = Some v.
Proof.
  unfold vassoc. destruct m; try done; intros H; injection H; intros <-; unfold vget, vfield.
  - by rewrite entries_cons, String.eqb_refl.
  - by rewrite entries_assoc_same.
Qed.
Lemma vget_vassoc_other k k' v m m' : k ≠ k' → vassoc k v m = Some m' → vget k' m' = vget k' m.
Proof.
  intros Hk. unfold vassoc. destruct m; try done; intros H; injection H; intros <-; unfold vget, vfield.
  - rewrite entries_cons. by rewrite (proj2 (String.eqb_neq _ _) Hk).
  - by rewrite entries_assoc_other.
Qed.
Lemma vassoc_map k v m : is_map m = true → ∃ m', vassoc k v m = Some m' ∧ is_map m' = true.
Proof. destruct m; try done. intros _. by eexists. Qed.

(** * Spans *)
Lemma span_requests_of_length so d rs :
  span_requests_of so d = Some rs → (marked d = true → is_txn d = true ∨ vpostings d = []) → length rs = n_spans d.
Proof.
  unfold span_requests_of, n_spans. destruct (marked d); [|intros [= <-]; done].
  intros H Hm. specialize (Hm eq_refl). destruct (join_provenance d) as [n|]; [|done].
  destruct (element_texts so d) as [ts|] eqn:Ht; [|done]. injection H; intros <-. rewrite map_length.
  unfold element_texts in Ht. destruct (is_txn d).
  - apply mapM_Some in Ht. apply Forall2_length in Ht. cbn [length] in Ht. rewrite fmap_length in Ht. by rewrite <- Ht.
  - destruct Hm as [?|Hnone]; [done|]. rewrite Hnone. apply mapM_Some in Ht. apply Forall2_length in Ht. by rewrite <- Ht.
Qed.

Lemma mapM_vassoc_spans ps : forallb is_map ps = true → ∀ ss, length ps = length ss →
  ∃ ps', mapM (λ '(p, s), vassoc "span-p" s p) (zip ps ss) = Some ps' ∧
    Forall3 (λ p s p', vget "span-p" p' = Some s ∧ ∀ f, f ≠ "span-p" → vget f p' = vget f p) ps ss ps'.
Proof.
  induction ps as [|p ps IH]; intros Hm ss Hl; destruct ss as [|s ss]; try done.
  { exists []. split; [done|constructor]. }
  cbn [forallb] in Hm. apply andb_true_iff in Hm as [Hp Hm]. injection Hl; intros Hl'.
  destruct (IH Hm ss Hl') as (ps' & Heq & HF). destruct (vassoc_map "span-p" s p Hp) as (p' & Hp' & _).
  exists (p' :: ps'). split.
  - change (zip (p :: ps) (s :: ss)) with ((p, s) :: zip ps ss). cbn [mapM]. rewrite Hp'. cbn [mbind option_bind].
    rewrite Heq. done.
  - constructor; [|done]. split; [by eapply vget_vassoc_same|]. intros f Hf. by apply (vget_vassoc_other _ _ _ _ _ (not_eq_sym Hf) Hp').
Qed.
Lemma vpostings_get d d' : vget "postings" d' = vget "postings" d → vpostings d' = vpostings d.
Proof. unfold vpostings. by intros ->. Qed.

Lemma merge_spans_given d g :
  well_shaped d = true → length g = S (length (vpostings d)) →
  ∃ d', merge_spans d g = Some d' ∧ with_spans d g d'.
Proof.
  intros Hw Hl. unfold well_shaped in Hw. apply andb_true_iff in Hw as [Hm Hps].
  destruct g as [|s ss]; [done|]. cbn [length] in Hl. injection Hl; intros Hl'. clear Hl.
  unfold merge_spans. change (default VNil (head (s :: ss))) with s. change (tail (s :: ss)) with ss.
  destruct (vassoc_map "span-p" s d Hm) as (d1 & Hd1 & Hm1). rewrite Hd1. cbn [mbind option_bind].
  destruct ss as [|s2 ss].
  - exists d1. split; [done|]. unfold with_spans. split; [by eapply vget_vassoc_same|].
    rewrite (vpostings_get d d1) by (eapply vget_vassoc_other; [|exact Hd1]; done). destruct (vpostings d); [|done].
    split; [constructor|]. intros f Hf _. by apply (vget_vassoc_other _ _ _ _ _ (not_eq_sym Hf) Hd1).
  - destruct (mapM_vassoc_spans (vpostings d) Hps (s2 :: ss) ltac:(done)) as (ps' & -> & HF). cbn [mbind option_bind].
    destruct (vassoc_map "postings" (VVec ps') d1 Hm1) as (d2 & Hd2 & _). exists d2. split; [done|].
    split; [rewrite (vget_vassoc_other "postings" "span-p" _ _ _ (ltac:(done)) Hd2); by eapply vget_vassoc_same|]. split.
    + unfold vpostings at 2. rewrite (vget_vassoc_same _ _ _ _ Hd2). done.
    + intros f Hf Hf2. rewrite (vget_vassoc_other _ _ _ _ _ (not_eq_sym Hf2) Hd2). by apply (vget_vassoc_other _ _ _ _ _ (not_eq_sym Hf) Hd1).
Qed.

Lemma span_requests_groups so ds rs :
  span_requests so ds = Some rs → ∃ rgs, mjoin rgs = rs ∧ Forall2 (λ d rg, span_requests_of so d = Some rg) ds rgs.
Proof.
  unfold span_requests. destruct (mapM _ ds) as [rgs|] eqn:H; [|done]. intros Heq. exists rgs. split.
  - by injection Heq.
  - by apply mapM_Some in H.
Qed.

Lemma map_n_aligned so ds : ∀ rgs spans,
  Forall2 (λ d rg, span_requests_of so d = Some rg) ds rgs →
  Forall (λ d, well_shaped d = true) ds →
  Forall (λ d, marked d = true → is_txn d = true ∨ vpostings d = []) ds →
  length spans = length (mjoin rgs) →
  ∃ out groups, map_n n_spans merge_spans ds spans = Some out ∧ mjoin groups = spans ∧
    Forall2 (λ (rg : list (string * string)) (g : list cval), length rg = length g) rgs groups ∧ Forall3 spans_given ds groups out.
Proof.
  induction ds as [|d ds IH]; intros rgs spans HF Hw Hp Hl.
  { inversion HF; subst. destruct spans; [|done]. exists [], []. repeat split; constructor. }
  inversion HF as [|? rg ? rgs' Hrg HF']; subst. inversion Hw as [|? ? Hwd Hw']; subst. inversion Hp as [|? ? Hpd Hp']; subst.
  pose proof (span_requests_of_length _ _ _ Hrg Hpd) as Hlen.
  change (mjoin (rg :: rgs')) with (rg ++ mjoin rgs') in Hl. rewrite app_length in Hl.
  destruct (IH rgs' (drop (length rg) spans) HF' Hw' Hp') as (out & groups & Hout & Hj & HFl & H3).
  { rewrite drop_length. lia. }
  cbn [map_n]. rewrite <- Hlen. unfold n_spans in Hlen. destruct (marked d) eqn:Hm.
  - rewrite Hlen. cbn [Nat.eqb]. rewrite <- Hlen.
    destruct (merge_spans_given d (take (length rg) spans) Hwd) as (d' & Hd' & Hsp).
    { rewrite take_length. lia. }
    rewrite Hd', Hout. cbn [mbind option_bind]. exists (d' :: out), (take (length rg) spans :: groups). split; [done|]. split.
    + change (mjoin (take (length rg) spans :: groups)) with (take (length rg) spans ++ mjoin groups). rewrite Hj. by rewrite take_drop.
    + split; [constructor; [rewrite take_length; lia|done]|]. constructor; [|done]. unfold spans_given. by rewrite Hm.
  - rewrite Hlen in *. cbn [Nat.eqb]. rewrite drop_0 in Hout, Hj. rewrite Hout. cbn [mbind option_bind].
    exists (d :: out), ([] :: groups). split; [done|]. split; [done|]. split; [by constructor|].
    constructor; [|done]. unfold spans_given. by rewrite Hm.
Qed.

Lemma map_n_nothing so ds rgs :
  Forall2 (λ d rg, span_requests_of so d = Some rg) ds rgs →
  Forall (λ d, marked d = true → is_txn d = true ∨ vpostings d = []) ds →
  mjoin rgs = [] →
  Forall2 (λ (rg : list (string * string)) (g : list cval), length rg = length g) rgs (replicate (length ds) []) ∧
  Forall3 spans_given ds (replicate (length ds) []) ds.
Proof.
  intros HF. induction HF as [|d rg ds rgs Hrg HF IH]; intros Hp Hj; [split; constructor|].
  inversion Hp as [|? ? Hpd Hp']; subst.
  change (mjoin (rg :: rgs)) with (rg ++ mjoin rgs) in Hj. apply app_eq_nil in Hj as [-> Hj].
  pose proof (span_requests_of_length _ _ _ Hrg Hpd) as Hlen.
  destruct (IH Hp' Hj) as [H1 H2]. cbn [length replicate]. split; [by constructor|]. constructor; [|done].
  unfold spans_given. unfold n_spans in Hlen. by destruct (marked d).
Qed.

Theorem merge_aligned so create ds rs spans :
  span_requests so ds = Some rs → create rs = Some spans → length spans = length rs →
  Forall (λ d, well_shaped d = true) ds →
  Forall (λ d, marked d = true → is_txn d = true ∨ vpostings d = []) ds →
  ∃ out rgroups groups, merge_with_provenance so create ds = Some out ∧
    mjoin rgroups = rs ∧ mjoin groups = spans ∧
    Forall2 (λ d rg, span_requests_of so d = Some rg) ds rgroups ∧
    Forall2 (λ (rg : list (string * string)) (g : list cval), length rg = length g) rgroups groups ∧
    Forall3 spans_given ds groups out.
Proof.
  intros Hrs Hc Hl Hw Hp. unfold merge_with_provenance. rewrite Hrs. cbn [mbind option_bind].
  destruct (span_requests_groups _ _ _ Hrs) as (rgs & <- & HF).
  destruct (mjoin rgs) as [|r rs] eqn:Hj.
  - destruct spans; [|done]. cbn [mbind option_bind].
    destruct (map_n_nothing _ _ _ HF Hp Hj) as [H1 H2].
    exists ds, rgs, (replicate (length ds) []). split; [done|]. split; [done|]. split; [|done].
    clear. induction ds as [|d ds IH]; [done|]. exact IH.
  - rewrite Hc. cbn [mbind option_bind].
    destruct spans as [|s spans]; [done|].
    destruct (map_n_aligned so ds rgs (s :: spans) HF Hw Hp) as (out & groups & Hout & Hjo & HFl & H3). { by rewrite Hj. }
    exists out, rgs, groups. done.
Qed.
