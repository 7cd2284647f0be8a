(** Converting parsed directives loses nothing. *)
From Coq Require Import Ascii.
From stdpp Require Import prelude gmap strings.
From Verif Require Import DecModel LedgerTypes JsonModel WireSpec WireFacts ParserModel ParserSpec.

Lemma from_names_iff l l' : from_names l = from_names l' ↔ same_names l l'.
Proof.
  unfold same_names. split.
  - destruct l as [|x l], l' as [|x' l']; try done. cbn [from_names]. intros H s.
    apply (inj Some) in H. rewrite <- !(elem_of_list_to_set (C:=gset string) s). by rewrite H.
  - intros H. destruct l as [|x l], l' as [|x' l']; cbn [from_names]; [done| | |].
    + exfalso. apply (not_elem_of_nil x'). apply H. left.
    + exfalso. apply (not_elem_of_nil x). apply H. left.
    + f_equal. apply set_eq. intros s. by rewrite !elem_of_list_to_set.
Qed.

Lemma from_meta_inj v v' : from_meta v = from_meta v' → v = v'.
Proof. destruct v as [[]|], v' as [[]|]; cbn; congruence. Qed.

Lemma from_flag_inj f f' : from_flag f = from_flag f' → f = f'.
Proof. destruct f, f'; cbn; congruence. Qed.

Lemma entries_fmap {A B} (f : A → B) k (l : list (string * A)) :
  entries k ((λ kv, (kv.1, f kv.2)) <$> l) = f <$> entries k l.
Proof.
  induction l as [|[k' v] l IH]; [done|]. cbn [fmap list_fmap fst snd].
  destruct (decide (k' = k)) as [->|Hk].
  - rewrite !entries_cons_eq. cbn [fmap list_fmap]. f_equal. exact IH.
  - rewrite !entries_cons_ne by done. exact IH.
Qed.

Lemma from_kv_lookup l k : (from_key_values l ≫= (.!! k)) = from_meta <$> value_of k l.
Proof.
  unfold from_key_values, value_of. destruct l as [|kv l]; [done|]. set (l' := kv :: l).
  cbn [mbind option_bind]. rewrite list_to_map_entries, entries_fmap. apply fmap_last.
Qed.

Lemma from_kv_iff l l' : from_key_values l = from_key_values l' ↔ ∀ k, value_of k l = value_of k l'.
Proof.
  split.
  - intros H k. apply (f_equal (λ m, m ≫= (.!! k))) in H. rewrite !from_kv_lookup in H.
    destruct (value_of k l), (value_of k l'); cbn in H; try done. injection H as H. by apply from_meta_inj in H as ->.
  - intros H. assert (∀ k, (from_key_values l ≫= (.!! k)) = (from_key_values l' ≫= (.!! k))) as Hk.
    { intros k. by rewrite !from_kv_lookup, H. }
    assert (∀ kv (l0 : list (string * pmeta)), is_Some (value_of kv.1 (kv :: l0))) as Hs.
    { intros [k v] l0. unfold value_of. rewrite entries_cons_eq. cbn [fst]. by apply last_is_Some. }
    destruct l as [|kv l], l' as [|kv' l']; [done| | |].
    + specialize (H kv'.1). destruct (Hs kv' l') as [x Hx]. rewrite Hx in H. done.
    + specialize (H kv.1). destruct (Hs kv l) as [x Hx]. rewrite Hx in H. done.
    + cbn [from_key_values] in Hk |- *. f_equal. apply map_eq. intros k. apply (Hk k).
Qed.

Lemma from_metadata_iff m m' :
  (from_names (pm_tags m) = from_names (pm_tags m') ∧ from_names (pm_links m) = from_names (pm_links m') ∧
   from_key_values (pm_key_values m) = from_key_values (pm_key_values m')) ↔ same_metadata m m'.
Proof. unfold same_metadata. by rewrite !from_names_iff, from_kv_iff. Qed.

Lemma option_fmap_inj {A B} (f : A → B) : (∀ x y, f x = f y → x = y) → ∀ o o' : option A, f <$> o = f <$> o' → o = o'.
Proof. intros Hf [x|] [y|]; cbn; try done. intros [= H]. by apply Hf in H as ->. Qed.

Lemma from_price_spec_inj p p' : from_price_spec p = from_price_spec p' → p = p'.
Proof. destruct p as [| |[]|[]], p' as [| |[]|[]]; cbn; congruence. Qed.
Lemma from_cost_spec_inj p p' : from_cost_spec p = from_cost_spec p' → p = p'.
Proof. destruct p, p'; unfold from_cost_spec; cbn; congruence. Qed.

Lemma from_posting_iff p p' : from_posting p = from_posting p' ↔ same_posting p p'.
Proof.
  unfold from_posting, same_posting. rewrite <- from_metadata_iff. split.
  - intros H. injection H as H1 H2 H3 H4 H5 H6 H7 H8 H9 H10.
    split; [done|]. split; [by apply (option_fmap_inj _ from_flag_inj)|]. split; [done|]. split; [done|].
    split; [done|]. split; [by apply (option_fmap_inj _ from_cost_spec_inj)|].
    split; [by apply (option_fmap_inj _ from_price_spec_inj)|]. done.
  - intros (H1 & H2 & H3 & H4 & H5 & H6 & H7 & H8 & H9 & H10). congruence.
Qed.

Lemma from_variant_iff v v' : from_variant v = from_variant v' ↔ same_variant v v'.
Proof.
  assert (∀ ps ps', from_posting <$> ps = from_posting <$> ps' ↔ Forall2 same_posting ps ps') as Hps.
  { induction ps as [|p ps IH]; intros [|p' ps']; cbn; [split; [constructor|done]| | |].
    - split; [done|]. by intros ?%Forall2_nil_inv_l.
    - split; [done|]. by intros ?%Forall2_nil_inv_r.
    - rewrite Forall2_cons, <- IH, <- from_posting_iff. split; [by intros [H1 H2]%(inj2 cons)|]. intros [H1 H2]. by rewrite H1, H2. }
  assert (∀ vs vs' : list pmeta, from_meta <$> vs = from_meta <$> vs' → vs = vs') as Hvs.
  { induction vs as [|x vs IH]; intros [|x' vs']; cbn; try done. intros [H1 H2]%(inj2 cons). apply from_meta_inj in H1 as ->.
    f_equal. by apply IH. }
  split.
  - destruct v, v'; cbn [from_variant same_variant]; try discriminate; try congruence.
    + intros H. injection H as H1 H2 H3 H4. apply from_flag_inj in H1. apply Hps in H4. done.
    + intros H. injection H as H1 H2 H3. apply from_names_iff in H2. done.
    + intros H. injection H as H1 H2. apply Hvs in H2. congruence.
  - destruct v, v'; cbn [from_variant same_variant]; try discriminate; try congruence.
    + intros (-> & -> & -> & H%Hps). by rewrite H.
    + intros (-> & H%from_names_iff & ->). by rewrite H.
Qed.

Lemma from_directive_iff d d' : from_directive d = from_directive d' ↔ same_parsed d d'.
Proof.
  unfold from_directive, same_parsed. rewrite <- from_metadata_iff, <- from_variant_iff. split.
  - intros H. injection H as H1 H2 H3 H4 H5 H6. done.
  - intros (H1 & H2 & (H3 & H4 & H5) & H6). congruence.
Qed.

(** ** Tolerances *)


Lemma tolerance_loop_spec l c :
  (tolerance_loop l).1 !! c = tolerance_for (Some c) l ∧ (tolerance_loop l).2 = tolerance_for None l.
Proof.
  unfold tolerance_loop, tolerance_for. induction l as [|[k d] l IH] using rev_ind; [done|].
  rewrite foldl_app, !filter_app, !fmap_app. destruct IH as [IH1 IH2].
  destruct (foldl tolerance_step _ l) as [m f]. cbn [foldl fst snd] in *. unfold tolerance_step. cbn [fst snd].
  destruct k as [k|]; cbn [fst snd].
  - destruct (decide (k = c)) as [->|Hk].
    + rewrite lookup_insert, filter_cons_True, filter_cons_False by done. cbn.
      rewrite last_snoc, app_nil_r. done.
    + rewrite lookup_insert_ne by done. rewrite !filter_cons_False; [|done|intros [= ?]; done]. cbn. rewrite !app_nil_r. done.
  - rewrite filter_cons_False, filter_cons_True by done. cbn. rewrite last_snoc, app_nil_r. done.
Qed.

Lemma options_tolerance o :
  (∀ c, (o_tolerance_default (from_options o) ≫= (.!! c)) = tolerance_for (Some c) (po_tolerance_defaults o)) ∧
  o_tolerance_fallback (from_options o) = tolerance_for None (po_tolerance_defaults o) ∧
  o_tolerance_default (from_options o) ≠ Some ∅.
Proof.
  unfold from_options; cbn [o_tolerance_default o_tolerance_fallback].
  split; [|split].
  - intros c. destruct (tolerance_loop_spec (po_tolerance_defaults o) c) as [H _]. rewrite <- H.
    case_decide as E; [|done]. by rewrite E, lookup_empty.
  - by destruct (tolerance_loop_spec (po_tolerance_defaults o) "") as [_ H].
  - case_decide; [done|congruence].
Qed.

(** ** What is shown *)
Lemma from_names_shows l : shows_names l (from_names l).
Proof.
  unfold shows_names, from_names. destruct l as [|x l].
  - split; [|done]. intros s. split; [by intros ?%elem_of_nil|]. by intros (X & ? & _).
  - split.
    + intros s. split.
      * intros Hs. eexists. split; [done|]. by apply elem_of_list_to_set.
      * intros (X & HX & Hs). apply (inj Some) in HX as <-. by apply (elem_of_list_to_set s (x :: l)) in Hs.
    + intros [= H]. assert (x ∈ (∅ : gset string)) as Hx; [|by apply not_elem_of_empty in Hx].
      rewrite <- H. apply elem_of_union_l, elem_of_singleton_2. done.
Qed.
Lemma from_meta_shows v : shows_value v (from_meta v).
Proof. by destruct v as [[]|]. Qed.
Lemma from_flag_shows f : shows_flag f (from_flag f).
Proof. by destruct f. Qed.
Lemma from_kv_some l : from_key_values l ≠ Some ∅.
Proof.
  intros H. destruct l as [|[k v] l]; [done|].
  pose proof (from_kv_lookup ((k, v) :: l) k) as Hk. rewrite H in Hk. cbn [mbind option_bind] in Hk.
  rewrite lookup_empty in Hk. unfold value_of in Hk.
  assert (entries k ((k, v) :: l) ≠ []) as Hne.
  { unfold entries. rewrite filter_cons_True by done. done. }
  destruct (entries k ((k, v) :: l)) as [|w es]; [done|]. rewrite last_cons in Hk. by destruct (last es).
Qed.
Lemma from_metadata_shows m :
  shows_metadata m (from_names (pm_tags m)) (from_names (pm_links m)) (from_key_values (pm_key_values m)).
Proof.
  split; [apply from_names_shows|]. split; [apply from_names_shows|]. split; [|apply from_kv_some].
  intros k. rewrite from_kv_lookup. destruct (value_of k _); [apply from_meta_shows|done].
Qed.
Lemma from_price_shows p : shows_price p (from_price_spec p).
Proof.
  destruct p as [|c|[n|n]|[n|n] c]; unfold shows_price; cbn; (split; [|split]); intros x;
    (split; [try done; intros [= <-]; eauto|intros [?|[? ?]]; congruence]).
Qed.
Lemma from_posting_shows p : shows_posting p (from_posting p).
Proof.
  unfold shows_posting. cbn [from_posting ps_span ps_flag ps_acc ps_units ps_cur ps_cost ps_price ps_tags ps_links ps_metadata].
  assert (shows_option shows_flag (pp_flag p) (from_flag <$> pp_flag p)) as H1.
  { destruct (pp_flag p); [apply from_flag_shows|done]. }
  assert (shows_option shows_cost (pp_cost p) (from_cost_spec <$> pp_cost p)) as H2 by by destruct (pp_cost p).
  assert (shows_option shows_price (pp_price p) (from_price_spec <$> pp_price p)) as H3.
  { destruct (pp_price p); [apply from_price_shows|done]. }
  pose proof (from_metadata_shows (pp_metadata p)). tauto.
Qed.
Lemma from_variant_shows v : shows_variant v (from_variant v).
Proof.
  destruct v; cbn; try done.
  - split; [apply from_flag_shows|]. split; [done|]. split; [done|].
    apply Forall2_fmap_r, Forall_Forall2_diag, Forall_forall. intros x _. apply from_posting_shows.
  - split; [done|]. split; [apply from_names_shows|done].
  - split; [done|]. apply Forall2_fmap_r, Forall_Forall2_diag, Forall_forall. intros x _. apply from_meta_shows.
Qed.
Lemma from_directive_shows p : shows p (from_directive p).
Proof. split; [done|]. split; [done|]. split; [apply from_metadata_shows|apply from_variant_shows]. Qed.
