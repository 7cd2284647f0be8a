(** Lemmas for [MixProps.v]. *)
From Coq Require Import Ascii QArith Sorted.
From stdpp Require Import prelude gmap strings.
From Verif Require Import DecModel LedgerTypes IsoModel IsoFacts JsonModel WireModel WireSpec WireFacts SpanModel ParserModel ServerModel
  CljModel InventoryModel InventorySpec OrderFacts ClientModel ClientDecode FormatModel PluginModel PluginSpec PluginFacts PluginMerge LoaderModel
  LoaderSpec EncodeModel EncodeFacts EncodeStable SystemModel SystemFacts SystemErrors SystemTrace AutoModel AutoSpec AutoFacts AutoLedgerSpec AutoLedgerFacts
  EditModel EditSpec EditFacts EditRead MixSpec.
Import WireSpec.
Local Open Scope nat_scope.

Local Ltac away := first [by intros [=]|refine (bool_decide_unpack _ _); by vm_compute].

Section Auto.
Context (dp : string → option dec).
Context (jso : list json → list json) (jmo : list (string * json) → list (string * json)).
Context (Hjso : ∀ l, jso l ≡ₚ l) (Hjmo : ∀ l, jmo l ≡ₚ l).
Notation encode := (encode jso jmo).
Notation holds := (holds dp jso jmo).

(** * What the client holds of a directive *)
Lemma held_acc v s : is_map v = true → ∀ js, encode v = JObj js → has name_json "acc" js s → texts "acc" v → vget "acc" v = Some (VStr s) ∧ plain s = true.
Proof using Hjmo.
  intros Hm js E (j & Hj & -> & Hp) Ht. destruct (encode_map' jso jmo Hjmo v Hm) as (js' & E' & He). rewrite E in E'. injection E' as <-.
  rewrite He in Hj. split; [|done]. unfold texts in Ht.
  destruct (vget "acc" v) as [w|]; [|done]. cbn in Hj. injection Hj as Hj. by apply encode_text in Hj as [->|[->|[? ->]]].
Qed.
Lemma held_open v d o : holds v d → d_variant d = DOpen o → vget "acc" v = Some (VStr (op_acc o)).
Proof using Hjmo.
  intros H Ev. destruct (holds_json dp jso jmo Hjmo v d H) as (js & E & He & fs & [= <-] & _ & _ & _ & _ & _ & Hv).
  rewrite Ev in Hv. cbn [variant_json] in Hv. destruct Hv as (_ & Hv & _). destruct H as (_ & Hp). pose proof (proper_map v Hp) as Hm.
  destruct Hp as (_ & _ & _ & Hs & _). apply Forall_cons in Hs as [Hs _]. by eapply held_acc.
Qed.
Lemma held_opens v d a : holds v d → opens v a ↔ opening_of d a.
Proof using Hjmo.
  intros H. unfold opens, opening_of. rewrite (holds_kind dp jso jmo Hjmo v d H). unfold kind_name. split.
  - intros [E1 E2]. destruct (d_variant d) as [| | |o| | | | | | | |] eqn:Ev; try discriminate E1. exists o. split; [done|].
    rewrite (held_open v d o H Ev) in E2. by injection E2.
  - intros (o & Ev & <-). rewrite Ev. split; [done|]. by apply (held_open v d o).
Qed.
Lemma held_postings v d t : holds v d → d_variant d = DTransaction t →
  ∃ ps, vget "postings" v = Some (VVec ps) ∧ Forall2 (λ p q, vget "acc" p = Some (VStr (ps_acc q)) ∧ plain (ps_acc q) = true) ps (tx_postings t).
Proof using Hjmo.
  intros H Ev. destruct (holds_json dp jso jmo Hjmo v d H) as (js & E & He & fs & [= <-] & _ & _ & _ & _ & _ & Hv).
  rewrite Ev in Hv. cbn [variant_json] in Hv. destruct Hv as (_ & _ & _ & _ & (j & Hj & (pjs & -> & HP))).
  assert (∃ l, vget "postings" v = Some (VVec l) ∧ pjs = map encode l) as (l & El & ->).
  { destruct H as (_ & _ & _ & _ & _ & Hq). rewrite He in Hj. destruct (vget "postings" v) as [[]|]; try done. cbn in Hj. injection Hj as <-. by eexists. }
  exists l. split; [done|]. destruct H as (_ & Hw & _ & _ & _ & Hq). unfold well_shaped, vpostings in *. rewrite El in Hw, Hq.
  apply andb_true_iff in Hw as [_ Hw]. clear -HP Hw Hq Hjmo. revert HP. generalize (tx_postings t). induction l as [|p l IH]; intros qs HP; inversion HP as [|? q ? qs' Hp HP']; subst; [constructor|].
  cbn [forallb] in Hw. apply andb_true_iff in Hw as [Hm Hw]. apply Forall_cons in Hq as [Ht Hq]. constructor; [|by apply IH].
  destruct Hp as (fs & E & _ & _ & Hacc & _). by eapply held_acc.
Qed.
Lemma held_txn v d : holds v d → vget "dct" v = Some (VKw "txn") → ∃ t, d_variant d = DTransaction t.
Proof using Hjmo. intros H Et. apply (holds_txn dp jso jmo Hjmo v d H). unfold is_txn. by rewrite Et. Qed.
Lemma held_posts v d a : holds v d → posts_to v a ↔ posting_to d a.
Proof using Hjmo.
  intros H. unfold posts_to, posting_to. split.
  - intros [E1 (ps & p & Eps & Hp & Ea)]. destruct (held_txn v d H E1) as [t Ev]. destruct (held_postings v d t H Ev) as (ps' & Eps' & HF).
    rewrite Eps in Eps'. injection Eps' as <-. apply elem_of_list_lookup in Hp as [i Hi].
    destruct (Forall2_lookup_l _ _ _ _ _ HF Hi) as (q & Hq & Hacc & _). exists t, q. split; [done|]. split; [by eapply elem_of_list_lookup_2|congruence].
  - intros (t & q & Ev & Hq & <-). destruct (held_postings v d t H Ev) as (ps & Eps & HF). split.
    { rewrite (holds_kind dp jso jmo Hjmo v d H). unfold kind_name. by rewrite Ev. }
    apply elem_of_list_lookup in Hq as [i Hi]. destruct (Forall2_lookup_r _ _ _ _ _ HF Hi) as (p & Hp & Hacc & _).
    exists ps, p. split; [done|]. split; [by eapply elem_of_list_lookup_2|done].
Qed.
Lemma held_named v d : holds v d → accounts_named v.
Proof using Hjmo.
  intros H E ps p Eps Hp. destruct (held_txn v d H E) as [t Ev]. destruct (held_postings v d t H Ev) as (ps' & Eps' & HF).
  rewrite Eps in Eps'. injection Eps' as <-. apply elem_of_list_lookup in Hp as [i Hi].
  destruct (Forall2_lookup_l _ _ _ _ _ HF Hi) as (q & _ & Hacc & _). eauto.
Qed.

(** * Opens which the plugin adds *)
Lemma added_held name v d a o : holds v d → posting_to d a → opened_for name v a o → holds o (filled_in (d_date d) a).
Proof using Hjmo.
  intros H (t & q & Ev & Hq & <-) ([Ho1 Ho2] & Hdate & Hmeta & _ & Hother).
  destruct (held_postings v d t H Ev) as (ps & _ & HF). apply elem_of_list_lookup in Hq as [i Hi]. destruct (Forall2_lookup_r _ _ _ _ _ HF Hi) as (p & _ & _ & Hplain).
  destruct (holds_json dp jso jmo Hjmo v d H) as (js & E & He & fs & [= <-] & _ & (jd & Hjd & Hd) & _).
  rewrite He in Hjd. destruct (vget "date" v) as [w|]; [|done]. cbn in Hjd. injection Hjd as Hjd. cbn [default] in Hdate. unfold id in Hdate.
  assert (Hm : is_map o = true) by (destruct o; done).
  split.
  - apply get_directive_iff. destruct (encode_map' jso jmo Hjmo o Hm) as (js' & -> & He'). exists js'. split; [done|].
    cbn [filled_in d_span d_date d_tags d_links d_metadata d_variant variant_json has_opt op_acc op_currencies op_booking].
    split_and!; try (left; rewrite He', Hother; [done|away]).
    + exists jd. split; [|done]. rewrite He', Hdate. cbn [fmap option_fmap option_map option_list]. by rewrite Hjd.
    + exists (JObj [("auto", JNull)]). rewrite He', Hmeta. cbn [fmap option_fmap option_map option_list]. rewrite (encode_auto jso jmo Hjmo). split; [done|].
      split; [done|]. exists [("auto", JNull)], [("auto", MVNull)]. split; [done|]. split; [by repeat constructor|].
      intros k. rewrite entries_cons. destruct (String.eqb_spec "auto" k) as [<-|Hk]; [by rewrite lookup_singleton|by rewrite lookup_singleton_ne].
    + exists (JStr "open"). rewrite He', Ho1. done.
    + exists (JStr (ps_acc q)). rewrite He', Ho2. done.
  - unfold proper, texts, well_shaped, vpostings, is_txn. rewrite Hm, Ho1, (Hother "postings") by away.
    split; [done|]. split; [by eexists|]. split; [right|split; [|constructor]].
    + rewrite !Forall_cons, !Hother by away. by split_and!.
    + rewrite !Forall_cons, Ho2, !Hother by away. by split_and!.
Qed.
Lemma groups_held (opened : list (list cval)) : ∀ (accs : list (list string)) (vs : list cval) (ds : list directive),
  Forall2 holds vs ds → length opened = length ds → length accs = length ds →
  (∀ i os as_ d, opened !! i = Some os → accs !! i = Some as_ → ds !! i = Some d → Forall2 holds os (filled_in (d_date d) <$> as_)) →
  Forall2 holds (mjoin (zip_with (λ os d, os ++ [d]) opened vs))
                (mjoin (zip_with (λ as_ d, (filled_in (d_date d) <$> as_) ++ [d]) accs ds)).
Proof using.
  induction opened as [|os opened IH]; intros accs vs [|d ds] HF Hl1 Hl2 H; try discriminate Hl1; destruct accs as [|as_ accs]; try discriminate Hl2; inversion HF as [|v ? vs' ? Hv HF']; subst.
  - constructor.
  - cbn [zip_with mjoin list_join]. 
    apply Forall2_app; [apply Forall2_app; [by apply (H 0)|by constructor]|]. apply IH; [done|by injection Hl1|by injection Hl2|].
    intros i ????? . by eapply (H (S i)).
Qed.
Theorem auto_turns spec name vs ds out :
  Forall2 holds vs ds → through spec false (name, auto_accounts) vs = Some out → ∃ l, opens_filled_in ds l ∧ Forall2 holds out l.
Proof using Hjmo.
  intros HF Ht. apply through_auto in Ht.
  2: { eapply Forall2_Forall_l; [exact HF|]. apply Forall_true. intros d v Hv. by eapply held_named. }
  destruct Ht as (opened & Hlen & -> & Hop). pose proof (Forall2_length _ _ _ HF) as Hvd.
  assert (HF1 : ∀ i v d, vs !! i = Some v → ds !! i = Some d → holds v d) by (intros i v d Hv Hd; by apply (Forall2_lookup_lr _ _ _ _ _ _ HF Hv Hd)).
  assert (Hex : ∀ i d, ds !! i = Some d → ∃ v, vs !! i = Some v).
  { intros i d Hd. apply lookup_lt_is_Some_2. rewrite Hvd. by eapply lookup_lt_Some. }
  destruct (choose_each opened (λ i os as_, ∀ v d, vs !! i = Some v → ds !! i = Some d →
      Forall2 (opened_for name v) as_ os ∧ StronglySorted before as_ ∧
      ∀ a, a ∈ as_ ↔ posting_to d a ∧ ∀ j e, j < i → ds !! j = Some e → ¬ opening_of e a ∧ ¬ posting_to e a)) as (accs & Hlen' & Haccs).
  { intros i os Ho. destruct (lookup_lt_is_Some_2 vs i) as [v Hv]; [rewrite <- Hlen; by eapply lookup_lt_Some|].
    destruct (Hop i v os Hv Ho) as (as_ & Hf & Hs & Hin).
    exists as_. intros v' d Hv' Hd. simplify_eq. split; [done|]. split; [done|]. intros a. rewrite Hin, (held_posts v d a) by eauto.
    split; intros [Hp Hb]; (split; [done|]); intros j e Hj He.
    - destruct (Hex j e He) as [w Hw]. rewrite <- (held_opens w e a), <- (held_posts w e a) by eauto. by apply (Hb j).
    - assert (∃ e', ds !! j = Some e') as [e' He']. { apply lookup_lt_is_Some_2. rewrite <- Hvd. by eapply lookup_lt_Some. }
      rewrite (held_opens e e' a), (held_posts e e' a) by eauto. by apply (Hb j). }
  exists (mjoin (zip_with (λ as_ d, (filled_in (d_date d) <$> as_) ++ [d]) accs ds)). split.
  - exists accs. split; [by rewrite Hlen', Hlen|]. split; [done|]. intros i d as_ Hd Ha. destruct (Hex i d Hd) as [v Hv].
    destruct (lookup_lt_is_Some_2 opened i) as [os Ho]; [rewrite Hlen; by eapply lookup_lt_Some|].
    by destruct (Haccs _ _ _ Ho Ha v d Hv Hd) as (_ & ? & ?).
  - apply groups_held; [done|by rewrite Hlen|by rewrite Hlen', Hlen|]. intros i os as_ d Ho Ha Hd. destruct (Hex i d Hd) as [v Hv].
    destruct (Haccs _ _ _ Ho Ha v d Hv Hd) as (Hf & _ & Hin). apply Forall2_fmap_r. apply Forall2_flip.
    assert (∀ a, a ∈ as_ → posting_to d a) as Hp by (intros a Ha'; by apply Hin). pose proof (HF1 i v d Hv Hd) as Hh. clear -Hf Hp Hh Hjmo.
    induction Hf as [|a o as_ os H Hf IH]; constructor.
    + eapply added_held; [done|apply Hp; by left|done].
    + apply IH. intros. apply Hp. by right.
Qed.
End Auto.

(** * Opens come first *)
Lemma mjoin_app {A} (a b : list (list A)) : mjoin (a ++ b) = mjoin a ++ mjoin b.
Proof. induction a as [|x a IH]; [done|]. change (x ++ mjoin (a ++ b) = (x ++ mjoin a) ++ mjoin b). by rewrite IH, (assoc_L (++)). Qed.
Lemma opened_first_mjoin (parts : list (list directive)) (ds : list directive) :
  opened_first ds → length parts = length ds →
  (∀ i d part e a, ds !! i = Some d → parts !! i = Some part → e ∈ part → posting_to e a → posting_to d a) →
  (∀ i d part a, ds !! i = Some d → parts !! i = Some part → opening_of d a → ∃ e, e ∈ part ∧ opening_of e a) →
  opened_first (mjoin parts).
Proof.
  intros Hf Hlen Hp Ho k e a Hk Hpe.
  assert (∃ i part j, parts !! i = Some part ∧ part !! j = Some e ∧ k = length (mjoin (take i parts)) + j) as (i & part & j & Hi & Hj & ->).
  { clear -Hk. revert k Hk. induction parts as [|part parts IH]; intros k Hk; [done|]. change (mjoin (part :: parts)) with (part ++ mjoin parts) in Hk.
    apply lookup_app_Some in Hk as [Hk|[Hle Hk]]; [by exists 0, part, k|].
    destruct (IH _ Hk) as (i & p & j & Hi & Hj & Ek). exists (S i), p, j. split; [done|]. split; [done|].
    change (take (S i) (part :: parts)) with (part :: take i parts). change (mjoin (part :: take i parts)) with (part ++ mjoin (take i parts)).
    rewrite app_length. lia. }
  destruct (lookup_lt_is_Some_2 ds i) as [d Hd]; [rewrite <- Hlen; by eapply lookup_lt_Some|].
  destruct (Hf i d a Hd) as (i' & d' & Hlt & Hd' & Hod); [eapply Hp; [exact Hd|exact Hi| |exact Hpe]; by eapply elem_of_list_lookup_2|].
  destruct (lookup_lt_is_Some_2 parts i') as [part' Hi']; [rewrite Hlen; by eapply lookup_lt_Some|].
  destruct (Ho i' d' part' a Hd' Hi' Hod) as (o & Hin & Hoo). apply elem_of_list_lookup in Hin as [j' Hj'].
  exists (length (mjoin (take i' parts)) + j'), o.
  assert (Hpre : ∃ rest, mjoin (take i parts) = mjoin (take i' parts) ++ part' ++ rest).
  { exists (mjoin (take (i - S i') (drop (S i') parts))).
    rewrite <- (take_drop i' (take i parts)), take_take, Nat.min_l by lia. rewrite skipn_firstn_comm, mjoin_app. f_equal.
    rewrite (drop_S _ part' i') by done. replace (i - i') with (S (i - S i')) by lia. done. }
  destruct Hpre as [rest Hpre]. split; [|split; [|done]].
  - rewrite Hpre, !app_length. apply lookup_lt_Some in Hj'. lia.
  - assert (Hall : mjoin parts = mjoin (take i parts) ++ mjoin (drop i parts)) by by rewrite <- mjoin_app, take_drop.
    rewrite Hall, Hpre, <- !(assoc_L (++)). rewrite lookup_app_r by lia. rewrite Nat.add_comm, Nat.add_sub.
    by rewrite lookup_app_l by (by eapply lookup_lt_Some).
Qed.
Local Instance meets_dec d c : Decision (meets d c).
Proof. destruct c; cbn [meets]; [apply _|destruct (d_variant d); apply _..]. Defined.
Lemma edits_opened_first dp jso jmo xf R ds l : edits dp jso jmo xf R → opened_first ds → edited R ds l → opened_first l.
Proof.
  intros HR Hf (parts & HF & ->). apply (opened_first_mjoin parts ds Hf); [by symmetry; eapply Forall2_length| |];
    intros i d part; [intros e a Hd Hi He|intros a Hd Hi Ho]; pose proof (Forall2_lookup_lr _ _ _ _ _ _ HF Hd Hi) as HRd.
  - revert He. destruct HR as [|config s Hc| |config cs s Hc Ht Hp|config new Hn| |config accs Hph Ha|config Hph].
    + rewrite HRd. by intros ->%elem_of_list_singleton.
    + rewrite HRd. intros ->%elem_of_list_singleton (t & q & Ev & Hq & Ha). unfold with_narration in Ev.
      destruct (d_variant d) as [t'| | | | | | | | | | |] eqn:Ev'; [|congruence..]. injection Ev as <-. by exists t', q.
    + rewrite HRd. intros ->%elem_of_list_singleton (t & q & Ev & Hq & Ha). unfold with_narration in Ev.
      destruct (d_variant d) as [t'| | | | | | | | | | |] eqn:Ev'; [|congruence..]. injection Ev as <-. by exists t', q.
    + destruct HRd as [H1 H2]. destruct (decide (Forall (meets d) cs)) as [Hm|Hm]; [rewrite H1|rewrite H2]; try done; by intros ->%elem_of_list_singleton.
    + rewrite HRd. intros ->%elem_of_list_singleton. by destruct (new (kind_name d)).
    + rewrite HRd. destruct (d_variant d) as [t| | | | | | | | | | |] eqn:Ev; try (by intros ->%elem_of_list_singleton).
      intros [->| ->%elem_of_list_singleton]%elem_of_cons; [|done]. intros (t' & q & Ev' & Hq & Hqa). injection Ev' as <-. cbn [tx_postings] in Hq.
      apply elem_of_list_fmap in Hq as (q' & -> & Hq). by exists t, q'.
    + unfold closed_at_once in HRd. destruct (d_variant d) as [| | |o| | | | | | | |] eqn:Ev; try (rewrite HRd; by intros ->%elem_of_list_singleton).
      destruct HRd as [H1 H2]. destruct (decide (op_acc o ∈ accs)) as [Hm|Hm]; [rewrite H1|rewrite H2]; try done; [|by intros ->%elem_of_list_singleton].
      intros [->| ->%elem_of_list_singleton]%elem_of_cons; [done|]. by intros (? & ? & [=] & _).
    + rewrite HRd. by intros ->%elem_of_list_singleton.
  - destruct Ho as (o & Ev & Hoa).
    destruct HR as [|config s Hc| |config cs s Hc Ht Hp|config new Hn| |config accs Hph Ha|config Hph].
    + rewrite HRd. exists d. split; [by left|by exists o].
    + rewrite HRd. eexists. split; [by left|]. unfold with_narration. rewrite Ev. by exists o.
    + rewrite HRd. eexists. split; [by left|]. unfold with_narration. rewrite Ev. by exists o.
    + destruct HRd as [H1 H2]. destruct (decide (Forall (meets d) cs)) as [Hm|Hm]; [rewrite H1|rewrite H2]; try done; (eexists; split; [by left|by exists o]).
    + rewrite HRd. eexists. split; [by left|]. destruct (new (kind_name d)); by exists o.
    + rewrite HRd, Ev. exists d. split; [by left|by exists o].
    + unfold closed_at_once in HRd. rewrite Ev in HRd.
      destruct HRd as [H1 H2]. destruct (decide (op_acc o ∈ accs)) as [Hm|Hm]; [rewrite H1|rewrite H2]; try done; (eexists; split; [by left|by exists o]).
    + rewrite HRd. exists d. split; [by left|by exists o].
Qed.
Lemma filled_opened_first ds l : opens_filled_in ds l → opened_first l.
Proof.
  intros Hf k d a Hk Hp. destruct (filled_before ds l (take k l) d (drop (S k) l) a Hf) as (o & Ho & Hoo); [by rewrite take_drop_middle|done|].
  apply elem_of_list_lookup in Ho as [i Hi]. apply lookup_take_Some in Hi as [Hi Hlt]. by exists i, o.
Qed.
