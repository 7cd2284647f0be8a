(** Lemmas for [EditProps.v]: what the server reads of what plugins have changed. *)
From Coq Require Import Ascii QArith.
From stdpp Require Import prelude gmap strings.
From Verif Require Import DecModel LedgerTypes IsoModel IsoFacts JsonModel WireModel WireSpec WireFacts SpanModel ParserModel ServerModel
  CljModel InventoryModel ClientModel ClientDecode FormatModel PluginModel PluginSpec PluginFacts PluginMerge LoaderModel
  LoaderSpec EncodeModel EncodeFacts EncodeStable SystemModel SystemFacts SystemErrors SystemTrace AutoLedgerFacts EditModel EditSpec EditFacts.
Import WireSpec.
Local Open Scope nat_scope.

Local Ltac away := first [by intros [=]|refine (bool_decide_unpack _ _); by vm_compute].

Lemma entries_related {A B} (R : string → A → B → Prop) fs kvs k :
  Forall2 (λ (a : string * A) (b : string * B), a.1 = b.1 ∧ R a.1 a.2 b.2) fs kvs → Forall2 (R k) (entries k fs) (entries k kvs).
Proof.
  induction 1 as [|[k1 a] [k2 b] fs kvs [H1 H2] _ IH]; [constructor|]. cbn in H1, H2. subst k2. rewrite !entries_cons.
  destruct (String.eqb_spec k1 k) as [->|]; [by constructor|done].
Qed.
Lemma vget_dissoc_same k m m' : vdissoc k m = Some m' → vget k m' = None.
Proof. destruct m; try done; intros [= <-]; [done|]. cbn [vget]. unfold vfield. by rewrite entries_filter_same. Qed.
Lemma vget_dissoc_other k k' m m' : k ≠ k' → vdissoc k m = Some m' → vget k' m' = vget k' m.
Proof. intros Hk. destruct m; try done; intros [= <-]; [done|]. cbn [vget]. unfold vfield. by rewrite entries_filter_other. Qed.
Lemma vdissoc_map k m m' : vdissoc k m = Some m' → is_map m = true → is_map m' = true.
Proof. destruct m; try done; by intros [= <-]. Qed.
Lemma vassoc_is_map k v m m' : vassoc k v m = Some m' → is_map m' = true.
Proof. destruct m; try done; by intros [= <-]. Qed.
Lemma fields_fold_get k new : ∀ old,
  vget k (VMap (foldl (λ m kv, fields_assoc kv.1 kv.2 m) old new)) =
  match vget k (VMap new) with Some v => Some v | None => vget k (VMap old) end.
Proof.
  cbn [vget]. unfold vfield. induction new as [|[k' v] new IH] using rev_ind; intros old; [done|].
  rewrite foldl_snoc, entries_app, entries_cons. cbn [fst snd entries].
  destruct (String.eqb_spec k' k) as [->|Hk].
  - rewrite entries_assoc_same. change (entries k []) with (@nil cval). by rewrite last_snoc.
  - rewrite entries_assoc_other by done. rewrite IH. change (entries k []) with (@nil cval). by rewrite app_nil_r.
Qed.

Section Read.
Context (dp : string → option dec).
Context (jso : list json → list json) (jmo : list (string * json) → list (string * json)).
Context (Hjso : ∀ l, jso l ≡ₚ l) (Hjmo : ∀ l, jmo l ≡ₚ l).
Notation encode := (encode jso jmo).
Notation holds := (holds dp jso jmo).
Notation makes := (makes dp jso jmo).
Notation holds_metadata := (holds_metadata dp jso jmo).

(** * Metadata *)
Lemma metadata_read v m : is_map v = true → map_json (meta_json dp) (encode v) m ↔ holds_metadata v m.
Proof using Hjmo.
  intros Hv. destruct v as [| | | | | | | | |fs]; try done. clear Hv.
  destruct (encode_map jso jmo Hjmo fs) as (js & Ejs & He).
  split.
  - intros (fs0 & kvs & E & HF & Hm). rewrite Ejs in E. injection E as <-. exists fs. split; [done|]. intros k.
    pose proof (entries_related (λ k j x, plain k = true ∧ meta_json dp j x) _ _ k HF) as HE. rewrite He in HE.
    destruct (vget k (VMap fs)) as [w|]; rewrite Hm; cbn in HE; inversion HE as [|? x ? ? [Hp Hx] HE']; subst; [inversion HE'; subst|done].
    split; [done|]. exists x. by rewrite get_meta_iff.
  - intros (fs1 & [= <-] & Hm). rewrite Ejs.
    assert (Forall (λ kj : string * json, ∃ x, plain kj.1 = true ∧ meta_json dp kj.2 x ∧ m !! kj.1 = Some x) js) as Hjs.
    { apply Forall_forall. intros [k j] Hin. cbn [fst snd]. specialize (Hm k).
      assert (j ∈ entries k js) as Hj. { unfold entries. apply elem_of_list_fmap. exists (k, j). split; [done|]. by apply elem_of_list_filter. }
      rewrite He in Hj. destruct (vget k (VMap fs)) as [w|]; cbn in Hj; [|by apply elem_of_nil in Hj].
      apply elem_of_list_singleton in Hj as ->. destruct Hm as (Hp & x & Hx & Hmx). exists x. by rewrite <- get_meta_iff. }
    assert (∃ kvs : list (string * meta_value), Forall2 (λ (kj : string * json) (kx : string * meta_value), kj.1 = kx.1 ∧ plain kj.1 = true ∧ meta_json dp kj.2 kx.2 ∧ m !! kj.1 = Some kx.2) js kvs) as [kvs HF].
    { clear -Hjs. induction Hjs as [|[k j] js (x & H1 & H2 & H3) _ [kvs IH]]; [exists []; constructor|]. exists ((k, x) :: kvs). by constructor. }
    exists js, kvs. split; [done|]. split.
    { eapply Forall2_impl; [exact HF|]. intros [] []; cbn; tauto. }
    intros k. pose proof (entries_related (λ k j x, plain k = true ∧ meta_json dp j x ∧ m !! k = Some x) _ _ k HF) as HE.
    rewrite He in HE. specialize (Hm k). destruct (vget k (VMap fs)) as [w|]; cbn in HE.
    + inversion HE as [|? x ? ? (_ & _ & Hx) HE']; subst. inversion HE'; subst. done.
    + inversion HE. done.
Qed.

(** * What the client holds of a directive *)
Lemma holds_json v d : holds v d → ∃ js, encode v = JObj js ∧ (∀ k, entries k js = option_list (encode <$> vget k v)) ∧ directive_json dp (JObj js) d.
Proof using Hjmo.
  intros [Hr Hp]. destruct (encode_map' jso jmo Hjmo v (proper_map v Hp)) as (js & E & He). exists js. split; [done|]. split; [done|].
  rewrite <- E. by apply get_directive_iff.
Qed.
Lemma encode_text w s : encode w = JStr s → w = VStr s ∨ w = VKw s ∨ ∃ d, w = VDate d.
Proof. destruct w; try done; cbn; intros [= <-]; eauto. Qed.
Lemma holds_kind v d : holds v d → vget "dct" v = Some (VKw (kind_name d)).
Proof using Hjmo.
  intros H. destruct (holds_json v d H) as (js & E & He & fs & [= <-] & _ & _ & _ & _ & _ & Hv). destruct H as (_ & _ & [k Hk] & _).
  assert (has text_json "dct" js (kind_name d)) as (w & Hw & ->). { unfold kind_name. destruct (d_variant d); cbn [variant_json] in Hv; by destruct_and?. }
  rewrite He, Hk in Hw. cbn in Hw. injection Hw as ->. done.
Qed.
Lemma holds_txn v d : holds v d → is_txn v = true ↔ ∃ t, d_variant d = DTransaction t.
Proof using Hjmo.
  intros H. unfold is_txn. rewrite (holds_kind v d H). unfold kind_name. destruct (d_variant d); cbn; split; eauto; try done; by intros [? ?].
Qed.
Lemma text_get v k js o : (∀ k, entries k js = option_list (encode <$> vget k v)) → has_opt text_json k js o →
  (match vget k v with Some (VKw _) | Some (VDate _) => False | _ => True end) → ∀ s, vget k v = Some (VStr s) ↔ o = Some s.
Proof.
  intros He Ho Hn s. destruct o as [s'|]; cbn [has_opt] in Ho.
  - destruct Ho as (w & Hw & _ & ->). rewrite He in Hw. destruct (vget k v) as [x|]; [|done]. cbn in Hw. injection Hw as Hw.
    apply encode_text in Hw as [->|[->|[d ->]]]; [|done|done]. split; by intros [= ->].
  - split; [|done]. intros E. rewrite He, E in Ho. cbn in Ho. by destruct Ho.
Qed.

(** * Edits *)
(** A directive with other tags or metadata, or without its span. *)
Lemma holds_edit v x d d' :
  holds v d → is_map x = true → (∀ k, k ∉ ["span"; "tags"; "metadata"] → vget k x = vget k v) →
  d_date d' = d_date d → d_variant d' = d_variant d → d_links d' = d_links d →
  (∀ js, (∀ k, entries k js = option_list (encode <$> vget k x)) →
    (vget "span" x = vget "span" v ∧ d_span d' = d_span d ∨ has_opt span_json "span" js (d_span d')) ∧
    (vget "tags" x = vget "tags" v ∧ d_tags d' = d_tags d ∨ has_opt set_json "tags" js (d_tags d')) ∧
    (vget "metadata" x = vget "metadata" v ∧ d_metadata d' = d_metadata d ∨ has_opt (map_json (meta_json dp)) "metadata" js (d_metadata d'))) →
  holds x d'.
Proof using Hjmo.
  intros H Hx Hg Edate Ev Elinks Hnew. destruct (holds_json v d H) as (js & E & He & HD).
  destruct (encode_map' jso jmo Hjmo x Hx) as (js' & E' & He'). destruct (Hnew js' He') as (H1 & H2 & H3).
  assert (Hk : ∀ k, k ∉ ["span"; "tags"; "metadata"] → entries k js' = entries k js) by (intros k Hk; by rewrite He, He', Hg).
  split.
  - apply get_directive_iff. rewrite E'. pose proof HD as HD'. destruct HD' as (fs & [= <-] & D1 & D2 & D3 & D4 & D5 & D6).
    eapply directive_eq; [| |exact Edate|exact Ev|..]; [|exact HD| | | |].
    + intros k Hk'. apply Hk. clear -Hk'. set_solver.
    + destruct H1 as [[Eg ->]|H1]; [|done]. eapply has_opt_eq; [|exact D1]. by rewrite (He "span"), (He' "span"), Eg.
    + destruct H2 as [[Eg ->]|H2]; [|done]. eapply has_opt_eq; [|exact D3]. by rewrite (He "tags"), (He' "tags"), Eg.
    + rewrite Elinks. eapply has_opt_eq; [|exact D4]. apply Hk. away.
    + destruct H3 as [[Eg ->]|H3]; [|done]. eapply has_opt_eq; [|exact D5]. by rewrite (He "metadata"), (He' "metadata"), Eg.
  - destruct H as (_ & Hw & Hkind & Ht & Hs & Hq). unfold proper, texts, well_shaped, vpostings, is_txn in *.
    rewrite Hx, (Hg "postings"), (Hg "dct") by away. split; [by apply andb_true_iff in Hw as [_ ->]|]. split; [done|]. split.
    + destruct Ht as [Ht|Ht]; [by left|right]. revert Ht. rewrite !Forall_cons, (Hg "postings"), (Hg "payee"), (Hg "narration") by away.
      intros (?&?&?&_). by split_and!.
    + revert Hs. rewrite !Forall_cons, (Hg "acc"), (Hg "payee"), (Hg "narration") by away.
      intros (H4 & H5 & H6 & _). split_and!; [exact H4|exact H5|exact H6|constructor|exact Hq].
Qed.

Theorem identity_makes : makes (λ _, Some [Same]) unchanged.
Proof. intros v d es H [= <-]. exists [d]. split; [done|]. constructor; [done|constructor]. Qed.

Theorem set_narration_makes s : makes (set_narration_step (VStr s)) (narrated s).
Proof using Hjmo.
  intros v d es H. unfold set_narration_step. destruct (is_txn v) eqn:Et.
  2: { intros [= <-]. exists [d]. split; [|constructor; [done|constructor]]. unfold narrated, with_narration. destruct (d_variant d) eqn:Ev; try done.
       assert (is_txn v = true) by (apply (holds_txn v d H); eauto). congruence. }
  pose proof (proj1 (holds_txn v d H) Et) as [t Ev].
  destruct (vassoc "narration" (VStr s) v) as [x|] eqn:Ex; [|done]. intros [= <-]. exists [with_narration s d]. split; [done|].
  constructor; [|constructor]. cbn [item_holds]. split.
  - apply get_directive_iff. destruct (holds_json v d H) as (js & E & He & fs & [= <-] & H1 & H2 & H3 & H4 & H5 & H6).
    destruct (encode_map' jso jmo Hjmo x (vassoc_is_map _ _ _ _ Ex)) as (js' & E' & He').
    rewrite E'. exists js'. split; [done|]. unfold with_narration. rewrite Ev in H6 |- *. cbn [d_span d_date d_tags d_links d_metadata d_variant].
    assert (Hk : ∀ k, k ≠ "narration" → entries k js' = entries k js).
    { intros k Hk. rewrite He, He'. by rewrite (vget_vassoc_other "narration" k _ _ _ (not_eq_sym Hk) Ex). }
    cbn [variant_json tx_flag tx_payee tx_narration tx_postings] in H6 |- *. destruct H6 as (H6 & H7 & H8 & H9 & H10).
    split_and!; try (eapply has_eq; [apply Hk; away|eassumption]); try (eapply has_opt_eq; [apply Hk; away|eassumption]).
    cbn [has_opt]. exists (JStr s). rewrite He', (vget_vassoc_same _ _ _ _ Ex). done.
  - assert (Hg : ∀ k, k ≠ "narration" → vget k x = vget k v) by (intros k Hk; by apply (vget_vassoc_other "narration" k _ _ _ (not_eq_sym Hk) Ex)).
    destruct H as (_ & Hw & Hkind & Ht & Hs & Hq). unfold proper, texts, well_shaped, vpostings, is_txn in *.
    rewrite (vassoc_is_map _ _ _ _ Ex), (Hg "postings"), (Hg "dct") by away. split; [by apply andb_true_iff in Hw as [_ ->]|]. split; [done|]. split; [by left|].
    revert Hs. rewrite !Forall_cons, (Hg "acc"), (Hg "payee") by away. rewrite (vget_vassoc_same _ _ _ _ Ex).
    intros (H4 & H5 & _). split_and!; [exact H4|exact H5|done|constructor|exact Hq].
Qed.

Lemma simple_eq_text w s : simple_eq w (VStr s) = true ↔ w = VStr s.
Proof. destruct w; cbn; split; try done; [by intros ->%String.eqb_eq|]. intros [= ->]. apply String.eqb_refl. Qed.
Lemma simple_eq_keyword w s : simple_eq w (VKw s) = true ↔ w = VKw s.
Proof. destruct w; cbn; split; try done; [by intros ->%String.eqb_eq|]. intros [= ->]. apply String.eqb_refl. Qed.
Lemma holds_payee v d s : holds v d → vget "payee" v = Some (VStr s) ↔ meets d (HasPayee s).
Proof using Hjmo.
  intros H. pose proof (holds_txn v d H) as Htx. destruct (holds_json v d H) as (js & E & He & fs & [= <-] & _ & _ & _ & _ & _ & H6).
  destruct H as (_ & _ & _ & Ht & Hs & _). unfold texts in Hs. rewrite !Forall_cons in Hs. destruct Hs as (_ & Hs & _). cbn [meets].
  destruct (d_variant d) as [t| | | | | | | | | | |];
    try (destruct Ht as [Ht|Ht]; [apply Htx in Ht as [? ?]; done|]; rewrite !Forall_cons in Ht; destruct Ht as (_ & -> & _); done).
  cbn [variant_json] in H6. destruct H6 as (_ & _ & H6 & _). by apply (text_get v "payee" js).
Qed.
Lemma holds_narration v d s : holds v d → vget "narration" v = Some (VStr s) ↔ meets d (HasNarration s).
Proof using Hjmo.
  intros H. pose proof (holds_txn v d H) as Htx. destruct (holds_json v d H) as (js & E & He & fs & [= <-] & _ & _ & _ & _ & _ & H6).
  destruct H as (_ & _ & _ & Ht & Hs & _). unfold texts in Hs. rewrite !Forall_cons in Hs. destruct Hs as (_ & _ & Hs & _). cbn [meets].
  destruct (d_variant d) as [t| | | | | | | | | | |];
    try (destruct Ht as [Ht|Ht]; [apply Htx in Ht as [? ?]; done|]; rewrite !Forall_cons in Ht; destruct Ht as (_ & _ & -> & _); done).
  cbn [variant_json] in H6. destruct H6 as (_ & _ & _ & H6 & _). by apply (text_get v "narration" js).
Qed.
Lemma matches_meets v d cs : holds v d → matches (configured <$> cs) v = true ↔ Forall (meets d) cs.
Proof using Hjmo.
  intros H. unfold matches. induction cs as [|c cs IH]; [by split; constructor|].
  rewrite fmap_cons, Forall_cons. cbn [forallb]. rewrite andb_true_iff, IH. apply and_iff_compat_r. clear IH.
  destruct c as [k|s|s]; cbn [configured fst snd].
  - rewrite (holds_kind v d H), simple_eq_keyword. cbn [meets]. destruct (d_variant d); (split; [by intros [= ->]|by intros ->]).
  - rewrite <- (holds_payee v d s H). destruct (vget "payee" v) as [w|]; [|done]. rewrite simple_eq_text. split; [by intros ->|by intros [= ->]].
  - rewrite <- (holds_narration v d s H). destruct (vget "narration" v) as [w|]; [|done]. rewrite simple_eq_text. split; [by intros ->|by intros [= ->]].
Qed.

(** Tags. *)
Lemma set_json_in l X : set_json (JArr l) X ↔
  Forall (λ j, ∃ s, name_json j s) l ∧ ∀ s, s ∈ X ↔ JStr s ∈ l.
Proof.
  split.
  - intros (ns & (js & [= <-] & HF) & HX). split.
    + eapply Forall2_Forall_l; [exact HF|]. apply Forall_true. eauto.
    + intros s. rewrite HX. clear -HF. induction HF as [|j n js ns [-> _] _ IH]; [by split; intros ?%elem_of_nil|].
      rewrite !elem_of_cons, IH. split; (intros [H|H]; [left|by right]); congruence.
  - intros [HF HX]. assert (∃ ns, Forall2 name_json l ns) as [ns HN].
    { clear -HF. induction HF as [|j l [s Hs] _ [ns IH]]; [exists []; constructor|]. exists (s :: ns). by constructor. }
    exists ns. split; [by eexists|]. intros s. rewrite HX. clear -HN. induction HN as [|j n js ns [-> _] _ IH]; [by split; intros ?%elem_of_nil|].
    rewrite !elem_of_cons, IH. split; (intros [H|H]; [left|by right]); congruence.
Qed.
Lemma set_add l l' X s : plain s = true → l' ≡ₚ JStr s :: l → set_json (JArr l) X → set_json (JArr l') ({[s]} ∪ X).
Proof.
  intros Hs Hp. rewrite !set_json_in. intros [HF HX]. split.
  - rewrite Hp. constructor; [by exists s|done].
  - intros n. rewrite Hp, elem_of_cons, elem_of_union, elem_of_singleton, HX. split; (intros [H|H]; [left|by right]); congruence.
Qed.
Theorem tag_matching_makes cs s : plain s = true → makes (tag_matching_step (configured <$> cs) (VStr s)) (tagged cs s).
Proof using Hjso Hjmo.
  intros Hs v d es H. pose proof (matches_meets v d cs H) as Hmm. unfold tag_matching_step.
  destruct (matches _ v) eqn:Em.
  2: { intros [= <-]. exists [d]. split; [|constructor; [done|constructor]]. split; [intros Hc%Hmm; done|done]. }
  assert (Hc : Forall (meets d) cs) by by apply Hmm.
  intros Hes. exists [with_tag s d]. split; [by split|].
  destruct (holds_json v d H) as (js & E & He & fs & [= <-] & _ & _ & HT & _).
  (* a new map *)
  assert (Hnew : ∀ ts x, vassoc "tags" ts v = Some x → ts ≠ VNil → set_json (encode ts) ({[s]} ∪ default ∅ (d_tags d)) → holds x (with_tag s d)).
  { intros ts x Ex Hts Hset. eapply holds_edit; [exact H|by eapply vassoc_is_map| |done..|].
    - intros k Hk. eapply vget_vassoc_other; [|exact Ex]. intros <-. apply Hk. away.
    - intros js' He'. split; [left; split; [|done]; eapply vget_vassoc_other; [|exact Ex]; done|]. split.
      + right. cbn [with_tag d_tags has_opt]. exists (encode ts). rewrite He', (vget_vassoc_same _ _ _ _ Ex). split; [done|]. split; [|done].
        destruct Hset as (? & (? & -> & _) & _). done.
      + left; split; [|done]; eapply vget_vassoc_other; [|exact Ex]; done. }
  assert (Hnone : ∀ w, vget "tags" v = Some w → encode w = JNull → d_tags d = None).
  { intros w Ew Ejn. destruct (d_tags d); [|done]. cbn [has_opt] in HT. destruct HT as (j & Hj & Hn & _). rewrite He, Ew in Hj. cbn in Hj. injection Hj as <-. done. }
  assert (Hsingle : d_tags d = None → set_json (encode (VSet [VStr s])) ({[s]} ∪ default ∅ (d_tags d))).
  { intros ->. cbn [EncodeModel.encode map default]. eapply set_add; [done|by rewrite (Hjso [JStr s])|]. apply set_json_in. split; [constructor|]. intros n. split; [by intros ?%elem_of_empty|by intros ?%elem_of_nil]. }
  destruct (vget "tags" v) as [w|] eqn:Ew.
  2: { cbn [conj_tag] in Hes. destruct (vassoc "tags" (VSet [VStr s]) v) as [x|] eqn:Ex; [|done]. injection Hes as <-. constructor; [|constructor]. cbn [item_holds].
       eapply Hnew; [done|done|]. apply Hsingle. destruct (d_tags d); [|done]. cbn [has_opt] in HT. destruct HT as (j & Hj & _). rewrite He, Ew in Hj. done. }
  assert (Hcoll : ∀ l, w = VSet l ∨ w = VVec l → ∃ js, js ≡ₚ map encode l ∧ encode w = JArr js ∧ ∃ X, d_tags d = Some X ∧ set_json (JArr js) X).
  { intros l Hl. destruct (d_tags d) as [X|]; cbn [has_opt] in HT.
    - destruct HT as (j & Hj & _ & HX). rewrite He, Ew in Hj. cbn in Hj. injection Hj as Hj.
      destruct Hl as [->| ->]; cbn [EncodeModel.encode] in Hj |- *; rewrite <- Hj in HX; eexists; (split; [|split; [done|eauto]]); [apply Hjso|done].
    - rewrite He, Ew in HT. cbn in HT. by destruct HT as [HT|HT]; [|destruct Hl as [->| ->]]. }
  destruct w as [|[]| | | | | |l|l|]; cbn [conj_tag] in Hes; try done.
  - destruct (vassoc "tags" (VSet [VStr s]) v) as [x|] eqn:Ex; [|done]. injection Hes as <-. constructor; [|constructor]. cbn [item_holds].
    eapply Hnew; [done|done|]. apply Hsingle. by eapply Hnone.
  - exfalso. destruct (d_tags d); cbn [has_opt] in HT; rewrite He, Ew in HT; cbn in HT; [destruct HT as (j & [= <-] & _ & ? & (? & ? & _) & _)|destruct HT]; done.
  - destruct (vassoc "tags" _ v) as [x|] eqn:Ex; [|done]. injection Hes as <-. constructor; [|constructor]. cbn [item_holds].
    eapply Hnew; [done|done|]. destruct (Hcoll l) as (js' & Hp & Ejs & X & HX & HS); [by right|]. rewrite HX. cbn [default EncodeModel.encode].
    eapply set_add; [done| |exact HS]. rewrite map_app, Hp. cbn [map EncodeModel.encode]. by rewrite Permutation_app_comm.
  - destruct (Hcoll l) as (js' & Hp & Ejs & X & HX & HS); [by left|]. destruct (existsb _ l) eqn:Ein.
    + injection Hes as <-. constructor; [|constructor]. cbn [item_holds].
      assert (with_tag s d = d) as ->; [|done]. unfold with_tag. rewrite HX. cbn [default].
      assert (s ∈ X) as HsX.
      { apply set_json_in in HS as [_ HS]. apply HS. rewrite Hp. apply existsb_exists in Ein as (w & Hw & Heq).
        destruct w; try done. cbn in Heq. apply String.eqb_eq in Heq as <-. apply elem_of_list_In. by apply (in_map encode) in Hw. }
      destruct d as [sp da tg li me va]. cbn [d_span d_date d_tags d_links d_metadata d_variant] in *. subst tg. f_equal. f_equal.
      apply set_eq. intros n. rewrite elem_of_union, elem_of_singleton. split; [intros [->|?]; done|by right].
    + destruct (vassoc "tags" _ v) as [x|] eqn:Ex; [|done]. injection Hes as <-. constructor; [|constructor]. cbn [item_holds].
      eapply Hnew; [done|done|]. rewrite HX. cbn [default EncodeModel.encode]. eapply set_add; [done| |exact HS].
      rewrite Hjso, map_app, Hp. cbn [map EncodeModel.encode]. by rewrite Permutation_app_comm.
Qed.

(** Metadata. *)
Lemma metadata_old v d w : holds v d → vget "metadata" v = Some w → is_map w = true → ∃ m, d_metadata d = Some m ∧ holds_metadata w m.
Proof using Hjmo.
  intros H Ew Hw. destruct (holds_json v d H) as (js & E & He & fs & [= <-] & _ & _ & _ & _ & HM & _).
  destruct (d_metadata d) as [m|]; cbn [has_opt] in HM; rewrite He, Ew in HM; cbn in HM.
  - destruct HM as (j & [= <-] & _ & HM). exists m. split; [done|]. by apply metadata_read.
  - exfalso. destruct w; try done. by destruct HM.
Qed.
Lemma metadata_none v d : holds v d → vget "metadata" v = None ∨ vget "metadata" v = Some VNil → d_metadata d = None.
Proof using Hjmo.
  intros H Hn. destruct (holds_json v d H) as (js & E & He & fs & [= <-] & _ & _ & _ & _ & HM & _).
  destruct (d_metadata d) as [m|]; [|done]. cbn [has_opt] in HM. destruct HM as (j & Hj & Hjn & _). rewrite He in Hj.
  destruct Hn as [Hn|Hn]; rewrite Hn in Hj; [done|]. cbn in Hj. injection Hj as <-. done.
Qed.
Lemma metadata_merge old new m0 m : holds_metadata (VMap old) m0 → holds_metadata (VMap new) m →
  holds_metadata (VMap (foldl (λ m kv, fields_assoc kv.1 kv.2 m) old new)) (m ∪ m0).
Proof.
  intros (? & _ & H0) (? & _ & H1). eexists. split; [done|]. intros k. rewrite fields_fold_get. specialize (H0 k). specialize (H1 k).
  destruct (vget k (VMap new)) as [w|].
  - destruct H1 as (Hp & y & Hy & Hm). split; [done|]. exists y. split; [done|]. by apply lookup_union_Some_l.
  - rewrite lookup_union_r by done. exact H0.
Qed.
Lemma metadata_write v x d m' w : holds v d → vassoc "metadata" w v = Some x → holds_metadata w m' →
  holds x (Directive (d_span d) (d_date d) (d_tags d) (d_links d) (Some m') (d_variant d)).
Proof using Hjmo.
  intros H Ex Hw. eapply holds_edit; [exact H|by eapply vassoc_is_map| |done..|].
  - intros k Hk. eapply vget_vassoc_other; [|exact Ex]. intros <-. apply Hk. away.
  - intros js' He'. split; [left; split; [|done]; eapply vget_vassoc_other; [|exact Ex]; done|].
    split; [left; split; [|done]; eapply vget_vassoc_other; [|exact Ex]; done|]. right. cbn [d_metadata has_opt].
    exists (encode w). rewrite He', (vget_vassoc_same _ _ _ _ Ex). split; [done|]. destruct Hw as (fs & -> & Hw).
    split; [by destruct (encode_map jso jmo Hjmo fs) as (js & -> & _)|]. apply metadata_read; [done|]. by exists fs.
Qed.
Theorem set_metadata_makes config new :
  (∀ kind, match config ≫= vget kind with
           | Some c => ∃ m, new kind = Some m ∧ holds_metadata c m
           | None => new kind = None
           end) →
  makes (set_metadata_step config) (annotated new).
Proof using Hjmo.
  intros Hnew v d es H. unfold set_metadata_step. rewrite (holds_kind v d H). specialize (Hnew (kind_name d)). unfold annotated.
  destruct config as [c|]; cbn [mbind option_bind] in Hnew.
  2: { intros [= <-]. exists [d]. rewrite Hnew. split; [done|]. constructor; [done|constructor]. }
  destruct (vget (kind_name d) c) as [n|].
  2: { intros [= <-]. exists [d]. rewrite Hnew. split; [done|]. constructor; [done|constructor]. }
  destruct Hnew as (m & -> & Hm). destruct (vmerge _ n) as [w|] eqn:Ew; [|done]. cbn [mbind option_bind].
  destruct (vassoc "metadata" w v) as [x|] eqn:Ex; [|done]. intros [= <-]. eexists. split; [done|]. constructor; [|constructor]. cbn [item_holds].
  eapply metadata_write; [done..|]. pose proof Hm as Hm'. destruct Hm' as (fs & -> & _).
  destruct (vget "metadata" v) as [o|] eqn:Eo; [destruct o as [| | | | | | | | |old]; try done|]; cbn [vmerge] in Ew; injection Ew as <-.
  - rewrite (metadata_none v d H) by by right. cbn [default]. by rewrite (right_id_L ∅ (∪)).
  - destruct (metadata_old v d _ H Eo eq_refl) as (m0 & -> & Hm0). cbn [default]. by apply metadata_merge.
  - rewrite (metadata_none v d H) by by left. cbn [default]. by rewrite (right_id_L ∅ (∪)).
Qed.

(** Copies. *)
Lemma posting_nowhere p q x : is_map p = true → vdissoc "span" p = Some q → posting_json dp (encode p) x → posting_json dp (encode q) (nowhere x).
Proof using Hjmo.
  intros Hp Hq. destruct (encode_map' jso jmo Hjmo _ Hp) as (js & -> & He).
  destruct (encode_map' jso jmo Hjmo _ (vdissoc_map _ _ _ Hq Hp)) as (js' & -> & He').
  intros (fs & [= <-] & H1 & H2 & H3 & H4 & H5 & H6 & H7 & H8 & H9 & H10). exists js'. split; [done|].
  assert (Hk : ∀ k, k ≠ "span" → entries k js' = entries k js).
  { intros k Hk. rewrite He, He'. by rewrite (vget_dissoc_other "span" k _ _ (not_eq_sym Hk) Hq). }
  cbn [nowhere ps_span ps_flag ps_acc ps_units ps_cur ps_cost ps_price ps_tags ps_links ps_metadata].
  split_and!; try (eapply has_eq; [apply Hk; away|eassumption]); try (eapply has_opt_eq; [apply Hk; away|eassumption]).
  left. rewrite He', (vget_dissoc_same _ _ _ Hq). done.
Qed.
Lemma metadata_dup v d w : holds v d → vassoc "dup" VNil (default VNil (vget "metadata" v)) = Some w →
  holds_metadata w (<["dup" := MVNull]> (default ∅ (d_metadata d))).
Proof using Hjmo.
  intros H Ew.
  assert (∃ old m0, d_metadata d = m0 ∧ holds_metadata (VMap old) (default ∅ m0) ∧ w = VMap (fields_assoc "dup" VNil old)) as (old & m0 & -> & Ho & ->).
  { assert (holds_metadata (VMap []) ∅) as Hempty. { exists []. split; [done|]. intros k. apply lookup_empty. }
    destruct (vget "metadata" v) as [o|] eqn:Eo; [destruct o as [| | | | | | | | |old]; try done|]; cbn [default vassoc] in Ew; injection Ew as <-.
    - exists [], None. rewrite (metadata_none v d H) by by right. done.
    - destruct (metadata_old v d _ H Eo eq_refl) as (m0 & -> & Hm0). by exists old, (Some m0).
    - exists [], None. rewrite (metadata_none v d H) by by left. done. }
  eexists. split; [done|]. intros k. destruct Ho as (? & _ & Ho). specialize (Ho k).
  destruct (decide (k = "dup")) as [->|Hk].
  - cbn [vget]. unfold vfield. rewrite entries_assoc_same. cbn [last]. split; [done|]. exists MVNull. split; [done|]. by rewrite lookup_insert.
  - cbn [vget] in *. unfold vfield in *. rewrite entries_assoc_other, lookup_insert_ne by done. done.
Qed.
Theorem duplicate_txns_makes : makes duplicate_txns_step duplicated.
Proof using Hjmo.
  intros v d es H. unfold duplicate_txns_step, duplicated. destruct (is_txn v) eqn:Et.
  2: { intros [= <-]. exists [d]. split; [|constructor; [done|constructor]]. destruct (d_variant d) eqn:Ev; try done.
       assert (is_txn v = true) by (apply (holds_txn v d H); eauto). congruence. }
  pose proof (proj1 (holds_txn v d H) Et) as [t Ev]. rewrite Ev.
  destruct (duplicate_of v) as [x|] eqn:Ex; [|done]. intros [= <-]. exists [copy_of d t; d]. split; [done|].
  constructor; [|constructor; [done|constructor]]. cbn [item_holds].
  unfold duplicate_of in Ex. destruct (vdissoc "span" v) as [d1|] eqn:E1; [|done]. cbn [mbind option_bind] in Ex.
  destruct (match vget "postings" d1 with None | Some VNil => _ | Some (VVec l) => _ | Some _ => _ end) as [ps|] eqn:Eps; [|done]. cbn [mbind option_bind] in Ex.
  destruct (vassoc "postings" (VVec ps) d1) as [d2|] eqn:E2; [|done]. cbn [mbind option_bind] in Ex.
  destruct (vassoc "dup" VNil _) as [w|] eqn:Ew; [|done]. cbn [mbind option_bind] in Ex.
  assert (Hg1 : ∀ k, k ≠ "span" → vget k d1 = vget k v) by (intros k Hk; by apply (vget_dissoc_other "span" k _ _ (not_eq_sym Hk) E1)).
  assert (Hg : ∀ k, k ∉ ["span"; "postings"; "metadata"] → vget k x = vget k v).
  { intros k Hk. rewrite (vget_vassoc_other "metadata" k _ _ _ ltac:(intros <-; apply Hk; away) Ex).
    rewrite (vget_vassoc_other "postings" k _ _ _ ltac:(intros <-; apply Hk; away) E2). apply Hg1. intros ->. apply Hk. away. }
  rewrite (vget_vassoc_other "postings" "metadata" _ _ _ ltac:(done) E2), Hg1 in Ew by done.
  pose proof (metadata_dup v d w H Ew) as Hw.
  assert (Hsp : vget "span" x = None).
  { rewrite (vget_vassoc_other "metadata" "span" _ _ _ ltac:(done) Ex), (vget_vassoc_other "postings" "span" _ _ _ ltac:(done) E2). by eapply vget_dissoc_same. }
  assert (Hpx : vget "postings" x = Some (VVec ps)).
  { rewrite (vget_vassoc_other "metadata" "postings" _ _ _ ltac:(done) Ex). by eapply vget_vassoc_same. }
  rewrite Hg1 in Eps by done.
  destruct (holds_json v d H) as (js & E & He & fs & [= <-] & H1 & H2 & H3 & H4 & H5 & H6). rewrite Ev in H6.
  cbn [variant_json] in H6. destruct H6 as (H6 & H7 & H8 & H9 & (j & Hj & (pjs & -> & HP))).
  assert (∃ l, vget "postings" v = Some (VVec l) ∧ pjs = map encode l) as (l & El & ->).
  { rewrite He in Hj. destruct (vget "postings" v) as [[]|]; try done. cbn in Hj. injection Hj as <-. eauto. }
  rewrite El in Eps. apply mapM_Some in Eps.
  assert (Hl : forallb is_map l = true).
  { destruct H as (_ & Hws & _). unfold well_shaped, vpostings in Hws. rewrite El in Hws. by apply andb_true_iff in Hws as [_ ?]. }
  split.
  - apply get_directive_iff. destruct (encode_map' jso jmo Hjmo x (vassoc_is_map _ _ _ _ Ex)) as (js' & E' & He').
    assert (Hk : ∀ k, k ∉ ["span"; "postings"; "metadata"] → entries k js' = entries k js) by (intros k Hk; by rewrite He, He', Hg).
    rewrite E'. exists js'. split; [done|].
    cbn [copy_of d_span d_date d_tags d_links d_metadata d_variant variant_json tx_flag tx_payee tx_narration tx_postings].
    split_and!; try (eapply has_eq; [apply Hk; away|eassumption]); try (eapply has_opt_eq; [apply Hk; away|eassumption]).
    + left. by rewrite He', Hsp.
    + exists (encode w). rewrite He', (vget_vassoc_same _ _ _ _ Ex). split; [done|]. pose proof Hw as Hw'. destruct Hw' as (fs & -> & _).
      split; [by destruct (encode_map jso jmo Hjmo fs) as (? & -> & _)|]. by apply metadata_read.
    + exists (JArr (map encode ps)). rewrite He', Hpx. split; [done|]. eexists. split; [done|].
      clear -Eps HP Hl Hjmo. revert HP. generalize (tx_postings t). revert Hl. induction Eps as [|p q l ps Hq _ IH]; intros Hl qs HP; inversion HP; subst; [constructor|].
      cbn [forallb] in Hl. apply andb_true_iff in Hl as [Hp Hl]. rewrite fmap_cons. cbn [map]. constructor; [|by apply IH]. by eapply posting_nowhere.
  - destruct H as (_ & Hws & Hkind & Ht & Hs & Hq). unfold proper, texts, well_shaped, vpostings, is_txn in *.
    rewrite Hpx, (vassoc_is_map _ _ _ _ Ex), (Hg "dct") by away. split; [|split; [done|split; [by left|]]].
    + cbn [andb]. clear -Eps Hl. induction Eps as [|p q l ps Hq _ IH]; [done|]. cbn [forallb] in *. apply andb_true_iff in Hl as [Hp Hl].
      rewrite (vdissoc_map _ _ _ Hq Hp). by apply IH.
    + revert Hs. rewrite !Forall_cons, (Hg "acc"), (Hg "payee"), (Hg "narration") by away.
      intros (Ha & Hb & Hc & _). split_and!; [exact Ha|exact Hb|exact Hc|constructor|].
      rewrite El in Hq. clear -Eps Hq. induction Eps as [|p q l ps Hd _ IH]; [constructor|]. apply Forall_cons in Hq as [Hp Hq]. constructor; [|by apply IH].
      rewrite (vget_dissoc_other "span" "acc" p q); [done|by intros [=]|done].
Qed.

(** Closes. *)
Lemma existsb_text a accs : existsb (simple_eq (VStr a)) (VStr <$> accs) = true ↔ a ∈ accs.
Proof.
  rewrite existsb_exists. split.
  - intros (w & Hw & Heq). apply elem_of_list_In, elem_of_list_fmap in Hw as (b & -> & Hb). cbn in Heq. by apply String.eqb_eq in Heq as ->.
  - intros Ha. exists (VStr a). split; [apply elem_of_list_In, elem_of_list_fmap; eauto|]. apply String.eqb_refl.
Qed.
Theorem auto_close_makes phase config accs :
  config ≫= vget "phase" = Some (VKw phase) → config ≫= vget "accs" = Some (VSet (VStr <$> accs)) →
  makes (auto_close_step phase config) (closed_at_once accs).
Proof using Hjmo.
  intros Hph Hac v d es H. unfold auto_close_step. rewrite Hph, Hac, String.eqb_refl. cbn [andb]. rewrite (holds_kind v d H). unfold closed_at_once.
  assert (Hsame : ∀ R : edit, R d [d] → Some [Same] = Some es → ∃ ds, R d ds ∧ Forall2 (item_holds dp jso jmo v) es ds).
  { intros R HR [= <-]. exists [d]. split; [done|]. constructor; [done|constructor]. }
  destruct (holds_json v d H) as (js & E & He & fs & [= <-] & H1 & H2 & H3 & H4 & H5 & H6).
  pose proof H as (_ & _ & _ & _ & Hs & _). unfold texts in Hs. rewrite !Forall_cons in Hs. destruct Hs as (Hs & _).
  unfold kind_name. destruct (d_variant d) as [| | |o| | | | | | | |] eqn:Ev; cbn [andb String.eqb Ascii.eqb Bool.eqb]; try by apply (Hsame (λ d ds, ds = [d])).
  cbn [variant_json] in H6. destruct H6 as (_ & (j & Hj & -> & Hplain) & _). rewrite He in Hj.
  assert (vget "acc" v = Some (VStr (op_acc o))) as Ha.
  { destruct (vget "acc" v) as [w|]; [|done]. cbn in Hj. injection Hj as Hj. by apply encode_text in Hj as [->|[->|[? ->]]]. }
  rewrite Ha. cbn [default]. destruct (existsb _ _) eqn:Ein.
  2: { apply (Hsame (λ d ds, (op_acc o ∈ accs → ds = [d; _]) ∧ (op_acc o ∉ accs → ds = [d]))). split; [|done]. intros Hin. apply existsb_text in Hin. unfold id in Ein. congruence. }
  apply existsb_text in Ein. intros [= <-].
  exists [d; Directive None (d_date d) None None None (DClose (op_acc o))]. split; [done|].
  constructor; [done|constructor; [|constructor]]. cbn [item_holds].
  destruct H2 as (jd & Hjd & Hdate). rewrite He in Hjd. destruct (vget "date" v) as [w|]; [|done]. cbn in Hjd. injection Hjd as Hjd.
  cbn [default]. set (x := VMap _). split.
  - apply get_directive_iff. destruct (encode_map' jso jmo Hjmo x eq_refl) as (js' & -> & He'). exists js'. split; [done|].
    cbn [d_span d_date d_tags d_links d_metadata d_variant variant_json has_opt].
    split_and!; try (left; rewrite He'; done).
    + exists jd. split; [|done]. rewrite He'. assert (vget "date" x = Some w) as -> by done. cbn [fmap option_fmap option_map option_list]. by rewrite Hjd.
    + exists (JStr "close"). by rewrite He'.
    + exists (JStr (op_acc o)). by rewrite He'.
  - split; [done|]. split; [by eexists|]. split; [right; by repeat constructor|]. by repeat constructor.
Qed.
Theorem auto_close_other phase config : config ≫= vget "phase" ≠ Some (VKw phase) → makes (auto_close_step phase config) unchanged.
Proof.
  intros Hph v d es H. unfold auto_close_step.
  assert ((match config ≫= vget "phase" with Some (VKw p) => String.eqb p phase | _ => false end) = false) as ->.
  { destruct (config ≫= vget "phase") as [[]|]; try done. apply String.eqb_neq. congruence. }
  cbn [andb]. intros [= <-]. exists [d]. split; [done|]. constructor; [done|constructor].
Qed.
(** Errors do not reach the server. *)
Theorem fail_makes cs message : makes (fail_step (configured <$> cs) message) unchanged.
Proof using Hjmo.
  intros v d es H. unfold fail_step. destruct (matches _ v).
  2: { intros [= <-]. exists [d]. split; [done|]. constructor; [done|constructor]. }
  destruct (dct_error _ _ v) as [x|] eqn:Ex; [|done]. intros [= <-]. exists [d]. split; [done|]. constructor; [|constructor]. cbn [item_holds].
  unfold dct_error in Ex.
  assert (∃ l, vassoc "err" l v = Some x) as [l Hl]. { destruct (vget "err" v) as [[]|]; try done; cbn [mbind option_bind] in Ex; eauto. }
  assert (Hg : ∀ k, k ≠ "err" → vget k x = vget k v) by (intros k Hk; by apply (vget_vassoc_other "err" k _ _ _ (not_eq_sym Hk) Hl)).
  split.
  - apply get_directive_iff. destruct (holds_json v d H) as (js & E & He & fs & [= <-] & H1 & H2 & H3 & H4 & H5 & H6).
    destruct (encode_map' jso jmo Hjmo x (vassoc_is_map _ _ _ _ Hl)) as (js' & -> & He'). exists js'. split; [done|].
    assert (Hk : ∀ k, k ≠ "err" → entries k js' = entries k js) by (intros k Hk; by rewrite He, He', Hg).
    split_and!; try (eapply has_eq; [apply Hk; away|eassumption]); try (eapply has_opt_eq; [apply Hk; away|eassumption]).
    destruct (d_variant d); cbn [variant_json] in *; destruct_and?; split_and?;
      first [eapply has_eq; [apply Hk; away|eassumption]|eapply has_opt_eq; [apply Hk; away|eassumption]].
  - destruct H as (_ & Hw & Hkind & Ht & Hs & Hq). unfold proper, texts, well_shaped, vpostings, is_txn in *.
    rewrite (vassoc_is_map _ _ _ _ Hl), (Hg "postings"), (Hg "dct") by away. split; [by apply andb_true_iff in Hw as [_ ->]|]. split; [done|]. split.
    + destruct Ht as [Ht|Ht]; [by left|right]. revert Ht. rewrite !Forall_cons, (Hg "postings"), (Hg "payee"), (Hg "narration") by away.
      intros (?&?&?&_). by split_and!.
    + revert Hs. rewrite !Forall_cons, (Hg "acc"), (Hg "payee"), (Hg "narration") by away.
      intros (H4 & H5 & H6 & _). split_and!; [exact H4|exact H5|exact H6|constructor|exact Hq].
Qed.
(** A directive which matches has an error. *)
Lemma fail_erroneous cs message v d es : holds v d → fail_step (configured <$> cs) message v = Some es →
  Forall (meets d) cs → ∃ x, es = [New x] ∧ erroneous x = true.
Proof using Hjmo.
  intros H He Hc. unfold fail_step in He. rewrite (proj2 (matches_meets v d cs H) Hc) in He.
  destruct (dct_error _ _ v) as [x|] eqn:Ex; [|done]. injection He as <-. exists x. split; [done|].
  unfold dct_error in Ex. destruct (match vget "err" v with None | Some VNil => _ | Some (VVec l) => _ | Some _ => _ end) as [l|]; [|done].
  cbn [mbind option_bind] in Ex. unfold erroneous. by rewrite (vget_vassoc_same _ _ _ _ Ex).
Qed.
End Read.

(** * The ledger *)
Section Ledger.
Context (ord : hash_order).
Notation seen d := (decode None (put_directive ord d)).
Local Ltac norm :=
  repeat first
    [ rewrite entries_app
    | rewrite entries_cons_eq
    | rewrite entries_cons_ne by (intros ?; discriminate)
    | rewrite entries_put_eq
    | rewrite entries_put_ne by (intros ?; discriminate)
    | rewrite entries_nil
    | rewrite app_nil_r
    | rewrite app_nil_l ].
Local Ltac variant_entries := cbn [put_variant]; unfold put_price_dct, put_balance, put_open, put_pad, put_custom; norm.
Lemma seen_proper d : proper (seen d).
Proof.
  assert (Hnone : ∀ k, k ∈ ["postings"; "payee"; "narration"] → (∀ t, d_variant d ≠ DTransaction t) → vget k (seen d) = None).
  { intros k Hk Ht. unfold put_directive. rewrite vget_decode.
    assert (entries k (put_variant ord (d_variant d)) = []) as Hv.
    { apply elem_of_cons in Hk as [->|Hk]; [|apply elem_of_cons in Hk as [->|Hk%elem_of_list_singleton]; [|subst]];
        (destruct (d_variant d); [by edestruct Ht|..]; variant_entries; done). }
    apply elem_of_cons in Hk as [->|Hk]; [|apply elem_of_cons in Hk as [->|Hk%elem_of_list_singleton]; [|subst]];
      norm; rewrite Hv; done. }
  split; [|split; [|split; [|split]]].
  - unfold well_shaped. cbn [is_map andb]. unfold put_directive at 1. cbn [decode is_map andb].
    destruct (d_variant d) as [t| | | | | | | | | | |] eqn:Ev;
      try (unfold vpostings; rewrite Hnone; [done|away|intros ?; congruence]).
    unfold vpostings. rewrite (seen_postings ord d t Ev). apply forallb_forall. intros p Hp%elem_of_list_In.
    apply elem_of_list_fmap in Hp as (q & -> & _). unfold put_posting_spec. cbn [decode is_map]. done.
  - eexists. apply seen_dct.
  - unfold is_txn. rewrite seen_dct. destruct (d_variant d) eqn:Ev; [by left|..]; right;
      (rewrite !Forall_cons, !Hnone; [by split_and!|first [away|intros ?; congruence]..]).
  - unfold texts. rewrite !Forall_cons. unfold put_directive. rewrite !vget_decode. norm.
    split_and!; [| | |constructor].
    + destruct (d_variant d); variant_entries; done.
    + destruct (d_variant d) as [t| | | | | | | | | | |]; variant_entries; try done. by destruct (tx_payee t).
    + destruct (d_variant d) as [t| | | | | | | | | | |]; variant_entries; try done. by destruct (tx_narration t).
  - destruct (d_variant d) as [t| | | | | | | | | | |] eqn:Ev;
      try (rewrite Hnone; [done|away|intros ?; congruence]).
    rewrite (seen_postings ord d t Ev). apply Forall_fmap, Forall_true. intros q. unfold compose, texts. by rewrite seen_posting_acc.
Qed.
End Ledger.
