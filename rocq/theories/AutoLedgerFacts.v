(** Lemmas for [AutoLedgerProps.v]. *)
From Coq Require Import Ascii QArith Sorted.
From stdpp Require Import prelude gmap strings.
From Verif Require Import DecModel LedgerTypes IsoModel IsoFacts JsonModel WireModel WireSpec WireFacts SpanModel ParserModel ServerModel
  CljModel InventoryModel InventorySpec OrderFacts ClientModel ClientDecode FormatModel PluginModel PluginSpec PluginFacts PluginMerge LoaderModel
  LoaderSpec EncodeModel EncodeFacts EncodeStable SystemModel SystemFacts SystemErrors SystemTrace AutoModel AutoSpec AutoFacts AutoLedgerSpec.
Local Open Scope nat_scope.

Local Ltac norm :=
  repeat first
    [ rewrite entries_app
    | rewrite entries_cons_eq
    | rewrite entries_cons_ne by (intros ?; discriminate)
    | rewrite entries_put_eq
    | rewrite entries_put_ne by (intros ?; discriminate)
    | rewrite entries_nil
    | rewrite app_nil_r
    | rewrite app_nil_l ].

(** ** What the client sees of a directive of the ledger *)
Section Seen.
Context (ord : hash_order).
Notation seen d := (decode None (put_directive ord d)).

Definition kind_of (v : directive_variant) : string :=
  match v with
  | DTransaction _ => "txn" | DPrice _ => "price" | DBalance _ => "balance" | DOpen _ => "open" | DClose _ => "close"
  | DCommodity _ => "commodity" | DPad _ => "pad" | DDocument _ _ => "document" | DNote _ _ => "note" | DEvent _ _ => "event"
  | DQuery _ _ => "query" | DCustom _ => "custom"
  end.
Lemma variant_dct v : entries "dct" (put_variant ord v) = [JStr (kind_of v)].
Proof. destruct v; cbn [put_variant kind_of]; unfold put_price_dct, put_balance, put_open, put_pad, put_custom; norm; done. Qed.
Lemma open_acc o : entries "acc" (put_variant ord (DOpen o)) = [JStr (op_acc o)].
Proof. cbn [put_variant]. unfold put_open. by norm. Qed.
Lemma txn_postings t : entries "postings" (put_variant ord (DTransaction t)) = [JArr (put_posting_spec ord <$> tx_postings t)].
Proof. cbn [put_variant]. by norm. Qed.

Lemma vvec_inj l l' : VVec l = VVec l' → l = l'.
Proof. congruence. Qed.
Lemma seen_dct d : vget "dct" (seen d) = Some (VKw (kind_of (d_variant d))).
Proof. unfold put_directive. rewrite vget_decode. norm. rewrite variant_dct. done. Qed.
Lemma seen_date d : ok_date (d_date d) → vget "date" (seen d) = Some (VDate (d_date d)).
Proof.
  intros Hd. unfold put_directive. rewrite vget_decode. norm. rewrite entries_variant_own by done. norm.
  rewrite last_single. cbn [fmap option_fmap option_map]. unfold put_date. cbn [decode]. unfold converted. cbn [String.eqb Ascii.eqb Bool.eqb orb].
  cbn [to_local_date]. by rewrite parse_fmt_date.
Qed.
Lemma seen_opens d a : opens (seen d) a ↔ opening_of d a.
Proof.
  unfold opens, opening_of. rewrite seen_dct. split.
  - intros [E1 E2]. destruct (d_variant d) as [| | |o| | | | | | | |] eqn:Ev; try discriminate E1. exists o. split; [done|].
    unfold put_directive in E2. rewrite vget_decode in E2. revert E2. norm. rewrite Ev, open_acc. by intros [= ->].
  - intros (o & Ev & <-). rewrite Ev. split; [done|]. unfold put_directive. rewrite vget_decode. norm. rewrite Ev, open_acc. done.
Qed.
Lemma seen_posting_acc q : vget "acc" (decode None (put_posting_spec ord q)) = Some (VStr (ps_acc q)).
Proof. unfold put_posting_spec. rewrite vget_decode. norm. done. Qed.
Lemma seen_postings d t : d_variant d = DTransaction t →
  vget "postings" (seen d) = Some (VVec ((λ q, decode None (put_posting_spec ord q)) <$> tx_postings t)).
Proof.
  intros Ev. unfold put_directive. rewrite vget_decode. norm. rewrite Ev, txn_postings.
  cbn [last app fmap option_fmap option_map decode is_set_key String.eqb Ascii.eqb Bool.eqb orb].
  unfold converted. cbn [String.eqb Ascii.eqb Bool.eqb orb]. f_equal. f_equal. change (map (decode None)) with (fmap (M:=list) (decode None)).
  by rewrite <- list_fmap_compose.
Qed.
Lemma seen_txn d : vget "dct" (seen d) = Some (VKw "txn") → ∃ t, d_variant d = DTransaction t.
Proof. rewrite seen_dct. destruct (d_variant d); intros E; try discriminate E. eauto. Qed.
Lemma seen_posts d a : posts_to (seen d) a ↔ posting_to d a.
Proof.
  unfold posts_to, posting_to. split.
  - intros [E1 (ps & p & Eps & Hp & Ea)]. destruct (seen_txn _ E1) as [t Ev]. rewrite (seen_postings _ _ Ev) in Eps. apply (inj Some), vvec_inj in Eps as <-.
    apply elem_of_list_fmap in Hp as (q & -> & Hq). cbv beta in Ea. rewrite seen_posting_acc in Ea. injection Ea as <-. eauto 6.
  - intros (t & q & Ev & Hq & <-). split; [by rewrite seen_dct, Ev|]. eexists _, _. split; [by apply seen_postings|].
    split; [apply elem_of_list_fmap; by exists q|]. apply seen_posting_acc.
Qed.
Lemma seen_named d : accounts_named (seen d).
Proof.
  intros E ps p Eps Hp. destruct (seen_txn _ E) as [t Ev]. rewrite (seen_postings _ _ Ev) in Eps. apply (inj Some), vvec_inj in Eps as <-.
  apply elem_of_list_fmap in Hp as (q & -> & Hq). exists (ps_acc q). apply seen_posting_acc.
Qed.
Lemma seen_unmarked d : vget "provenance" (seen d) = None.
Proof.
  unfold put_directive. rewrite vget_decode. norm.
  assert (entries "provenance" (put_variant ord (d_variant d)) = []) as ->.
  { destruct (d_variant d); cbn [put_variant]; unfold put_price_dct, put_balance, put_open, put_pad, put_custom; norm; done. }
  done.
Qed.
End Seen.

(** ** Opens which the plugin adds *)
Section Added.
Context (dp : string → option dec).
Context (jso : list json → list json) (jmo : list (string * json) → list (string * json)).
Context (Hjmo : ∀ l, jmo l ≡ₚ l).
Notation encode := (encode jso jmo).

Lemma encode_map fs : ∃ js, encode (VMap fs) = JObj js ∧ ∀ k, entries k js = option_list (encode <$> vget k (VMap fs)).
Proof. by apply encode_entries. Qed.
Lemma encode_auto : encode (VMap [("auto", VNil)]) = JObj [("auto", JNull)].
Proof.
  cbn [EncodeModel.encode map distinct existsb]. f_equal. apply Permutation_singleton_r. apply Hjmo.
Qed.
(** The server reads such an open, with a span from the client or without. *)
Lemma added_read day a o :
  valid_date day = true → plain a = true →
  vget "dct" o = Some (VKw "open") → vget "acc" o = Some (VStr a) → vget "date" o = Some (VDate day) →
  vget "metadata" o = Some (VMap [("auto", VNil)]) →
  (∀ k, k ∈ ["span"; "tags"; "links"; "currencies"; "booking"] → vget k o = None) →
  get_directive dp (encode o) = Some (filled_in day a).
Proof.
  intros Hday Ha Hdct Hacc Hdate Hmeta Hnone. apply get_directive_iff.
  destruct o as [| | | | | | | | |fs]; try discriminate Hdct. destruct (encode_map fs) as (js & -> & He).
  exists js. split; [done|]. cbn [filled_in d_span d_date d_tags d_links d_metadata d_variant].
  assert (∀ k, k ∈ ["span"; "tags"; "links"; "currencies"; "booking"] → entries k js = []) as Hn.
  { intros k Hk. by rewrite He, Hnone. }
  repeat (rewrite Forall_forall || split); cbn [has_opt op_acc op_currencies op_booking].
  - left. apply Hn. set_solver.
  - exists (JStr (fmt_date day)). rewrite He, Hdate. split; [done|]. exists (fmt_date day). eauto.
  - left. apply Hn. set_solver.
  - left. apply Hn. set_solver.
  - exists (JObj [("auto", JNull)]). rewrite He, Hmeta. cbn [fmap option_fmap option_map option_list]. rewrite encode_auto. split; [done|].
    split; [done|]. exists [("auto", JNull)], [("auto", MVNull)]. split; [done|]. split; [by repeat constructor|].
    intros k. rewrite entries_cons. destruct (String.eqb_spec "auto" k) as [<-|Hk]; [by rewrite lookup_singleton|by rewrite lookup_singleton_ne].
  - exists (JStr "open"). rewrite He, Hdct. done.
  - exists (JStr a). rewrite He, Hacc. done.
  - left. apply Hn. set_solver.
  - left. apply Hn. set_solver.
Qed.
End Added.

(** ** Spans *)
(** Directives which are not marked stay as they are; those which are and have no
    postings are changed in their span only. *)
Definition span_added (d x : cval) : Prop :=
  (marked d = false → x = d) ∧ (vpostings d = [] → ∀ k, k ≠ "span-p" → vget k x = vget k d).
Lemma map_n_span_added ds : ∀ spans xs, map_n n_spans merge_spans ds spans = Some xs → Forall2 span_added ds xs.
Proof.
  induction ds as [|d ds IH]; intros spans xs; cbn [map_n]; [intros [= <-]; constructor|].
  destruct (n_spans d) as [|n] eqn:En; cbn [Nat.eqb].
  - destruct (map_n _ _ ds spans) as [r|] eqn:E; [|done]. cbn [mbind option_bind]. intros [= <-]. constructor; [|by eapply IH]. split; done.
  - destruct (merge_spans d _) as [a'|] eqn:Ea; [|done]. cbn [mbind option_bind].
    destruct (map_n _ _ ds (drop _ _)) as [r|] eqn:E; [|done]. cbn [mbind option_bind]. intros [= <-]. constructor; [|by eapply IH].
    split.
    + intros Hm. unfold n_spans in En. by rewrite Hm in En.
    + intros Hp k Hk. unfold merge_spans in Ea. destruct (vassoc "span-p" _ d) as [d1|] eqn:E1; [|done]. cbn [mbind option_bind] in Ea.
      assert (n = 0) as ->. { unfold n_spans in En. rewrite Hp in En. destruct (marked d); cbn in En; lia. }
      assert (tail (take 1 spans) = []) as Et by (by destruct spans). rewrite Et in Ea. injection Ea as <-.
      by eapply (vget_vassoc_other "span-p" k).
Qed.
Lemma merge_span_added so create ds xs : merge_with_provenance so create ds = Some xs → Forall2 span_added ds xs.
Proof.
  unfold merge_with_provenance. destruct (span_requests so ds) as [rs|]; [|done]. cbn [mbind option_bind].
  assert (Forall2 span_added ds ds) as Hrefl by (apply Forall_Forall2_diag, Forall_true; by split).
  destruct (match rs with [] => Some [] | _ => _ end) as [[|s spans]|]; [| |done]; cbn [mbind option_bind].
  - by intros [= <-].
  - apply map_n_span_added.
Qed.

(** ** What the server reads *)
Lemma choose_each {A B} (l : list A) : ∀ (P : nat → A → B → Prop),
  (∀ i x, l !! i = Some x → ∃ y, P i x y) →
  ∃ ys, length ys = length l ∧ ∀ i x y, l !! i = Some x → ys !! i = Some y → P i x y.
Proof.
  induction l as [|x l IH]; intros P H; [by exists []|].
  destruct (H 0 x eq_refl) as [y Hy]. destruct (IH (λ i, P (S i))) as (ys & Hl & Hys).
  { intros i z Hz. by apply (H (S i)). }
  exists (y :: ys). split; [cbn; by rewrite Hl|]. intros [|i] z w; cbn; [by intros [= <-] [= <-]|apply Hys].
Qed.

Section Read.
Context (dp : string → option dec).
Context (jso : list json → list json) (jmo : list (string * json) → list (string * json)).
Context (Hjso : ∀ l, jso l ≡ₚ l) (Hjmo : ∀ l, jmo l ≡ₚ l).
Context (ord : hash_order) (Hord : any_order ord).
Notation encode := (encode jso jmo).
Notation seen d := (decode None (put_directive ord d)).
(** However a span is added to [o], the server reads it as [d]. *)
Definition read_as (o : cval) (d : directive) : Prop := ∀ x, span_added o x → get_directive dp (encode x) = Some d.

Lemma ledger_read_as d : ok_directive d → directive_no_clash d → read_as (seen d) d.
Proof.
  intros Hok Hnc x [Hx _]. rewrite Hx; [by apply sent_back|]. unfold marked. by rewrite seen_unmarked.
Qed.
Lemma open_read_as name d a o : ok_directive d → posting_to d a → opened_for name (seen d) a o → read_as o (filled_in (d_date d) a).
Proof.
  intros Hok (t & q & Ev & Hq & <-) ([Ho1 Ho2] & Hdate & Hmeta & _ & Hother) x [_ Hx].
  assert (vpostings o = []) as Hps. { unfold vpostings. rewrite Hother by set_solver. done. }
  specialize (Hx Hps). destruct Hok as (Hd & _ & _ & _ & Hv). rewrite Ev in Hv.
  apply added_read; [done|done|by apply Hv|..].
  1-2: rewrite Hx; [done|by intros [=]].
  - rewrite Hx, Hdate, seen_date; [done|done|by intros [=]].
  - rewrite Hx; [done|by intros [=]].
  - intros k Hk. rewrite Hx; [|set_solver]. apply Hother. set_solver.
Qed.

Lemma groups_read (opened : list (list cval)) : ∀ (accs : list (list string)) (ds : list directive),
  length opened = length ds → length accs = length ds →
  (∀ i os as_ d, opened !! i = Some os → accs !! i = Some as_ → ds !! i = Some d →
     read_as (seen d) d ∧ Forall2 read_as os (filled_in (d_date d) <$> as_)) →
  Forall2 read_as (mjoin (zip_with (λ os d, os ++ [d]) opened ((λ d, seen d) <$> ds)))
                  (mjoin (zip_with (λ as_ d, (filled_in (d_date d) <$> as_) ++ [d]) accs ds)).
Proof.
  induction opened as [|os opened IH]; intros accs [|d ds] Hl1 Hl2 H; try discriminate Hl1; destruct accs as [|as_ accs]; try discriminate Hl2.
  - constructor.
  - rewrite fmap_cons. cbn [zip_with mjoin list_join]. destruct (H 0 os as_ d eq_refl eq_refl eq_refl) as [H1 H2].
    apply Forall2_app; [apply Forall2_app; [done|by constructor]|]. apply IH; [by injection Hl1|by injection Hl2|].
    intros i ????? . by eapply (H (S i)).
Qed.

Theorem opens_read name ds out xs :
  Forall (λ d, ok_directive d ∧ directive_no_clash d) ds →
  with_opens name ((λ d, seen d) <$> ds) out → Forall2 span_added out xs →
  ∃ l, mapM (get_directive dp) (encode <$> xs) = Some l ∧ opens_filled_in ds l.
Proof.
  intros Hok (opened & Hlen & -> & Hop) Hxs. rewrite fmap_length in Hlen. rewrite Forall_forall in Hok.
  destruct (choose_each opened (λ i os as_, ∀ d, ds !! i = Some d →
      Forall2 (opened_for name (seen d)) as_ os ∧ StronglySorted before as_ ∧
      ∀ a, a ∈ as_ ↔ posting_to d a ∧ ∀ j e, j < i → ds !! j = Some e → ¬ opening_of e a ∧ ¬ posting_to e a)) as (accs & Hlen' & Haccs).
  { intros i os Ho. destruct (lookup_lt_is_Some_2 ds i) as [d Hd]; [rewrite <- Hlen; by eapply lookup_lt_Some|].
    destruct (Hop i (seen d) os) as (as_ & Hf & Hs & Hin); [by rewrite list_lookup_fmap, Hd|done|].
    exists as_. intros d' Hd'. simplify_eq. split; [done|]. split; [done|]. intros a. rewrite Hin, seen_posts.
    split; intros [Hp Hb]; (split; [done|]); intros j e Hj He.
    - rewrite <- (seen_opens ord), <- (seen_posts ord). apply (Hb j); [done|]. by rewrite list_lookup_fmap, He.
    - rewrite list_lookup_fmap in He. apply fmap_Some in He as (e' & He' & ->). rewrite seen_opens, seen_posts. by eapply Hb. }
  exists (mjoin (zip_with (λ as_ d, (filled_in (d_date d) <$> as_) ++ [d]) accs ds)). split.
  - apply mapM_Some. apply Forall2_fmap_l.
    assert (Forall2 read_as (mjoin (zip_with (λ os d, os ++ [d]) opened ((λ d, seen d) <$> ds)))
       (mjoin (zip_with (λ as_ d, (filled_in (d_date d) <$> as_) ++ [d]) accs ds))) as HR.
    { apply groups_read; [done|by rewrite Hlen', Hlen|]. intros i os as_ d Ho Ha Hd.
      destruct (Haccs _ _ _ Ho Ha d Hd) as (Hf & _ & Hin). destruct (Hok d) as [Hok1 Hok2]; [by eapply elem_of_list_lookup_2|].
      split; [by apply ledger_read_as|]. apply Forall2_fmap_r. apply Forall2_flip.
      assert (∀ a, a ∈ as_ → posting_to d a) as Hp by (intros a Ha'; by apply Hin). clear -Hf Hp Hok1 Hjmo Hjso Hord.
      induction Hf as [|a o as_ os H Hf IH]; constructor.
      - eapply open_read_as; [done|apply Hp; by left|done].
      - apply IH. intros. apply Hp. by right. }
    revert Hxs HR. generalize (mjoin (zip_with (λ os d, os ++ [d]) opened ((λ d, seen d) <$> ds))). intros out Hxs. revert Hxs.
    generalize (mjoin (zip_with (λ as_ d, (filled_in (d_date d) <$> as_) ++ [d]) accs ds)). clear.
    intros l Hxs. revert l. induction Hxs as [|o x out xs H Hxs IH]; intros l HR; inversion_clear HR; constructor; [|by apply IH].
    match goal with H : read_as _ _ |- _ => by apply H end.
  - exists accs. split; [by rewrite Hlen', Hlen|]. split; [done|]. intros i d as_ Hd Ha.
    destruct (lookup_lt_is_Some_2 opened i) as [os Ho]; [rewrite Hlen; by eapply lookup_lt_Some|].
    by destruct (Haccs _ _ _ Ho Ha d Hd) as (_ & ? & ?).
Qed.
End Read.

(** ** The ledger with opens *)
Global Instance opening_dec d a : Decision (opening_of d a).
Proof.
  destruct (d_variant d) as [| | |o| | | | | | | |] eqn:E; try (right; intros (o & E' & _); congruence).
  destruct (decide (op_acc o = a)); [left; by exists o|right]. intros (o' & E' & ?). congruence.
Defined.
Global Instance posting_to_dec d a : Decision (posting_to d a).
Proof.
  destruct (d_variant d) as [t| | | | | | | | | | |] eqn:E; try (right; intros (t & ? & E' & _); congruence).
  destruct (decide (Exists (λ q, ps_acc q = a) (tx_postings t))) as [H|H]; [left|right].
  - apply Exists_exists in H as (q & ? & ?). by exists t, q.
  - intros (t' & q & E' & Hq & Ha). apply H, Exists_exists. exists q. split; [congruence|done].
Defined.

Lemma filled_groups accs ds :
  mjoin (zip_with (λ as_ d, (filled_in (d_date d) <$> as_) ++ [d]) accs ds) =
  mjoin (zip_with (λ os d, os ++ [d]) (zip_with (λ as_ d, filled_in (d_date d) <$> as_) accs ds) ds).
Proof. revert ds. induction accs as [|as_ accs IH]; intros [|d ds]; [done..|]. cbn [zip_with mjoin list_join]. by rewrite IH. Qed.
Lemma filled_opens day a : opening_of (filled_in day a) a.
Proof. by eexists. Qed.

Section Filled.
Context (ds : list directive) (accs : list (list string)) (Hlen : length accs = length ds).
Context (H : ∀ i d as_, ds !! i = Some d → accs !! i = Some as_ →
      StronglySorted before as_ ∧
      ∀ a, a ∈ as_ ↔ posting_to d a ∧ ∀ j e, j < i → ds !! j = Some e → ¬ opening_of e a ∧ ¬ posting_to e a).
Notation opened := (zip_with (λ as_ d, filled_in (d_date d) <$> as_) accs ds).
Lemma opened_lookup n os d : opened !! n = Some os → ds !! n = Some d →
  ∃ as_, accs !! n = Some as_ ∧ os = filled_in (d_date d) <$> as_.
Proof using. intros Ho Hd. apply lookup_zip_with_Some in Ho as (as_ & d' & -> & Ha & Hd'). simplify_eq. eauto. Qed.
Lemma opened_some n d : ds !! n = Some d → ∃ as_, accs !! n = Some as_ ∧ opened !! n = Some (filled_in (d_date d) <$> as_).
Proof using Hlen.
  intros Hd. destruct (lookup_lt_is_Some_2 accs n) as [as_ Ha]; [rewrite Hlen; by eapply lookup_lt_Some|].
  exists as_. split; [done|]. rewrite lookup_zip_with, Ha. cbn [mbind option_bind]. by rewrite Hd.
Qed.
Lemma filled_before_group a n : ∀ os d, opened !! n = Some os → ds !! n = Some d → posting_to d a →
  ∃ o, opening_of o a ∧ o ∈ mjoin (zip_with (λ os d, os ++ [d]) (take n opened) (take n ds)) ++ os.
Proof using Hlen H.
  induction (lt_wf n) as [n _ IH]. intros os d Ho Hd Hp.
  destruct (opened_lookup _ _ _ Ho Hd) as (as_ & Ha & ->). destruct (H n d as_ Hd Ha) as [_ Hin].
  destruct (decide (a ∈ as_)) as [Hi|Hi].
  - exists (filled_in (d_date d) a). split; [apply filled_opens|]. apply elem_of_app. right. apply elem_of_list_fmap. eauto.
  - destruct (decide (Exists (λ e, opening_of e a ∨ posting_to e a) (take n ds))) as [He|He].
    + apply Exists_exists in He as (e & He & Hoe). apply elem_of_list_lookup in He as [j Hj].
      apply lookup_take_Some in Hj as [Hj Hjn]. destruct (opened_some j e Hj) as (asj & Haj & Hosj).
      destruct Hoe as [Hoe|Hpe].
      * exists e. split; [done|]. apply elem_of_app. left. eapply group_in; eauto.
      * destruct (IH j Hjn _ e Hosj Hj Hpe) as (o & Hoa & Hin'). exists o. split; [done|]. apply elem_of_app. left.
        apply elem_of_app in Hin' as [Hin'|Hin'].
        -- apply elem_of_list_join in Hin' as (g & Hg & Hin'). apply elem_of_list_join. exists g. split; [done|].
           apply elem_of_list_lookup in Hin' as [i Hix]. apply lookup_zip_with_Some in Hix as (x & y & -> & Hx & Hy).
           apply lookup_take_Some in Hx as [Hx ?], Hy as [Hy ?].
           apply elem_of_list_lookup. exists i. rewrite lookup_zip_with, !lookup_take by lia. by rewrite Hx, Hy.
        -- eapply group_in; eauto.
    + destruct Hi. apply Hin. split; [done|]. intros j e Hj He'.
      assert (e ∈ take n ds). { eapply elem_of_list_lookup_2. by rewrite lookup_take. }
      split; intros ?; apply He, Exists_exists; eauto.
Qed.
Lemma sorted_NoDup as_ : StronglySorted before as_ → NoDup as_.
Proof using.
  induction 1 as [|x l Hs IH Hf]; constructor; [|done]. rewrite Forall_forall in Hf.
  intros Hx. specialize (Hf _ Hx). apply str_compare_lt in Hf.
  assert (str_compare x x = Eq) by by apply str_compare_eq. congruence.
Qed.
(** An account for which an open is filled in is not opened before that. *)
Lemma filled_fresh_group n os1 os2 d a e : opened !! n = Some (os1 ++ filled_in (d_date d) a :: os2) → ds !! n = Some d →
  e ∈ mjoin (zip_with (λ os d, os ++ [d]) (take n opened) (take n ds)) ++ os1 → ¬ opening_of e a.
Proof using Hlen H.
  intros Ho Hd He Hea. destruct (opened_lookup _ _ _ Ho Hd) as (as_ & Ha & Eos). destruct (H n d as_ Hd Ha) as [Hs Hin].
  symmetry in Eos. apply fmap_app_inv in Eos as (as1 & as2' & -> & Eas2 & ->). destruct as2' as [|a' as2]; [discriminate Eas2|].
  rewrite fmap_cons in Eas2. injection Eas2 as Eaa Eas2. subst a'.
  assert (a ∈ as1 ++ a :: as2) as Hia by set_solver. apply Hin in Hia as [Hp Hfirst].
  apply elem_of_app in He as [He|He].
  - apply elem_of_list_join in He as (g & Hg & He). apply elem_of_list_lookup in He as [j Hj].
    apply lookup_zip_with_Some in Hj as (osj & dj & -> & Hoj & Hdj).
    apply lookup_take_Some in Hoj as [Hoj ?], Hdj as [Hdj ?].
    destruct (Hfirst j dj) as [Hno1 Hno2]; [done|done|].
    apply elem_of_app in Hg as [Hg|Hg%elem_of_list_singleton]; [|by subst].
    destruct (opened_lookup _ _ _ Hoj Hdj) as (asj & Haj & ->). apply elem_of_list_fmap in Hg as (b & -> & Hb).
    destruct Hea as (o & [= <-] & Eo). cbn in Eo. subst b. destruct (H j dj asj Hdj Haj) as [_ Hinj]. apply Hno2. by apply Hinj.
  - apply elem_of_list_fmap in He as (b & -> & Hb). destruct Hea as (o & [= <-] & Eo). cbn in Eo. subst b.
    apply sorted_NoDup, NoDup_app in Hs as (_ & Hnd & _). eapply Hnd; [exact Hb|]. by left.
Qed.
End Filled.

Lemma filled_before ds l pre t post a :
  opens_filled_in ds l → l = pre ++ t :: post → posting_to t a → ∃ o, o ∈ pre ∧ opening_of o a.
Proof.
  intros (accs & Hlen & -> & H) E Hp. rewrite filled_groups in E.
  destruct (split_groups _ _ _ _ _ E) as (n & os & d & Ho & Hd & Hcase). cbn zeta in Hcase.
  destruct Hcase as [[-> ->]|(os1 & os2 & -> & _)].
  - destruct (filled_before_group ds accs Hlen H a n os d Ho Hd Hp) as (o & ? & ?). eauto.
  - destruct (opened_lookup _ _ _ _ _ Ho Hd) as (as_ & _ & Eos). symmetry in Eos.
    apply fmap_app_inv in Eos as (? & [|b ?] & _ & Eos & _); [discriminate Eos|]. rewrite fmap_cons in Eos. injection Eos as Et _.
    destruct Hp as (t' & q & Ev & _). by rewrite Et in Ev.
Qed.
Lemma filled_fresh ds l pre o post :
  opens_filled_in ds l → (∀ d, d ∈ ds → d_span d ≠ None) → l = pre ++ o :: post → d_span o = None →
  ∃ day a, o = filled_in day a ∧ ∀ e, e ∈ pre → ¬ opening_of e a.
Proof.
  intros (accs & Hlen & -> & H) Hsp E Hno. rewrite filled_groups in E.
  destruct (split_groups _ _ _ _ _ E) as (n & os & d & Ho & Hd & Hcase). cbn zeta in Hcase.
  destruct Hcase as [[-> ->]|(os1 & os2 & -> & ->)].
  - destruct (Hsp d); [by eapply elem_of_list_lookup_2|done].
  - destruct (opened_lookup _ _ _ _ _ Ho Hd) as (as_ & _ & Eos). symmetry in Eos.
    apply fmap_app_inv in Eos as (? & [|b ?] & _ & Eos & _); [discriminate Eos|]. rewrite fmap_cons in Eos. injection Eos as Et _.
    exists (d_date d), b. split; [done|]. intros e He. subst o. by eapply filled_fresh_group.
Qed.
