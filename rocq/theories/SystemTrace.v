(** Booked directives on the client: where they come from. *)
From Coq Require Import Ascii QArith.
From stdpp Require Import prelude gmap strings.
From Verif Require Import DecModel LedgerTypes IsoModel IsoFacts JsonModel WireModel WireSpec WireFacts BookModel BookSpec SpanModel ParserModel
  JsonText ServerModel ServerSpec ServerFacts CljModel InventoryModel ClientModel ClientDecode FormatModel PluginModel PluginSpec PluginFacts PluginMerge LoaderModel
  LoaderSpec LoaderFacts EncodeModel EncodeFacts EncodeStable SystemModel SystemFacts SystemSpec SystemErrors.
Local Open Scope nat_scope.

(** ** Merging *)
Lemma vassoc_is_map k v m : is_map m = true → ∃ m', vassoc k v m = Some m' ∧ is_map m' = true ∧
  ∀ k', vget k' m' = if String.eqb k' k then Some v else vget k' m.
Proof.
  intros Hm. destruct (vassoc_map k v m Hm) as (m'&E&Hm'). exists m'. split_and!; try done. intros k'.
  destruct (String.eqb_spec k' k) as [->|Hne]; [by eapply vget_vassoc_same|by eapply vget_vassoc_other].
Qed.
Lemma merge_field_get k from into : is_map into = true → ∃ m, merge_field k from into = Some m ∧ is_map m = true ∧
  ∀ k', vget k' m = if String.eqb k' k then match vget k from with Some v => Some v | None => vget k' into end else vget k' into.
Proof.
  intros Hm. unfold merge_field. destruct (vget k from) as [v|].
  - by apply vassoc_is_map.
  - exists into. split_and!; try done. intros k'. by destruct (String.eqb k' k).
Qed.
Lemma merge_taken src j : is_map (decode None j) = true →
  (∀ k, k ∈ ["span"; "span-p"; "provenance"] → vget k (decode None j) = None) →
  ∃ v, merge_span_and_provenance (decode None j) (or_nil src) = Some v ∧ is_map v = true ∧ takes_from src j v ∧
    vget "postings" v = vget "postings" (decode None j).
Proof.
  intros Hm Hn. unfold merge_span_and_provenance.
  assert (Hs : ∀ k, vget k (or_nil src) = src ≫= vget k) by (by destruct src).
  destruct (merge_field_get "span" (or_nil src) _ Hm) as (m1&->&Hm1&H1). cbn [mbind option_bind].
  destruct (merge_field_get "span-p" (or_nil src) m1 Hm1) as (m2&->&Hm2&H2). cbn [mbind option_bind].
  destruct (merge_field_get "provenance" (or_nil src) m2 Hm2) as (m3&->&Hm3&H3).
  exists m3. split_and!; try done.
  - split.
    + intros k Hk. rewrite H3, !H2, !H1. pose proof (Hn k Hk) as Hk0. rewrite !Hs.
      assert (k = "span" ∨ k = "span-p" ∨ k = "provenance") as [-> | [-> | ->]] by set_solver; cbn; rewrite Hk0; by destruct (src ≫= _).
    + intros k Hk. rewrite H3, !H2, !H1.
      assert (k ≠ "span" ∧ k ≠ "span-p" ∧ k ≠ "provenance") as (N1&N2&N3) by set_solver.
      apply String.eqb_neq in N1, N2, N3. by rewrite N1, N2, N3.
  - by rewrite H3, H2, H1.
Qed.

(** ** What the server sends *)
Lemma decode_obj_map k fs : is_map (decode k (JObj fs)) = true.
Proof. done. Qed.
Local Ltac norm := 
  repeat first
    [ rewrite entries_app
    | rewrite entries_cons_eq
    | rewrite entries_cons_ne by (intros ?; discriminate)
    | rewrite entries_put_eq
    | rewrite entries_put_ne by (intros ?; discriminate)
    | rewrite entries_nil
    | rewrite app_nil_r
    | rewrite app_nil_l ].
Lemma variant_entries ord v k : k ∈ ["span"; "span-p"; "provenance"; "idx"] → entries k (put_bvariant ord v) = [].
Proof.
  intros Hk. assert (k = "span" ∨ k = "span-p" ∨ k = "provenance" ∨ k = "idx") as [-> | [-> | [-> | ->]]] by set_solver;
    destruct v; cbn [put_bvariant]; unfold put_price_dct, put_balance, put_open, put_pad, put_custom; norm; done.
Qed.
Lemma variant_postings ord v :
  entries "postings" (put_bvariant ord v) = match v with BVTransaction t => [JArr (put_posting ord <$> bt_postings t)] | _ => [] end.
Proof. destruct v; cbn [put_bvariant]; unfold put_price_dct, put_balance, put_open, put_pad, put_custom; norm; done. Qed.
Lemma bdirective_get ord b :
  (∀ k, k ∈ ["span"; "span-p"; "provenance"] → vget k (decode None (put_bdirective ord b)) = None) ∧
  vget "idx" (decode None (put_bdirective ord b)) = Some (number (b_idx b)) ∧
  vget "postings" (decode None (put_bdirective ord b)) =
    match b_variant b with BVTransaction t => Some (VVec (decode None <$> (put_posting ord <$> bt_postings t))) | _ => None end.
Proof.
  unfold put_bdirective. split_and!.
  - intros k Hk. rewrite vget_decode. rewrite !entries_app, variant_entries by set_solver.
    assert (k = "span" ∨ k = "span-p" ∨ k = "provenance") as [-> | [-> | ->]] by set_solver; norm; done.
  - rewrite vget_decode. rewrite !entries_app, variant_entries by set_solver. norm. done.
  - rewrite vget_decode. rewrite !entries_app, variant_postings. norm. by destruct (b_variant b).
Qed.
Lemma posting_get ord q :
  (∀ k, k ∈ ["span"; "span-p"; "provenance"] → vget k (decode None (put_posting ord q)) = None) ∧
  vget "idx" (decode None (put_posting ord q)) = number <$> p_idx q.
Proof.
  unfold put_posting. split.
  - intros k Hk. rewrite vget_decode.
    assert (k = "span" ∨ k = "span-p" ∨ k = "provenance") as [-> | [-> | ->]] by set_solver; norm; done.
  - rewrite vget_decode. norm. by destruct (p_idx q).
Qed.

(** ** Resolving *)
Section Resolve.
Context (ord : hash_order) (raw : list cval).
Context (Hraw : fits (length raw)) (Hps : ∀ d, d ∈ raw → fits (length (vpostings d))).
Lemma resolve_taken b : b_idx b < length raw →
  ∃ v, resolve_directive raw (decode None (put_bdirective ord b)) = Some v ∧ taken_from ord raw b v.
Proof.
  intros Hi. destruct (lookup_lt_is_Some_2 _ _ Hi) as [d Hd]. assert (d ∈ raw) as Hin by (eapply elem_of_list_lookup_2; exact Hd).
  destruct (bdirective_get ord b) as (Hn&Hidx&Hpost). unfold resolve_directive. rewrite Hidx, vnth_number, Hd by done.
  destruct (merge_taken (Some d) (put_bdirective ord b)) as (v&->&Hm&Hv&Hvp); [done|done|]. cbn [mbind option_bind].
  rewrite Hpost in Hvp |- *. change (or_nil (Some d)) with d.
  destruct (b_variant b) as [t| | | | | | | | | | |] eqn:Eb;
    try (exists v; split; [done|]; exists d; rewrite Eb; split_and!; done).
  assert (∃ ps, mapM (λ p, merge_span_and_provenance p (or_nil (vnth (vpostings d) (vget "idx" p)))) (decode None <$> (put_posting ord <$> bt_postings t)) = Some ps ∧
     Forall2 (λ q w, takes_from (i ← p_idx q; vpostings d !! i) (put_posting ord q) w) (bt_postings t) ps) as (ps&->&HF).
  { clear Hpost Hvp Eb. induction (bt_postings t) as [|q l (ps&IH&HF)]; [by exists []|].
    destruct (posting_get ord q) as (Hqn&Hqi).
    destruct (merge_taken (i ← p_idx q; vpostings d !! i) (put_posting ord q)) as (w&Hw1&_&Hw2&_); [done|done|].
    exists (w :: ps). split; [|by constructor]. cbn [fmap list_fmap mapM]. rewrite Hqi.
    assert (vnth (vpostings d) (number <$> p_idx q) = (i ← p_idx q; vpostings d !! i)) as ->.
    { destruct (p_idx q) as [i|]; [|done]. cbn [fmap option_fmap option_map mbind option_bind]. rewrite vnth_number by auto. done. }
    rewrite Hw1. cbn [mbind option_bind]. by rewrite IH. }
  cbn [mbind option_bind].
  destruct (vassoc_is_map "postings" (VVec ps) v Hm) as (v'&Hv'&_&Hg). exists v'. split; [exact Hv'|].
  exists d. rewrite Eb. split; [done|]. split.
  - destruct Hv as [H1 H2]. split.
    + intros k Hk. rewrite Hg. destruct (String.eqb_spec k "postings") as [->|]; [set_solver|]. by apply H1.
    + intros k Hk. rewrite Hg. destruct (String.eqb_spec k "postings") as [->|]; [set_solver|]. by apply H2.
  - exists ps. split; [by rewrite Hg|exact HF].
Qed.
Lemma all_taken bs : Forall (λ b, b_idx b < length raw) bs →
  ∃ vs, mapM (resolve_directive raw) (decode None <$> (put_bdirective ord <$> bs)) = Some vs ∧ Forall2 (taken_from ord raw) bs vs.
Proof.
  induction 1 as [|b bs Hb _ (vs&IH&HF)]; [by exists []|]. destruct (resolve_taken b Hb) as (v&Hv&Ht).
  exists (v :: vs). split; [|by constructor]. cbn [fmap list_fmap mapM]. rewrite Hv. cbn [mbind option_bind]. by rewrite IH.
Qed.
End Resolve.

(** ** Without plugins: spans of the ledger *)
Definition ledger_values (ord : hash_order) (ledger : list pdirective) : list cval :=
  decode None <$> ((λ d, put_directive ord (from_directive d)) <$> ledger).
Lemma ledger_span_get ord d :
  vget "span" (decode None (put_directive ord (from_directive d))) = Some (span_value (pdr_span d)) ∧
  vget "span-p" (decode None (put_directive ord (from_directive d))) = None ∧
  vget "provenance" (decode None (put_directive ord (from_directive d))) = None.
Proof.
  unfold put_directive. rewrite !vget_decode. cbn [from_directive d_span d_variant].
  assert (Hv : ∀ k, k ∈ ["span"; "span-p"; "provenance"] → entries k (put_variant ord (from_variant (pdr_variant d))) = []).
  { intros k Hk. assert (k = "span" ∨ k = "span-p" ∨ k = "provenance") as [-> | [-> | ->]] by set_solver;
    destruct (from_variant _); cbn [put_variant]; unfold put_price_dct, put_balance, put_open, put_pad, put_custom; norm; done. }
  rewrite !entries_app, !Hv by set_solver. norm. done.
Qed.
Lemma ledger_postings ord d :
  vpostings (decode None (put_directive ord (from_directive d))) =
  match pdr_variant d with
  | PVTransaction _ _ _ ps => (λ p, decode None (put_posting_spec ord (from_posting p))) <$> ps
  | _ => []
  end.
Proof.
  unfold vpostings, put_directive. rewrite vget_decode. cbn [from_directive d_variant].
  destruct (pdr_variant d); cbn [from_variant put_variant tx_flag tx_payee tx_narration tx_postings]; unfold put_price_dct, put_balance, put_open, put_pad, put_custom; norm; try done.
  cbn. change (converted "postings" ?v) with v. cbv iota. change (map (decode None)) with (fmap (M:=list) (decode None)). by rewrite <- !list_fmap_compose.
Qed.
Lemma ledger_posting_span ord p :
  vget "span" (decode None (put_posting_spec ord (from_posting p))) = Some (span_value (pp_span p)) ∧
  vget "span-p" (decode None (put_posting_spec ord (from_posting p))) = None ∧
  vget "provenance" (decode None (put_posting_spec ord (from_posting p))) = None.
Proof. unfold put_posting_spec. rewrite !vget_decode. cbn [from_posting ps_span]. norm. done. Qed.
Lemma taken_with_span s src j v : takes_from src j v → src ≫= vget "span" = span_value <$> s → src ≫= vget "span-p" = None →
  src ≫= vget "provenance" = None → 
  vget "span-p" (decode None j) = None → vget "provenance" (decode None j) = None →  with_span s j v.
Proof.
  intros [H1 H2] Hs Hp Hm Hjp Hjm. unfold with_span. rewrite !H1 by set_solver. split_and!; try done.
  intros k Hk1 Hk2. destruct (decide (k = "span-p")) as [->|]; [rewrite H1 by set_solver; congruence|].
  destruct (decide (k = "provenance")) as [->|]; [rewrite H1 by set_solver; congruence|]. apply H2. set_solver.
Qed.
Lemma taken_traced ord ord' ledger b v : taken_from ord (ledger_values ord' ledger) b v → traced_to ord ledger b v.
Proof.
  intros (d&Hd&Hv&Hp). unfold ledger_values in Hd. rewrite !list_lookup_fmap in Hd.
  destruct (ledger !! b_idx b) as [pd|] eqn:Epd; [|done]. cbn in Hd. injection Hd as <-.
  destruct (ledger_span_get ord' pd) as (E1&E2&E3). destruct (bdirective_get ord b) as (Hn&_&_).
  exists pd. split; [done|]. split.
  { eapply taken_with_span; [exact Hv|exact E1|exact E2|exact E3|apply Hn; set_solver|apply Hn; set_solver]. }
  destruct (b_variant b); try exact Hp. destruct Hp as (ws&Hws&Hp). exists ws. split; [exact Hws|].
  eapply Forall2_impl; [exact Hp|]. intros q w Hw. destruct (posting_get ord q) as (Hqn&_).
  assert (Hsrc : ∀ src, (i ← p_idx q; vpostings (decode None (put_directive ord' (from_directive pd))) !! i) = src →
      src ≫= vget "span" = span_value <$> posting_span pd (p_idx q) ∧ src ≫= vget "span-p" = None ∧ src ≫= vget "provenance" = None).
  { intros src <-. unfold posting_span. destruct (p_idx q) as [i|]; [|done]. cbn [mbind option_bind]. rewrite ledger_postings.
    destruct (pdr_variant pd); try done. rewrite list_lookup_fmap. destruct (postings !! i) as [p|]; [|done].
    cbn [fmap option_fmap option_map]. apply ledger_posting_span. }
  destruct (Hsrc _ eq_refl) as (H1&H2&H3).
  eapply taken_with_span; [exact Hw|exact H1|exact H2|exact H3|apply Hqn; set_solver|apply Hqn; set_solver].
Qed.
Lemma mirrors_idx i ds bs : mirrors i ds bs → Forall (λ b, b_idx b < i + length ds) bs.
Proof.
  assert (Hw : ∀ i (ds : list directive) (d : directive) (bs : list bdirective),
    Forall (λ b, b_idx b < S i + length ds) bs → Forall (λ b, b_idx b < i + length (d :: ds)) bs).
  { intros i' ds' d' bs' HF. eapply Forall_impl; [exact HF|]. cbn. intros; lia. }
  induction 1 as [|i d ds b bs _ [Hb _] _ _ IH|i d ds b b' bs _ [Hb _] _ [[Hb' _] _] _ IH]; [constructor|..].
  - constructor; [cbn; lia|]. by apply Hw.
  - constructor; [cbn; lia|]. constructor; [cbn; lia|]. by apply Hw.
Qed.
