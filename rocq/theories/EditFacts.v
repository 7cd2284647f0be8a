(** Lemmas for [EditProps.v]. *)
From Coq Require Import Ascii QArith.
From stdpp Require Import prelude gmap strings.
From Verif Require Import DecModel LedgerTypes IsoModel IsoFacts JsonModel WireModel WireSpec WireFacts SpanModel ParserModel ServerModel
  CljModel InventoryModel ClientModel ClientDecode FormatModel PluginModel PluginSpec PluginFacts PluginMerge LoaderModel
  LoaderSpec EncodeModel EncodeFacts EncodeStable SystemModel SystemFacts SystemErrors SystemTrace AutoLedgerFacts EditModel EditSpec.
Import WireSpec.
Local Open Scope nat_scope.

Local Ltac away := first [by intros [=]|refine (bool_decide_unpack _ _); by vm_compute].

(** * What is not sent *)

(** [x] is [v] but for the mark and the spans which the client has added. *)
Definition hidden (v x : cval) : Prop :=
  is_map x = true ∧
  (∀ k, k ∉ ["provenance"; "span-p"; "postings"] → vget k x = vget k v) ∧
  (vget "postings" x = vget "postings" v ∨
   ∃ ps qs, vget "postings" v = Some (VVec ps) ∧ vget "postings" x = Some (VVec qs) ∧
     Forall2 (λ p q, is_map p = true ∧ is_map q = true ∧ ∀ k, k ≠ "span-p" → vget k q = vget k p) ps qs).
Lemma hidden_refl v : is_map v = true → hidden v v.
Proof. intros H. split; [done|]. split; [done|by left]. Qed.
Lemma hidden_mark name booked v x : mark name booked v = Some x → is_map v = true → hidden v x.
Proof.
  unfold mark. intros H Hv.
  assert (∃ w, vassoc "provenance" w v = Some x) as [w Hw].
  { destruct (vget "provenance" v) as [[]|]; try discriminate H; eauto. }
  split; [|split].
  - destruct (vassoc_map "provenance" w v Hv) as (y & Hy & Hm). congruence.
  - intros k Hk. eapply vget_vassoc_other; [|exact Hw]. set_solver.
  - left. eapply vget_vassoc_other; [|exact Hw]. done.
Qed.
Lemma hidden_made spec name booked v x : made spec name booked v = Some x → is_map v = true → hidden v x.
Proof.
  unfold made. intros H Hv. destruct (erroneous v); [injection H as <-; by apply hidden_refl|].
  destruct (mark name booked v) as [y|] eqn:E; [|done]. destruct (spec y); [|done]. injection H as <-. by eapply hidden_mark.
Qed.

Lemma hidden_shape v x : hidden v x → well_shaped v = true → well_shaped x = true.
Proof.
  intros (Hm & _ & Hp) Hw. unfold well_shaped in *. rewrite Hm. cbn [andb]. apply andb_true_iff in Hw as [_ Hw].
  unfold vpostings in *. destruct Hp as [->|(ps & qs & E & -> & HF)]; [done|].
  clear -HF. induction HF as [|p q ps qs (_ & Hq & _) _ IH]; [done|]. cbn [forallb]. by rewrite Hq, IH.
Qed.
Lemma hidden_get v x k : hidden v x → k ∉ ["provenance"; "span-p"; "postings"] → vget k x = vget k v.
Proof. intros (_ & H & _). apply H. Qed.
Lemma hidden_txn v x : hidden v x → is_txn x = is_txn v.
Proof. intros H. unfold is_txn. rewrite (hidden_get _ _ _ H); [done|]. set_solver. Qed.

(** * What is read *)

Lemma has_eq {A} (R : json → A → Prop) k fs fs' x : entries k fs' = entries k fs → has R k fs x → has R k fs' x.
Proof. unfold has. by intros ->. Qed.
Lemma has_opt_eq {A} (R : json → A → Prop) k fs fs' x : entries k fs' = entries k fs → has_opt R k fs x → has_opt R k fs' x.
Proof. unfold has_opt. by intros ->. Qed.

Section Read.
Context (dp : string → option dec).
Context (jso : list json → list json) (jmo : list (string * json) → list (string * json)).
Context (Hjso : ∀ l, jso l ≡ₚ l) (Hjmo : ∀ l, jmo l ≡ₚ l).
Notation encode := (encode jso jmo).
Notation reads v d := (get_directive dp (encode v) = Some d).

Lemma encode_map' v : is_map v = true → ∃ js, encode v = JObj js ∧ ∀ k, entries k js = option_list (encode <$> vget k v).
Proof. destruct v; try done. intros _. by apply encode_entries. Qed.

Local Ltac fields H :=
  repeat match goal with
  | |- _ ∧ _ => split
  | |- has _ _ _ _ => eapply has_eq; [|eassumption]; apply H; away
  | |- has_opt _ _ _ _ => eapply has_opt_eq; [|eassumption]; apply H; away
  end.
(** What belongs to the kind of a directive, with other postings and narration. *)
Lemma variant_eq fs fs' v :
  (∀ k, k ∉ ["span"; "date"; "tags"; "links"; "metadata"; "provenance"; "span-p"] → entries k fs' = entries k fs) →
  variant_json dp fs v → variant_json dp fs' v.
Proof. intros H. destruct v; cbn [variant_json]; intros Hv; destruct_and?; fields H. Qed.
Lemma directive_eq fs fs' d d' :
  (∀ k, k ∉ ["span"; "tags"; "links"; "metadata"; "provenance"; "span-p"] → entries k fs' = entries k fs) →
  directive_json dp (JObj fs) d → d_date d' = d_date d → d_variant d' = d_variant d →
  has_opt span_json "span" fs' (d_span d') → has_opt set_json "tags" fs' (d_tags d') → has_opt set_json "links" fs' (d_links d') →
  has_opt (map_json (meta_json dp)) "metadata" fs' (d_metadata d') → directive_json dp (JObj fs') d'.
Proof.
  intros H (fs0 & [= <-] & H1 & H2 & H3 & H4 & H5 & H6) E1 E2 ????. exists fs'. split; [done|]. rewrite E1, E2.
  split_and!; [done| |done..|].
  - eapply has_eq; [|eassumption]. apply H. away.
  - eapply variant_eq; [|eassumption]. intros k Hk. apply H. intros Hk'. apply Hk. set_solver +Hk'.
Qed.

Lemma posting_eq p q x : is_map p = true → is_map q = true → (∀ k, k ≠ "span-p" → vget k q = vget k p) →
  posting_json dp (encode p) x → posting_json dp (encode q) x.
Proof using Hjmo.
  intros Hp Hq H. destruct (encode_map' _ Hp) as (js & -> & He). destruct (encode_map' _ Hq) as (js' & -> & He').
  intros (fs & [= <-] & HP). exists js'. split; [done|]. destruct_and!.
  assert (Hk : ∀ k, k ≠ "span-p" → entries k js' = entries k js) by (intros k Hk; by rewrite He, He', H).
  fields Hk.
Qed.

(** What is hidden does not reach the server. *)
Theorem hidden_read v x d : is_map v = true → hidden v x → reads v d → reads x d.
Proof using Hjmo.
  intros Hv (Hx & Hk & Hps). rewrite !get_directive_iff.
  destruct (encode_map' _ Hv) as (js & -> & He). destruct (encode_map' _ Hx) as (js' & -> & He').
  intros (fs & [= <-] & H1 & H2 & H3 & H4 & H5 & H6). exists js'. split; [done|].
  assert (Hs : ∀ k, k ∉ ["provenance"; "span-p"; "postings"] → entries k js' = entries k js) by (intros k ?; by rewrite He, He', Hk).
  split_and!; fields Hs.
  destruct (d_variant d) eqn:Ev; cbn [variant_json] in *; destruct_and?; fields Hs.
  destruct Hps as [Hps|(ps & qs & E1 & E2 & HF)].
  { eapply has_eq; [|eassumption]. by rewrite (He "postings"), (He' "postings"), Hps. }
  match goal with H : has (list_json _) _ _ _ |- _ => destruct H as (w & Ew & (l & -> & HL)) end. rewrite He, E1 in Ew. cbn in Ew. injection Ew as <-.
  exists (JArr (map encode qs)). rewrite He', E2. split; [done|]. eexists. split; [done|].
  clear -HF HL Hjmo. revert HL. generalize (tx_postings t). induction HF as [|p q ps qs (Hp & Hq & H) _ IH]; intros l HL; [by inversion HL; constructor|].
  cbn [map] in HL. inversion HL as [|? y ? l' Hy HL']; subst. cbn [map]. constructor; [exact (posting_eq p q y Hp Hq H Hy)|by apply IH].
Qed.
End Read.

(** * Spans *)

Lemma merge_spans_hidden d g x :
  well_shaped d = true → length g = S (length (vpostings d)) → merge_spans d g = Some x → hidden d x.
Proof.
  intros Hw Hl. unfold well_shaped in Hw. apply andb_true_iff in Hw as [Hm Hps].
  destruct g as [|s ss]; [done|]. cbn [length] in Hl. injection Hl; intros Hl'. clear Hl.
  unfold merge_spans. change (default VNil (head (s :: ss))) with s. change (tail (s :: ss)) with ss.
  destruct (vassoc_map "span-p" s d Hm) as (d1 & Hd1 & Hm1). rewrite Hd1. cbn [mbind option_bind].
  assert (Hg : ∀ k, k ∉ ["provenance"; "span-p"; "postings"] → vget k d1 = vget k d).
  { intros k Hk. eapply vget_vassoc_other; [|exact Hd1]. set_solver. }
  destruct ss as [|s2 ss].
  - intros [= <-]. split; [done|]. split; [done|]. left. eapply vget_vassoc_other; [|exact Hd1]. done.
  - destruct (mapM_vassoc_spans (vpostings d) Hps (s2 :: ss) ltac:(done)) as (ps' & Hp' & HF). rewrite Hp'. cbn [mbind option_bind].
    destruct (vassoc_map "postings" (VVec ps') d1 Hm1) as (d2 & Hd2 & Hm2). rewrite Hd2. intros [= <-].
    split; [done|]. split.
    { intros k Hk. rewrite <- (Hg k Hk). eapply vget_vassoc_other; [|exact Hd2]. set_solver. }
    right. assert (∃ ps, vget "postings" d = Some (VVec ps) ∧ vpostings d = ps) as (ps & E & Ev).
    { unfold vpostings in *. destruct (vget "postings" d) as [[]|]; try done. eauto. }
    exists ps, ps'. split; [done|]. split; [by eapply vget_vassoc_same|]. rewrite Ev in *.
    apply mapM_Some in Hp'. clear -HF Hps Hp' Hl'. revert Hps Hl' Hp' HF. generalize (s2 :: ss) as ts.
    revert ps'. induction ps as [|p ps IH]; intros ps' ts Hps Hl Hp HF; inversion HF; subst; [constructor|].
    cbn [forallb] in Hps. apply andb_true_iff in Hps as [Hp0 Hps]. cbn in Hp. inversion Hp; subst.
    constructor; [|eapply IH; [done| |done|done]; cbn in Hl; lia].
    destruct (vassoc_map "span-p" y p Hp0) as (q & Hq & Hqm). split; [done|]. split; [congruence|]. by destruct_and!.
Qed.
Lemma map_n_hidden so ds : ∀ rgs spans xs,
  Forall2 (λ d rg, span_requests_of so d = Some rg) ds rgs →
  Forall (λ d, well_shaped d = true) ds →
  Forall (λ d, is_txn d = true ∨ vpostings d = []) ds →
  length spans = length (mjoin rgs) →
  map_n n_spans merge_spans ds spans = Some xs → Forall2 hidden ds xs.
Proof.
  induction ds as [|d ds IH]; intros rgs spans xs HF Hw Hp Hl; cbn [map_n]; [intros [= <-]; constructor|].
  inversion HF as [|? rg ? rgs' Hrg HF']; subst. inversion Hw as [|? ? Hwd Hw']; subst. inversion Hp as [|? ? Hpd Hp']; subst.
  pose proof (span_requests_of_length _ _ _ Hrg (λ _, Hpd)) as Hlen.
  change (mjoin (rg :: rgs')) with (rg ++ mjoin rgs') in Hl. rewrite app_length in Hl. rewrite <- Hlen.
  destruct (length rg) as [|n] eqn:En; cbn [Nat.eqb].
  - destruct (map_n _ _ ds spans) as [r|] eqn:E; [|done]. cbn [mbind option_bind]. intros [= <-]. constructor.
    + apply hidden_refl. unfold well_shaped in Hwd. by apply andb_true_iff in Hwd as [? _].
    + by eapply (IH rgs').
  - destruct (merge_spans d _) as [a'|] eqn:Ea; [|done]. cbn [mbind option_bind].
    destruct (map_n _ _ ds (drop _ _)) as [r|] eqn:E; [|done]. cbn [mbind option_bind]. intros [= <-]. constructor.
    + eapply merge_spans_hidden; [done| |exact Ea]. rewrite take_length. unfold n_spans in Hlen. destruct (marked d); [lia|done].
    + eapply (IH rgs'); [done..| |done]. rewrite drop_length. lia.
Qed.
Lemma merge_hidden so create ds xs :
  (∀ rs spans, create rs = Some spans → length spans = length rs) →
  Forall (λ d, well_shaped d = true) ds → Forall (λ d, is_txn d = true ∨ vpostings d = []) ds →
  merge_with_provenance so create ds = Some xs → Forall2 hidden ds xs.
Proof.
  intros Hc Hw Hp. unfold merge_with_provenance. destruct (span_requests so ds) as [rs|] eqn:Hrs; [|done]. cbn [mbind option_bind].
  destruct (span_requests_groups _ _ _ Hrs) as (rgs & <- & HF).
  assert (Forall2 hidden ds ds) as Hrefl.
  { apply Forall_Forall2_diag. eapply Forall_impl; [exact Hw|]. intros d Hd. apply hidden_refl. unfold well_shaped in Hd. by apply andb_true_iff in Hd as [? _]. }
  destruct (mjoin rgs) as [|r rs] eqn:Hj; cbn [mbind option_bind]; [by intros [= <-]|].
  destruct (create (r :: rs)) as [spans|] eqn:Ec; [|done]. apply Hc in Ec. cbn [mbind option_bind].
  destruct spans as [|s spans]; [done|]. intros H. eapply (map_n_hidden so ds rgs (s :: spans)); [done..| |done]. by rewrite Hj.
Qed.

(** * Steps *)

Lemma through_stepwise spec booked name f ds out :
  through spec booked (name, stepwise f) ds = Some out →
  ∃ parts, out = mjoin parts ∧
    Forall2 (λ d part, ∃ es, f d = Some es ∧
      Forall2 (λ e x, match e with Same => x = d | New d' => made spec name booked d' = Some x end) es part) ds parts.
Proof.
  unfold through. cbn [fst snd stepwise px_step px_done]. destruct (mapM _ (beginnings ds)) as [outs|] eqn:E; [|done].
  cbn [leaves mapM fmap option_fmap option_map mjoin list_join app]. intros [= <-]. exists outs. rewrite app_nil_r. split; [done|].
  apply mapM_Some in E. unfold beginnings in E. rewrite Forall2_fmap_l in E.
  assert (length outs = length ds) as Hl. { apply Forall2_length in E. by rewrite seq_length in E. }
  apply Forall2_same_length_lookup_2; [done|]. intros i d part Hd Hpart.
  assert (Hi : i < length ds) by by eapply lookup_lt_Some.
  destruct (Forall2_lookup_r _ _ _ _ _ E Hpart) as (n & Hn & H). apply lookup_seq in Hn as [-> _]. cbn [Nat.add] in H.
  assert (Hlast : last (take (S i) ds) = Some d).
  { erewrite take_S_r by done. by rewrite last_snoc. }
  cbv beta in H. unfold compose in H. rewrite Hlast in H. destruct (f d) as [es|] eqn:Ef; [|done]. exists es. split; [done|].
  cbn [fmap option_fmap option_map leaves] in H. destruct (mapM _ _) as [parts|] eqn:Em; [|done]. injection H as <-.
  apply mapM_Some in Em. apply Forall2_fmap_l in Em.
  assert (Hpass : take (S i) ds !! pred (length (take (S i) ds)) = Some d) by by rewrite <- last_lookup.
  clear -Em Hpass. induction Em as [|e p es parts He _ IH]; [constructor|].
  change (mjoin (p :: parts)) with (p ++ mjoin parts).
  unfold compose in He. destruct e as [|d']; cbv beta iota in He.
  - rewrite Hpass in He. injection He as <-. by constructor.
  - destruct (made _ _ _ d') as [x|] eqn:Ex; [|done]. injection He as <-. by constructor.
Qed.

Lemma proper_map v : proper v → is_map v = true.
Proof. intros (H & _). unfold well_shaped in H. by apply andb_true_iff in H as [? _]. Qed.
Lemma proper_hidden v x : hidden v x → proper v → proper x.
Proof.
  intros Hh (Hw & Hk & Ht & Hs & Hq). split; [by eapply hidden_shape|].
  assert (Hg : ∀ k, k ∈ ["dct"; "acc"; "payee"; "narration"] → vget k x = vget k v).
  { intros k Hin. apply (hidden_get _ _ _ Hh). set_solver. }
  split; [|split; [|split]].
  - destruct Hk as [k Hk]. exists k. rewrite Hg; [done|away].
  - rewrite (hidden_txn _ _ Hh). destruct Ht as [Ht|Ht]; [by left|right]. rewrite !Forall_cons in *. destruct Ht as (H1 & H2 & H3 & _).
    rewrite (Hg "payee"), (Hg "narration") by away. split_and!; try done. destruct Hh as (_ & _ & [->|(ps & qs & E & _)]); [done|congruence].
  - revert Hs. unfold texts. rewrite !Forall_cons, (Hg "acc"), (Hg "payee"), (Hg "narration") by away. intros (H1 & H2 & H3 & _). split_and!; [exact H1|exact H2|exact H3|constructor].
  - destruct Hh as (_ & _ & [->|(ps & qs & E & E' & HF)]); [done|]. rewrite E in Hq. rewrite E'.
    clear -HF Hq. induction HF as [|p q ps qs (_ & _ & H) _ IH]; [constructor|]. apply Forall_cons in Hq as [Hp Hq].
    constructor; [|by apply IH]. unfold texts in *. by rewrite H.
Qed.

Section Chain.
Context (dp : string → option dec).
Context (jso : list json → list json) (jmo : list (string * json) → list (string * json)).
Context (Hjso : ∀ l, jso l ≡ₚ l) (Hjmo : ∀ l, jmo l ≡ₚ l).
Notation holds := (holds dp jso jmo).
Notation makes := (makes dp jso jmo).

Lemma holds_hidden v x d : hidden v x → holds v d → holds x d.
Proof using Hjmo.
  intros Hh [Hr Hp]. split; [|by eapply proper_hidden]. eapply hidden_read; [exact Hjmo| |done|done]. by apply proper_map.
Qed.

Lemma through_makes spec booked name f R vs ds out :
  makes f R → Forall2 holds vs ds → through spec booked (name, stepwise f) vs = Some out →
  ∃ l, edited R ds l ∧ Forall2 holds out l.
Proof using Hjmo.
  intros Hm HF Ht. apply through_stepwise in Ht as (parts & -> & HP).
  revert ds HF. induction HP as [|v part vs parts (es & Hes & Hp) HP IH]; intros ds HF; inversion HF as [|? d ? ds' Hd HF']; subst.
  { exists []. split; [|constructor]. exists []. by split; [constructor|]. }
  destruct (IH _ HF') as (l & (ls & HR & ->) & Hl). destruct (Hm v d es Hd Hes) as (ds0 & HR0 & HE).
  exists (ds0 ++ mjoin ls). split; [exists (ds0 :: ls); split; [by constructor|done]|].
  change (mjoin (part :: parts)) with (part ++ mjoin parts). apply Forall2_app; [|done].
  clear -HE Hp Hd Hjmo. revert part Hp. induction HE as [|e y es ys He _ IH]; intros part Hp; inversion Hp as [|? x ? part' Hx Hp']; subst; constructor; [|by apply IH].
  destruct e as [|v']; cbn [item_holds] in He.
  - by subst.
  - eapply holds_hidden; [|exact He]. eapply hidden_made; [exact Hx|]. destruct He. by apply proper_map.
Qed.
Lemma chain_makes spec booked ps : ∀ Rs vs ds out,
  Forall2 (λ (p : string * plugin_xf) R, ∃ f, p.2 = stepwise f ∧ makes f R) ps Rs →
  Forall2 holds vs ds → chain spec booked ps vs = Some out →
  ∃ l, edited_by Rs ds l ∧ Forall2 holds out l.
Proof using Hjmo.
  induction ps as [|[name xf] ps IH]; intros Rs vs ds out HP HF Hc; inversion HP as [|? R ? Rs' (f & Hf & Hm) HP']; subst.
  { cbn in Hc. injection Hc as <-. by exists ds. }
  cbn [snd] in Hf. subst xf. cbn [chain] in Hc. destruct (through _ _ _ _) as [vs'|] eqn:Et; [|done].
  destruct (through_makes _ _ _ _ _ _ _ _ Hm HF Et) as (ds' & Hed & HF'). destruct (IH _ _ _ _ HP' HF' Hc) as (l & Hl & Hout).
  exists l. split; [by exists ds'|done].
Qed.
Lemma holds_read vs ds : Forall2 holds vs ds → mapM (get_directive dp) (encode jso jmo <$> vs) = Some ds.
Proof. intros H. apply mapM_Some, Forall2_fmap_l. eapply Forall2_impl; [exact H|]. by intros v d [? _]. Qed.
End Chain.
