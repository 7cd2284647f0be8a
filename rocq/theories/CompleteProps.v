(** Theorems about what the client accepts from plugins. *)
From Coq Require Import Ascii QArith.
From stdpp Require Import prelude gmap strings.
From Verif Require Import DecModel LedgerTypes IsoModel JsonModel WireModel CljModel InventoryModel ClientModel FormatModel
  PluginModel PluginSpec PluginFacts PluginMerge PluginProps SpecModel LoaderModel LoaderSpec LoaderFacts LoaderProps SystemErrors AfterProps EncodeModel CompleteSpec CompleteFacts.
Local Open Scope nat_scope.

(** * C109 *)

(** The specification accepts what is complete, besides that only directives whose
    kind is nil. *)
Theorem C109_accepts booked v : directive_spec booked v = true ↔ complete booked v ∨ kindless v.
Proof.
  unfold directive_spec, complete, kindless, has. rewrite andb_true_iff, base_iff.
  destruct (vget "dct" v) as [x|] eqn:E; [|naive_solver].
  assert ((∀ k, x ≠ VKw k) → (∃ y, Some x = Some y ∧ ∃ k, y = VKw k ∧ of_kind booked v k) ↔ False) as Hno.
  { intros Hx. split; [|done]. intros (y & Hy & k & -> & _). injection Hy as ->. by apply (Hx k). }
  destruct x as [| | | |k| | | | |]; try (rewrite Hno by done; naive_solver).
  clear Hno. split.
  - intros [Hb Hv]. left. split; [done|]. eexists; split; [done|]. eexists; split; [done|].
    by apply (variant_iff booked v _ (proj1 Hb)).
  - intros [(Hb & y & [= <-] & k' & [= <-] & Hk)|(_ & [=])]. split; [done|]. by apply (variant_iff booked v _ (proj1 Hb)).
Qed.
Print Assumptions C109_accepts.

(** ** What the marks and the spans change *)
Lemma has_eq d x k P : vget k x = vget k d → has d k P → has x k P.
Proof. unfold has. by intros ->. Qed.
Lemma may_eq d x k P : vget k x = vget k d → may_have d k P → may_have x k P.
Proof. unfold may_have. by intros ->. Qed.
Definition agree (ks : list string) (d x : cval) : Prop := (a_map d → a_map x) ∧ ∀ k, k ∉ ks → vget k x = vget k d.
Ltac other H := apply H; rewrite !elem_of_cons, elem_of_nil; let N := fresh in by intros N; repeat destruct N as [N|N].
Ltac carry H := first [ eapply has_eq; [other H|done] | eapply may_eq; [other H|done] ].
Lemma dated_agree d x : agree ["provenance"; "span-p"; "postings"] d x → dated d → dated x.
Proof. intros [Hm Ha] (M & D & T & L & E). split; [by apply Hm|]. split; [carry Ha|]. split_and!; carry Ha. Qed.
Lemma kindless_agree d x : agree ["provenance"; "span-p"; "postings"] d x → kindless d → kindless x.
Proof. intros H [D K]. split; [by eapply dated_agree|]. rewrite <- K. destruct H as [_ H]. other H. Qed.
Lemma complete_agree (booked : bool) d x :
  agree ["provenance"; "span-p"; "postings"] d x →
  may_have x "postings" (list_of (if booked then booked_posting else raw_posting)) ∨ vget "postings" x = vget "postings" d →
  complete booked d → complete booked x.
Proof.
  intros H Hp [D (y & Hy & k & -> & Hk)]. split; [by eapply dated_agree|]. destruct H as [_ H].
  eexists. split; [rewrite <- Hy; other H|]. eexists. split; [done|].
  destruct Hk; try (constructor; try carry H; unfold absent in *; carry H).
  constructor; try carry H. destruct Hp as [Hp|Hp]; [done|]. by eapply may_eq.
Qed.
Lemma vassoc_agree k v d x : vassoc k v d = Some x → agree [k] d x.
Proof.
  intros H. split.
  - intros (fs & ->). injection H as <-. by eexists.
  - intros k' Hk. eapply vget_vassoc_other; [|exact H]. intros ->. apply Hk. by left.
Qed.
Lemma agree_trans ks d x y : agree ks d x → agree ks x y → agree ks d y.
Proof. intros [A B] [C D]. split; [auto|]. intros k Hk. by rewrite D, B. Qed.
Lemma agree_weaken ks ks' d x : ks ⊆ ks' → agree ks d x → agree ks' d x.
Proof. intros Hs [A B]. split; [done|]. intros k Hk. apply B. auto. Qed.
Lemma mark_agree name booked d x : mark name booked d = Some x → agree ["provenance"] d x.
Proof. unfold mark. destruct (vget "provenance" d) as [[]|]; try done; apply vassoc_agree. Qed.

Lemma mark_complete name booked bk d x : mark name booked d = Some x → (complete bk x ↔ complete bk d) ∧ (kindless x ↔ kindless d).
Proof.
  intros H. pose proof (mark_agree _ _ _ _ H) as [Hm Ha].
  assert (agree ["provenance"; "span-p"; "postings"] d x) as H1 by (eapply agree_weaken; [|by split]; set_solver).
  assert (Hmap : a_map x → vget "date" x ≠ None → a_map d).
  { intros _ Hd. destruct d; try by (rewrite Ha in Hd by (by intros K%elem_of_list_singleton)). by eexists. }
  assert (Hb : dated x → agree ["provenance"; "span-p"; "postings"] x d).
  { intros (M & (y & Hy & _) & _). split; [intros _; apply Hmap; [done|by rewrite Hy]|].
    intros k Hk. symmetry. apply H1. done. }
  assert (Hpo : vget "postings" x = vget "postings" d) by (apply Ha; by intros K%elem_of_list_singleton).
  split; split; intros Hc.
  - eapply complete_agree; [apply Hb, Hc|by right|done].
  - eapply complete_agree; [exact H1|by right|done].
  - eapply kindless_agree; [apply Hb, Hc|done].
  - by eapply kindless_agree.
Qed.

(** Whatever the plugins of a phase do: each directive which they leave has an error
    or is complete, or its kind is nil.  Missing: that the kind is not nil, which does
    not hold, see [C109_nil_refuted]. *)
Theorem C109_left_partial code ps booked ds out d :
  (∀ i j, code i = code j → i = j) →
  run_plugins code (directive_spec booked) ps booked ds = Some out → d ∈ out →
  erroneous d = true ∨ complete booked d ∨ kindless d.
Proof.
  intros Hinj. rewrite C50_chain by done. destruct (acceptable _ ds) eqn:Ha; [|done].
  assert (∀ d, d ∈ ds → erroneous d = true ∨ complete booked d ∨ kindless d) as Hds.
  { intros d' Hd'. unfold acceptable in Ha. rewrite forallb_elem in Ha. specialize (Ha _ Hd').
    rewrite orb_true_iff, C109_accepts in Ha. tauto. }
  clear Ha. generalize (of_phase booked ps). intros pts. revert ds Hds. induction pts as [|p pts IH]; intros ds Hds; cbn [chain].
  - intros [= <-]. apply Hds.
  - destruct (through _ booked p ds) as [ds'|] eqn:Ht; [|done]. apply IH. intros d' Hd'.
    destruct (through_elem _ _ _ _ _ _ Ht Hd') as [H|(d0 & H)]; [by apply Hds|].
    unfold made in H. destruct (erroneous d0) eqn:He; [injection H as <-; by left|].
    destruct (mark p.1 booked d0) as [d1|]; [|done]. destruct (directive_spec booked d1) eqn:Hs; [|done].
    injection H as <-. right. by apply C109_accepts.
Qed.
Print Assumptions C109_left_partial.

(** If a plugin makes a directive without an error which is not complete, and whose
    kind is not nil, the run fails; so it does if it is given one.  [pre] are the
    plugins before it, which leave [mid]; [h] is what it has received when it makes
    the directive. *)
Theorem C109_refused code pre p xf post (booked : bool) ds mid (h : list cval) es d :
  (∀ i j, code i = code j → i = j) →
  (if booked then pl_booked p else pl_raw p) = Some xf →
  run_plugins code (directive_spec booked) pre booked ds = Some mid →
  (h ≠ [] ∧ h `prefix_of` mid ∧ px_step xf h = Some es ∨ h = mid ∧ px_done xf h = Some es) →
  Emit d ∈ es → erroneous d = false → ¬ complete booked d → ¬ kindless d →
  run_plugins code (directive_spec booked) (pre ++ p :: post) booked ds = None.
Proof.
  intros Hinj Hxf. rewrite !C50_chain by done. destruct (acceptable _ ds); [|done]. intros Hpre Hes Hd He Hnc Hnk.
  assert (of_phase booked (pre ++ p :: post) = of_phase booked pre ++ (pl_name p, xf) :: of_phase booked post) as ->.
  { unfold of_phase. rewrite omap_app. cbn [omap list_omap]. by rewrite Hxf. }
  assert (∀ (a b : list (string * plugin_xf)) (l : list cval), chain (directive_spec booked) booked (a ++ b) l = chain (directive_spec booked) booked a l ≫= chain (directive_spec booked) booked b) as Happ.
  { induction a as [|q a IH]; intros b l; cbn [app chain]; [done|]. destruct (through _ _ q l); [apply IH|done]. }
  rewrite Happ, Hpre. cbn [mbind option_bind chain].
  assert (through (directive_spec booked) booked (pl_name p, xf) mid = None) as ->; [|done].
  assert (Hl : leaves (directive_spec booked) (pl_name p) booked h (Some es) = None).
  { unfold leaves. destruct (mapM _ es) as [oss|] eqn:HM; [|done]. exfalso. apply mapM_Some in HM.
    apply elem_of_list_lookup in Hd as (i & Hi). destruct (Forall2_lookup_l _ _ _ _ _ HM Hi) as (o & _ & Ho).
    cbn in Ho. unfold made in Ho. rewrite He in Ho. destruct (mark (pl_name p) booked d) as [d'|] eqn:Hm; [|done].
    destruct (directive_spec booked d') eqn:Hs; [|done]. apply C109_accepts in Hs.
    destruct (mark_complete _ _ booked _ _ Hm) as [H1 H2]. tauto. }
  unfold through. cbn [fst snd]. destruct Hes as [(Hne & Hpx & Hst)|(-> & Hdn)].
  - destruct (mapM _ (beginnings mid)) as [outs|] eqn:HM; [|done]. exfalso. apply mapM_Some in HM.
    assert (h ∈ beginnings mid) as Hin.
    { unfold beginnings. apply elem_of_list_fmap. exists (pred (length h)).
      destruct Hpx as (r & ->). destruct h as [|x h]; [done|]. cbn [length pred].
      split; [symmetry; apply (take_app_alt (x :: h)); done|]. apply elem_of_seq. rewrite app_length. cbn [length]. lia. }
    apply elem_of_list_lookup in Hin as (i & Hi). destruct (Forall2_lookup_l _ _ _ _ _ HM Hi) as (o & _ & Ho).
    rewrite Hst, Hl in Ho. done.
  - rewrite Hdn, Hl. by destruct (mapM _ _).
Qed.
Print Assumptions C109_refused.
(** What goes into a phase has to be complete too. *)
Theorem C109_given code ps booked ds d :
  (∀ i j, code i = code j → i = j) → d ∈ ds → erroneous d = false → ¬ complete booked d → ¬ kindless d →
  run_plugins code (directive_spec booked) ps booked ds = None.
Proof.
  intros Hinj Hd He Hnc Hnk. rewrite C50_chain by done.
  assert (acceptable (directive_spec booked) ds = false) as ->; [|done]. apply not_true_iff_false. unfold acceptable.
  rewrite forallb_elem. intros H. specialize (H _ Hd). rewrite He in H. cbn [orb] in H. apply C109_accepts in H. tauto.
Qed.
Print Assumptions C109_given.

(** ** After loading *)
Lemma posting_agree (booked : bool) s p x :
  vassoc "span-p" s p = Some x → (if booked then booked_posting else raw_posting) p → (if booked then booked_posting else raw_posting) x.
Proof.
  intros [Hm Ha]%vassoc_agree. destruct booked; intros (M & (T & L & E) & F & A & U & C & K & P);
    (split; [by apply Hm|]; unfold decorated; split_and!; carry Ha).
Qed.
Lemma merge_spans_complete booked d g x : merge_spans d g = Some x →
  (complete booked d → complete booked x) ∧ (kindless d → kindless x) ∧ erroneous x = erroneous d.
Proof.
  unfold merge_spans. intros H. destruct (vassoc "span-p" _ d) as [d1|] eqn:E; [|done]. cbn [mbind option_bind] in H.
  pose proof (vassoc_agree _ _ _ _ E) as A1.
  assert (W1 : agree ["provenance"; "span-p"; "postings"] d d1) by (eapply agree_weaken; [|done]; set_solver).
  assert (P1 : vget "postings" d1 = vget "postings" d) by (destruct A1 as [_ A1]; other A1).
  assert (X1 : vget "err" d1 = vget "err" d) by (destruct A1 as [_ A1]; other A1).
  destruct (tail g) as [|s rest].
  { injection H as <-. split_and!; [intros ?; eapply complete_agree; [done|by right|done]|by apply kindless_agree|].
    unfold erroneous. by rewrite X1. }
  destruct (mapM _ _) as [ps|] eqn:HM; [|done]. cbn [mbind option_bind] in H.
  pose proof (vassoc_agree _ _ _ _ H) as A2.
  assert (W2 : agree ["provenance"; "span-p"; "postings"] d x).
  { eapply agree_trans; [done|]. eapply agree_weaken; [|done]. set_solver. }
  split_and!; [|by apply kindless_agree|].
  - intros [D (z & Hz & k & -> & Hk)]. split; [by eapply dated_agree|]. destruct W2 as [_ W2].
    eexists. split; [rewrite <- Hz; other W2|]. eexists. split; [done|].
    destruct Hk as [HF HP HN Hp| | | | | | | | | | |]; [|constructor; try carry W2; unfold absent in *; carry W2..].
    constructor; try carry W2. intros y Hy. rewrite (vget_vassoc_same _ _ _ _ H) in Hy. injection Hy as <-.
    exists ps. split; [done|]. intros q Hq. apply mapM_Some in HM. apply elem_of_list_lookup in Hq as (i & Hq).
    destruct (Forall2_lookup_r _ _ _ _ _ HM Hq) as ([p0 s0] & Hl & Hv).
    apply elem_of_list_lookup_2, elem_of_zip_l in Hl. eapply posting_agree; [done|].
    unfold vpostings in Hl. destruct (vget "postings" d) as [[]|] eqn:Ep; try by apply elem_of_nil in Hl.
    destruct (Hp _ Ep) as (l' & [= <-] & Hall). by apply Hall.
  - unfold erroneous. destruct W2 as [_ W2]. assert (vget "err" x = vget "err" d) as -> by other W2. done.
Qed.
Lemma merge_complete so create booked ds xs : merge_with_provenance so create ds = Some xs →
  Forall2 (λ d x, (complete booked d → complete booked x) ∧ (kindless d → kindless x) ∧ erroneous x = erroneous d) ds xs.
Proof.
  unfold merge_with_provenance. intros H. destruct (span_requests so ds) as [rs|]; [|done]. cbn [mbind option_bind] in H.
  destruct (match rs with [] => _ | _ => _ end) as [spans|]; [|done]. cbn [mbind option_bind] in H.
  destruct spans as [|s ss].
  - injection H as <-. apply Forall_Forall2_diag, Forall_forall. done.
  - eapply map_n_keeps; [|apply merge_spans_complete|exact H]. done.
Qed.

(** A ledger with plugins after booking, loaded without errors: each directive is
    complete or its kind is nil.  Missing: as above. *)
Theorem C109_loaded_partial env read_config code so ask m ds d :
  (∀ i j, code i = code j → i = j) →
  load env read_config code directive_spec so ask = Some m → l_error m = None →
  of_phase true (l_plugins m) ≠ [] → l_directives m = Some ds → d ∈ ds →
  complete true d ∨ kindless d.
Proof.
  intros Hinj H He Hp Hds Hd.
  destruct (load_after _ _ _ _ _ _ _ H He) as (sp & vs & _ & _ & _ & [[? _]|(out & xs & Hr & Hm & Hx)]); [done|].
  assert (xs = ds) as -> by congruence.
  pose proof (C53_outcome _ _ _ _ _ _ _ H) as Ho. unfold outcome_shown in Ho. rewrite He in Ho.
  destruct Ho as (_&_&_&_&_&Hpp&Hdir). destruct Hpp as [[? _]|(_ & xs & Hxs & Hno)]; [done|].
  rewrite Hxs in Hdir. assert (xs = ds) as -> by congruence.
  rewrite Forall_forall in Hno. specialize (Hno _ Hd).
  apply elem_of_list_lookup in Hd as (i & Hi).
  destruct (Forall2_lookup_r _ _ _ _ _ (merge_complete _ _ true _ _ Hm) Hi) as (d0 & Hd0 & Hc & Hk & Hee).
  destruct (C109_left_partial code _ true _ _ d0 Hinj Hr) as [H1|[H1|H1]]; [by eapply elem_of_list_lookup_2|..].
  - congruence.
  - left. by apply Hc.
  - right. by apply Hk.
Qed.
Print Assumptions C109_loaded_partial.

(** The postings of a complete booked transaction can be read: each has an account,
    units and a currency, and if it has a cost that is readable too. *)
Lemma view_number x : number x → is_Some (view_num x).
Proof. intros [(d & ->)|(z & ->)]; by eexists. Qed.
Lemma view_text_some x : text x → is_Some (view_str x).
Proof. intros (s & ->). by eexists. Qed.
Lemma req_some {A} (f : cval → option A) v k P : has v k P → (∀ x, P x → is_Some (f x)) → is_Some (view_req f k v).
Proof. intros (x & Hx & Hp) H. unfold view_req. rewrite Hx. auto. Qed.
Lemma opt_some {A} (f : cval → option A) v k P : may_have v k P → (∀ x, P x → is_Some (f x)) → is_Some (view_opt f k v).
Proof.
  intros Hm H. unfold view_opt. destruct (vget k v) as [x|] eqn:E; [|by eexists].
  destruct (H x (Hm _ E)) as (y & ->). by eexists.
Qed.
Lemma view_cost_some v : cost v → is_Some (view_cost v).
Proof.
  intros (_ & P & T & C & D & L & M). unfold view_cost.
  destruct (req_some view_date _ _ _ D) as (d & ->); [by intros x (z & ->); eexists|]. cbn [mbind option_bind].
  destruct (req_some view_str _ _ _ C view_text_some) as (c & ->). cbn [mbind option_bind].
  destruct (req_some view_num _ _ _ P view_number) as (u & ->). cbn [mbind option_bind].
  destruct (req_some view_num _ _ _ T view_number) as (t & ->). cbn [mbind option_bind].
  destruct (opt_some view_str _ _ _ L view_text_some) as (l & ->). cbn [mbind option_bind].
  destruct (opt_some view_bool _ _ _ M) as (m & ->); [by intros x (z & ->); eexists|]. by eexists.
Qed.
Lemma view_posting_some v : booked_posting v → is_Some (view_posting v).
Proof.
  intros (_ & _ & F & A & U & C & K & _). unfold view_posting.
  destruct (opt_some view_str _ _ _ F view_text_some) as (f & ->). cbn [mbind option_bind].
  destruct (req_some view_str _ _ _ A view_text_some) as (a & ->). cbn [mbind option_bind].
  destruct (req_some view_num _ _ _ U view_number) as (u & ->). cbn [mbind option_bind].
  destruct (req_some view_str _ _ _ C view_text_some) as (c & ->). cbn [mbind option_bind].
  destruct (opt_some view_cost _ _ _ K view_cost_some) as (k & ->). by eexists.
Qed.
Theorem C109_readable d :
  complete true d → vget "dct" d = Some (VKw "txn") →
  ∃ ps, view_opt (view_list view_posting) "postings" d = Some ps ∧ length (default [] ps) = length (vpostings d).
Proof.
  intros [_ (x & Hx & k & -> & Hk)] Ht. rewrite Ht in Hx. injection Hx as <-.
  assert (may_have d "postings" (list_of booked_posting)) as Hp by (by inversion Hk).
  unfold view_opt, vpostings. destruct (vget "postings" d) as [y|] eqn:E; [|by exists None].
  destruct (Hp _ E) as (l & -> & Hl). cbn [view_list].
  assert (is_Some (mapM view_posting l)) as (ps & Hps).
  { apply mapM_is_Some. apply Forall_forall. intros p Hq. by apply view_posting_some, Hl. }
  exists (Some ps). rewrite Hps. split; [done|]. cbn. symmetry. by eapply mapM_length.
Qed.
Print Assumptions C109_readable.

(** ** Examples *)

(** A transaction with costs, complete before and after booking. *)
Definition whole : cval :=
  VMap [("dct", VKw "txn"); ("date", VDate (Date 2024 1 2)); ("flag", VStr "*"); ("tags", VSet [VStr "trip"]);
        ("metadata", VMap [("n", VMap [("units", VNum (CLong 3)); ("cur", VStr "NZD")])]);
        ("postings", VVec [VMap [("acc", VStr "Assets:Shares"); ("units", VNum (CDec (Dec 15 1))); ("cur", VStr "ACME");
                                 ("cost", VMap [("per-unit", VNum (CLong 4)); ("total", VNum (CLong 6)); ("cur", VStr "NZD"); ("date", VDate (Date 2024 1 2))])];
                           VMap [("acc", VStr "Assets:Cash"); ("units", VNum (CLong (-6))); ("cur", VStr "NZD")]])].
Example C109_accepts_example :
  complete true whole ∧ complete false whole ∧ ¬ complete true (VMap [("dct", VKw "txn"); ("date", VDate (Date 2024 1 2))]) ∧
  ¬ complete true (VMap [("dct", VKw "pad"); ("date", VDate (Date 2024 1 2)); ("acc", VStr "Assets:Cash")]).
Proof.
  assert (∀ b v, complete b v ↔ directive_spec b v = true ∧ vget "dct" v ≠ Some VNil) as H.
  { intros b v. rewrite C109_accepts. split; [|unfold kindless; tauto]. intros Hc. split; [by left|].
    destruct Hc as (_ & x & -> & k & -> & _). done. }
  rewrite !H. split_and!; try done; by intros [K _].
Qed.
(** A plugin which leaves what it is given, and adds [d] at the end. *)
Definition adds (d : cval) : plugin_xf := PluginXf (px_step passive) (λ _, Some [Emit d]).
Example C109_left_example :
  ∃ out, run_plugins id (directive_spec true) [booked_plugin "p.adding" (adds whole)] true [s_open 0 "Assets:Cash"] = Some out ∧ length out = 2.
Proof. eexists. split; [by vm_compute|done]. Qed.
(** One which adds a pad without a source. *)
Definition half : cval := VMap [("dct", VKw "pad"); ("date", VDate (Date 2024 1 2)); ("acc", VStr "Assets:Cash")].
Example C109_refused_example :
  run_plugins id (directive_spec true) [booked_plugin "p.passive" passive] true [s_open 0 "Assets:Cash"] = Some [s_open 0 "Assets:Cash"] ∧
  px_done (adds half) [s_open 0 "Assets:Cash"] = Some [Emit half] ∧ erroneous half = false ∧ ¬ complete true half ∧ ¬ kindless half.
Proof.
  split; [by vm_compute|]. split; [done|]. split; [done|].
  assert (¬ (complete true half ∨ kindless half)) as H by (by rewrite <- C109_accepts). tauto.
Qed.

(** A directive whose kind is nil is taken from a plugin, without an error. *)
Theorem C109_nil_refuted :
  ∃ ps ds out d, run_plugins id (directive_spec true) ps true ds = Some out ∧ d ∈ out ∧ erroneous d = false ∧ ¬ complete true d.
Proof.
  exists [booked_plugin "p.adding" (adds (VMap [("dct", VNil); ("date", VDate (Date 2024 1 2))]))], [s_open 0 "Assets:Cash"].
  eexists. eexists. split; [by vm_compute|]. split; [right; left|]. split; [done|].
  intros (_ & x & Hx & k & -> & _). vm_compute in Hx. discriminate Hx.
Qed.
Print Assumptions C109_nil_refuted.
(** Before booking a posting may be without an account, which the server refuses. *)
Theorem C109_sent_refuted :
  ∃ d, complete false d ∧ ∀ dp, get_directive dp (encode id id d) = None.
Proof.
  exists (VMap [("dct", VKw "txn"); ("date", VDate (Date 2024 1 2)); ("flag", VStr "*"); ("postings", VVec [VMap []])]). split.
  - assert (directive_spec false (VMap [("dct", VKw "txn"); ("date", VDate (Date 2024 1 2)); ("flag", VStr "*"); ("postings", VVec [VMap []])]) = true)
      as [H|[_ H]]%C109_accepts by (by vm_compute); [done|discriminate H].
  - intros dp. by vm_compute.
Qed.
Print Assumptions C109_sent_refuted.
(** A ledger with a plugin after booking which loads, and the same ledger with one
    which adds the pad without a source. *)
Definition c_env (d : cval) (name : string) : option namespace := Some (Namespace (Some (λ _ _, Some (Some (adds d)))) None).
Definition c_load (d : cval) : option loaded :=
  load (c_env d) s_read id directive_spec s_order (s_ask (ok (VVec [s_plugin "p.adding"])) s_books).
Example C109_loaded_example :
  summary (c_load whole) = Some (None, Some 4, 3, 5) ∧
  option_map (λ m, length (of_phase true (l_plugins m))) (c_load whole) = Some 1 ∧
  summary (c_load half) = Some (Some (LeBooked PeThrown), None, 3, 4).
Proof. split_and!; by vm_compute. Qed.
