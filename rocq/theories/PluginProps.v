(** Theorems about the chain of plugins, the spans given to what plugins make, and
    the errors of plugins. *)
From Coq Require Import Ascii QArith.
From stdpp Require Import prelude gmap strings.
From Verif Require Import DecModel LedgerTypes IsoModel JsonModel WireModel CljModel InventoryModel ClientModel FormatModel PluginModel PluginSpec PluginFacts PluginMerge.
Local Open Scope nat_scope.

(** * Samples *)

Definition day : date := Date 2024 1 2.
Definition s_span (n : nat) : cval :=
  VMap [("source", VNum (CLong 0)); ("start", VNum (CLong (Z.of_nat n))); ("end", VNum (CLong (Z.of_nat n + 9)))].
Definition s_posting (acc : string) (units : Z) : cval :=
  VMap [("acc", VStr acc); ("units", VNum (CLong units)); ("cur", VStr "NZD")].
Definition s_txn (n : nat) (ps : list cval) : cval :=
  VMap [("dct", VKw "txn"); ("date", VDate day); ("span", s_span n); ("flag", VStr "*"); ("payee", VStr "Shop"); ("postings", VVec ps)].
Definition s_open (n : nat) (acc : string) : cval :=
  VMap [("dct", VKw "open"); ("date", VDate day); ("span", s_span n); ("acc", VStr acc)].
Definition s_note (acc : string) : cval :=
  VMap [("dct", VKw "note"); ("date", VDate day); ("acc", VStr acc); ("comment", VStr "made")].
Definition s_ledger : list cval :=
  [s_open 0 "Assets:Cash"; s_txn 10 [s_posting "Assets:Cash" 5; s_posting "Income:Gift" (-5)]; s_open 20 "Income:Gift"].
(** A plugin which changes transactions, one which changes every directive, and one
    which adds a note at the end. *)
Definition flagging : plugin_xf := replacing (λ d, if is_txn d then vassoc "flag" (VStr "!") d else None).
Definition dating : plugin_xf := replacing (λ d, vassoc "date" (VDate (Date 2025 1 1)) d).
Definition adding : plugin_xf := PluginXf (px_step passive) (λ _, Some [Emit (s_note "Assets:Cash")]).
(** One which marks transactions as wrong, and one which adds a wrong note. *)
Definition objecting : plugin_xf := replacing (λ d, if is_txn d then dct_error "p.objecting" "no" d else None).
Definition adding_wrong : plugin_xf :=
  PluginXf (px_step passive) (λ _, match dct_error "p.wrong" "no" (s_note "Assets:Cash") with Some d => Some [Emit d] | None => None end).
Definition raw_plugin (name : string) (xf : plugin_xf) : plugin := Plugin name (Some xf) None None.
Definition booked_plugin (name : string) (xf : plugin_xf) : plugin := Plugin name None (Some xf) None.
Definition any_spec (d : cval) : bool := true.
(** Each request is given a span. *)
Definition s_create (rs : list (string * string)) : option (list cval) := Some (imap (λ i _, s_span (1000 + i)) rs).
Definition s_order (l : list cval) : list cval := l.

(** * C50 *)

(** Running the plugins of a phase, one directive at a time through all of them, gives
    what each plugin makes in turn of the whole list: what a plugin passes on is as it
    was, what it makes is marked with its name unless it has an error. *)
Theorem C50_chain code spec ps booked ds :
  (∀ i j, code i = code j → i = j) →
  run_plugins code spec ps booked ds =
  if acceptable spec ds then chain spec booked (of_phase booked ps) ds else None.
Proof. intros Hinj. by apply run_plugins_chain. Qed.
Print Assumptions C50_chain.
Example C50_chain_example :
  ∃ d, run_plugins id any_spec [raw_plugin "p.flagging" flagging; raw_plugin "p.adding" adding] false s_ledger
    = Some [s_open 0 "Assets:Cash"; d; s_open 20 "Income:Gift";
            VMap [("dct", VKw "note"); ("date", VDate day); ("acc", VStr "Assets:Cash"); ("comment", VStr "made"); ("provenance", VVec [VStr "p.adding"])]]
    ∧ vget "flag" d = Some (VStr "!") ∧ vget "provenance" d = Some (VVec [VStr "p.flagging"]).
Proof. eexists. split; [by vm_compute|]. by vm_compute. Qed.

Lemma leaves_elem spec name booked h es out d :
  leaves spec name booked h es = Some out → d ∈ out →
  d ∈ h ∨ ∃ d0, made spec name booked d0 = Some d.
Proof.
  unfold leaves. destruct es as [es|]; [|done]. intros H Hd.
  destruct (mapM _ es) as [oss|] eqn:HM; [|done]. injection H; intros <-. apply mapM_Some in HM.
  apply elem_of_list_join in Hd as (os & Hd & Hos). apply elem_of_list_lookup in Hos as (i & Hi).
  destruct (Forall2_lookup_r _ _ _ _ _ HM Hi) as (e & _ & He). destruct e as [j|d0].
  - injection He; intros <-. left. destruct (h !! j) as [x|] eqn:Hj; cbn in Hd.
    + apply elem_of_list_singleton in Hd as ->. by eapply elem_of_list_lookup_2.
    + by apply elem_of_nil in Hd.
  - destruct (made spec name booked d0) as [d1|] eqn:Hm; [|done]. injection He; intros <-.
    apply elem_of_list_singleton in Hd as ->. right. by exists d0.
Qed.
Lemma through_elem spec booked p ds out d :
  through spec booked p ds = Some out → d ∈ out → d ∈ ds ∨ ∃ d0, made spec p.1 booked d0 = Some d.
Proof.
  unfold through. destruct (mapM _ (beginnings ds)) as [outs|] eqn:HM; [|done].
  destruct (leaves spec p.1 booked ds (px_done p.2 ds)) as [lst|] eqn:HL; [|done]. intros [= <-] Hd.
  apply elem_of_app in Hd as [Hd|Hd]; [|by eapply leaves_elem].
  apply mapM_Some in HM. apply elem_of_list_join in Hd as (os & Hd & Hos). apply elem_of_list_lookup in Hos as (i & Hi).
  destruct (Forall2_lookup_r _ _ _ _ _ HM Hi) as (h & Hh & Hl).
  destruct (leaves_elem _ _ _ _ _ _ _ Hl Hd) as [H|H]; [|by right]. left.
  unfold beginnings in Hh. rewrite list_lookup_fmap in Hh. destruct (seq 0 (length ds) !! i) as [n|]; [|done].
  injection Hh; intros <-. by eapply elem_of_take in H as (k & Hk & _); eapply elem_of_list_lookup_2.
Qed.
Lemma mark_last name booked d d' : mark name booked d = Some d' → last (provenance_of d') = Some (VStr name).
Proof.
  unfold mark, provenance_of. destruct (vget "provenance" d) as [[]|]; try done; intros H;
    rewrite (vget_vassoc_same _ _ _ _ H); by rewrite !app_assoc, last_snoc.
Qed.
Lemma made_marked spec name booked d d' :
  made spec name booked d = Some d' → erroneous d' = true ∨ last (provenance_of d') = Some (VStr name).
Proof.
  unfold made. destruct (erroneous d) eqn:He; [intros [= <-]; by left|].
  destruct (mark name booked d) as [d1|] eqn:Hm; [|done]. destruct (spec d1); [|done]. intros [= <-].
  right. by eapply mark_last.
Qed.

(** What comes out was given, or has an error, or bears the mark of a plugin of the
    phase. *)
Theorem C50_marked code spec ps booked ds out d :
  (∀ i j, code i = code j → i = j) →
  run_plugins code spec ps booked ds = Some out → d ∈ out →
  d ∈ ds ∨ erroneous d = true ∨ ∃ p, p ∈ of_phase booked ps ∧ last (provenance_of d) = Some (VStr p.1).
Proof.
  intros Hinj. rewrite C50_chain by done. destruct (acceptable spec ds); [|done].
  generalize (of_phase booked ps). intros pts. revert ds. induction pts as [|p pts IH]; intros ds; cbn [chain].
  - intros [= <-]. by left.
  - destruct (through spec booked p ds) as [ds'|] eqn:Ht; [|done]. intros Hc Hd.
    destruct (IH ds' Hc Hd) as [H|[H|(q & Hq & Hl)]].
    + destruct (through_elem _ _ _ _ _ _ Ht H) as [H1|(d0 & H1)]; [by left|]. right.
      destruct (made_marked _ _ _ _ _ H1) as [H2|H2]; [by left|]. right. exists p. split; [by left|done].
    + right. by left.
    + right. right. exists q. split; [by right|done].
Qed.
Print Assumptions C50_marked.
Example C50_marked_example :
  ∃ out, run_plugins id any_spec [raw_plugin "p.flagging" flagging; raw_plugin "p.adding" adding] false s_ledger = Some out ∧
    s_ledger !! 0 = out !! 0 ∧ s_ledger !! 1 ≠ out !! 1 ∧ (provenance_of <$> out !! 1) = Some [VStr "p.flagging"].
Proof. eexists. split; [by vm_compute|]. by vm_compute. Qed.

(** The directives of a plugin which answers each directive with one, either itself or
    another. *)
Lemma replacing_steps spec booked name f ds : ∀ h,
  mapM (λ b, leaves spec name booked b (px_step (replacing f) b)) ((λ n, h ++ take (S n) ds) <$> seq 0 (length ds)) =
  mapM (λ d, (λ d', [d']) <$> match f d with None => Some d | Some d' => made spec name booked d' end) ds.
Proof.
  induction ds as [|d ds IH]; intros h; [done|]. cbn [length seq]. rewrite fmap_cons. cbn [mapM].
  change (take 1 (d :: ds)) with [d].
  assert (leaves spec name booked (h ++ [d]) (px_step (replacing f) (h ++ [d])) =
          (λ d', [d']) <$> match f d with None => Some d | Some d' => made spec name booked d' end) as ->.
  { cbn [replacing px_step]. rewrite last_snoc. destruct (f d) as [d'|].
    - apply leaves_emit.
    - rewrite leaves_pass. rewrite app_length. cbn [length]. replace (pred (length h + 1)) with (length h) by lia.
      rewrite lookup_app_r by lia. rewrite Nat.sub_diag. done. }
  rewrite <- seq_shift. change (map S (seq 0 (length ds))) with (S <$> seq 0 (length ds)).
  rewrite <- list_fmap_compose.
  rewrite (list_fmap_ext _ (λ n, (h ++ [d]) ++ take (S n) ds)) by (intros i n _; cbn [compose]; by rewrite <- app_assoc).
  by rewrite IH.
Qed.
Lemma mapM_singletons {A B} (g : A → option B) l : mjoin <$> mapM (λ a, (λ b, [b]) <$> g a) l = mapM g l.
Proof.
  induction l as [|a l IH]; [done|]. cbn [mapM]. rewrite <- IH. destruct (g a) as [b|]; [|done]. cbn [mbind option_bind fmap option_fmap option_map].
  destruct (mapM _ l) as [bs|]; done.
Qed.
Lemma through_replacing spec booked name f ds :
  through spec booked (name, replacing f) ds =
  mapM (λ d, match f d with None => Some d | Some d' => made spec name booked d' end) ds.
Proof.
  unfold through. cbn [fst snd]. rewrite <- (mapM_singletons (λ d, match f d with None => Some d | Some d' => made spec name booked d' end)). rewrite <- (replacing_steps _ _ _ _ _ []). cbn [app].
  fold (beginnings ds). destruct (mapM _ (beginnings ds)) as [outs|]; [|done]. cbn. by rewrite app_nil_r.
Qed.

(** With one plugin which gives something else for some directives and passes on the
    others: the others are as they were, and what it gives is marked. *)
Theorem C50_replaced code spec name f (booked : bool) ds :
  (∀ i j, code i = code j → i = j) →
  run_plugins code spec [if booked then booked_plugin name (replacing f) else raw_plugin name (replacing f)] booked ds =
  if acceptable spec ds
  then mapM (λ d, match f d with
                  | None => Some d
                  | Some d' => if erroneous d' then Some d'
                               else match mark name booked d' with
                                    | Some m => if spec m then Some m else None
                                    | None => None
                                    end
                  end) ds
  else None.
Proof.
  intros Hinj. rewrite C50_chain by done. destruct (acceptable spec ds); [|done].
  replace (of_phase booked _) with [(name, replacing f)] by (by destruct booked). cbn [chain].
  rewrite through_replacing. by destruct (mapM _ ds).
Qed.
Print Assumptions C50_replaced.
Example C50_replaced_example :
  option_map (map provenance_of) (run_plugins id any_spec [booked_plugin "p.flagging" flagging] true s_ledger)
  = Some [[]; [VKw "booked"; VStr "p.flagging"]; []].
Proof. by vm_compute. Qed.

(** A plugin which only passes directives on makes no difference, wherever it is in
    the chain. *)
Theorem C50_passive code spec a b name (booked : bool) ds :
  (∀ i j, code i = code j → i = j) →
  run_plugins code spec (a ++ [if booked then booked_plugin name passive else raw_plugin name passive] ++ b) booked ds =
  run_plugins code spec (a ++ b) booked ds.
Proof.
  intros Hinj. rewrite !C50_chain by done. destruct (acceptable spec ds); [|done].
  assert (∀ l, through spec booked (name, passive) l = Some l) as Hid.
  { intros l. transitivity (through spec booked (name, replacing (λ _, None)) l).
    - unfold through. cbn [fst snd]. assert (∀ h, h ∈ beginnings l → h ≠ []) as Hne.
      { intros h Hh. apply elem_of_list_fmap in Hh as (n & -> & Hn). apply elem_of_seq in Hn. destruct l; [cbn in Hn; lia|done]. }
      assert (mapM (λ h, leaves spec name booked h (px_step passive h)) (beginnings l) =
              mapM (λ h, leaves spec name booked h (px_step (replacing (λ _ : cval, None)) h)) (beginnings l)) as ->; [|done].
      apply mapM_ext. intros h. cbn [passive replacing px_step]. destruct (last h) as [x|] eqn:Hl; [done|].
      apply last_None in Hl as ->. done.
    - rewrite through_replacing. induction l as [|x l IH]; [done|]. cbn [mapM]. rewrite IH. done. }
  unfold of_phase. rewrite !omap_app.
  assert (omap (λ p, (λ xf, (pl_name p, xf)) <$> (if booked then pl_booked p else pl_raw p))
      [if booked then booked_plugin name passive else raw_plugin name passive] = [(name, passive)]) as -> by (by destruct booked).
  generalize (omap (λ p, (λ xf, (pl_name p, xf)) <$> (if booked then pl_booked p else pl_raw p)) a). intros pa.
  revert ds. induction pa as [|p pa IH]; intros ds; cbn [app chain].
  - by rewrite Hid.
  - destruct (through spec booked p ds) as [ds'|]; [|done]. apply IH.
Qed.
Print Assumptions C50_passive.
Example C50_passive_example :
  run_plugins id any_spec [raw_plugin "p.flagging" flagging; raw_plugin "p.passive" passive; raw_plugin "p.adding" adding] false s_ledger
  = run_plugins id any_spec [raw_plugin "p.flagging" flagging; raw_plugin "p.adding" adding] false s_ledger
  ∧ is_Some (run_plugins id any_spec [raw_plugin "p.flagging" flagging; raw_plugin "p.adding" adding] false s_ledger).
Proof. split; [by vm_compute|]. vm_compute. by eexists. Qed.

(** The hash code by which directives are known may be the same for two of them; what
    a plugin makes is then not marked. *)
Theorem C50_same_hash_refuted :
  ∃ code spec ps ds out d,
    run_plugins code spec ps false ds = Some out ∧ d ∈ out ∧ d ∉ ds ∧ erroneous d = false ∧ provenance_of d = [].
Proof.
  exists (λ _, 7), any_spec, [raw_plugin "p.flagging" flagging], s_ledger.
  eexists. exists (default VNil (vassoc "flag" (VStr "!") (s_txn 10 [s_posting "Assets:Cash" 5; s_posting "Income:Gift" (-5)]))).
  split; [by vm_compute|]. split; [vm_compute; right; left|]. split; [|by vm_compute].
  intros H. apply (elem_of_list_fmap_1 (vget "flag")) in H. vm_compute in H.
  repeat (apply elem_of_cons in H as [H|H]; [discriminate H|]). by apply elem_of_nil in H.
Qed.
Print Assumptions C50_same_hash_refuted.

(** * C51 *)

(** How often the booked phase is named. *)
Definition times_booked (d : cval) : nat :=
  length (List.filter (λ v, match v with VKw "booked" => true | _ => false end) (provenance_of d)).

(** A directive touched by two plugins in the booked phase names it twice. *)
Theorem C51_refuted :
  ∃ spec ps ds out d,
    run_plugins id spec ps true ds = Some out ∧ d ∈ out ∧
    (∀ d, d ∈ ds → times_booked d = 0) ∧ times_booked d = 2 ∧
    provenance_of d = [VKw "booked"; VStr "p.flagging"; VKw "booked"; VStr "p.dating"].
Proof.
  exists any_spec, [booked_plugin "p.flagging" flagging; booked_plugin "p.dating" dating], s_ledger.
  eexists. eexists. split; [by vm_compute|]. split; [right; left|]. split; [|by vm_compute].
  intros d Hd. repeat (apply elem_of_cons in Hd as [->|Hd]; [done|]). by apply elem_of_nil in Hd.
Qed.
Print Assumptions C51_refuted.

Lemma times_booked_mark name booked d d' :
  mark name booked d = Some d' → times_booked d' = times_booked d + if booked then 1 else 0.
Proof.
  unfold mark, times_booked, provenance_of. destruct (vget "provenance" d) as [[]|]; try done; intros H;
    rewrite (vget_vassoc_same _ _ _ _ H); rewrite ?app_nil_l; try (by destruct booked).
  rewrite !List.filter_app, !app_length. destruct booked; reflexivity.
Qed.
(** With a single plugin, which itself does not write the phase, it is named at most
    once.  Missing: several plugins touching the same directive. *)
Theorem C51_one_plugin_partial code spec ps p ds out d :
  (∀ i j, code i = code j → i = j) →
  of_phase true ps = [p] →
  (∀ h es e, px_step p.2 h = Some es ∨ px_done p.2 h = Some es → Emit e ∈ es → times_booked e = 0) →
  (∀ d, d ∈ ds → times_booked d ≤ 1) →
  run_plugins code spec ps true ds = Some out → d ∈ out → erroneous d = false →
  times_booked d ≤ 1.
Proof.
  intros Hinj Hps Hw Hds. rewrite C50_chain by done. rewrite Hps. destruct (acceptable spec ds); [|done]. cbn [chain].
  destruct (through spec true p ds) as [ds'|] eqn:Ht; [|done]. intros [= <-] Hd He.
  assert (∀ h es os, px_step p.2 h = es ∨ px_done p.2 h = es → leaves spec p.1 true h es = Some os → d ∈ os → d ∈ h ∨ times_booked d ≤ 1) as Hl.
  { intros h es os Hp. unfold leaves. destruct es as [es|]; [|done]. intros H Hdo.
    destruct (mapM _ es) as [oss|] eqn:HM; [|done]. injection H; intros <-. apply mapM_Some in HM.
    apply elem_of_list_join in Hdo as (o & Hdo & Hos). apply elem_of_list_lookup in Hos as (i & Hi).
    destruct (Forall2_lookup_r _ _ _ _ _ HM Hi) as (e & Hei & Hee). destruct e as [j|d0].
    - injection Hee; intros <-. left. destruct (h !! j) as [x|] eqn:Hj; cbn in Hdo.
      + apply elem_of_list_singleton in Hdo as ->. by eapply elem_of_list_lookup_2.
      + by apply elem_of_nil in Hdo.
    - right. destruct (made spec p.1 true d0) as [d1|] eqn:Hm; [|done]. injection Hee; intros <-.
      apply elem_of_list_singleton in Hdo as <-.
      assert (times_booked d0 = 0) as H0 by (eapply Hw; [exact Hp|by eapply elem_of_list_lookup_2]).
      unfold made in Hm. destruct (erroneous d0) eqn:He0; [congruence|].
      destruct (mark p.1 true d0) as [d2|] eqn:Hmk; [|done]. destruct (spec d2); [|done]. injection Hm; intros <-.
      rewrite (times_booked_mark _ _ _ _ Hmk), H0. lia. }
  unfold through in Ht. destruct (mapM _ (beginnings ds)) as [outs|] eqn:HM; [|done].
  destruct (leaves spec p.1 true ds (px_done p.2 ds)) as [lst|] eqn:HL; [|done]. injection Ht; intros <-.
  apply elem_of_app in Hd as [Hd|Hd].
  - apply mapM_Some in HM. apply elem_of_list_join in Hd as (os & Hd & Hos). apply elem_of_list_lookup in Hos as (i & Hi).
    destruct (Forall2_lookup_r _ _ _ _ _ HM Hi) as (h & Hh & Hlh).
    destruct (Hl h _ _ (or_introl eq_refl) Hlh Hd) as [H|H]; [|done]. apply Hds.
    unfold beginnings in Hh. rewrite list_lookup_fmap in Hh. destruct (seq 0 (length ds) !! i) as [n|]; [|done].
    injection Hh; intros <-. by eapply elem_of_take in H as (k & Hk & _); eapply elem_of_list_lookup_2.
  - destruct (Hl ds _ _ (or_intror eq_refl) HL Hd) as [H|H]; [by apply Hds|done].
Qed.
Print Assumptions C51_one_plugin_partial.
Example C51_one_plugin_example :
  of_phase true [raw_plugin "p.adding" adding; booked_plugin "p.dating" dating] = [("p.dating", dating)] ∧
  option_map (map times_booked) (run_plugins id any_spec [raw_plugin "p.adding" adding; booked_plugin "p.dating" dating] true s_ledger)
  = Some [1; 1; 1].
Proof. split; by vm_compute. Qed.

(** * C49 *)

(** A marked directive which is not a transaction but has postings asks for one span
    and takes several: those after it are given the wrong ones. *)
Theorem C49_refuted :
  ∃ ds rs spans out d, span_requests s_order ds = Some rs ∧ s_create rs = Some spans ∧ length spans = length rs ∧
    Forall (λ d, well_shaped d = true) ds ∧
    merge_with_provenance s_order s_create ds = Some out ∧
    out !! 1 = Some d ∧ option_map snd (rs !! 1) = match ds !! 1 with Some x => directive_text s_order x | None => None end ∧
    spans !! 1 = Some (s_span 1001) ∧ vget "span-p" d = Some VNil.
Proof.
  exists [VMap [("dct", VKw "note"); ("date", VDate day); ("acc", VStr "A:B"); ("comment", VStr "x"); ("provenance", VVec [VStr "p"]); ("postings", VVec [s_posting "A:B" 1])];
          VMap [("dct", VKw "close"); ("date", VDate day); ("acc", VStr "A:C"); ("provenance", VVec [VStr "p"])]].
  do 4 eexists. split; [by vm_compute|]. split; [by vm_compute|]. split; [done|]. split; [by repeat constructor|].
  split; [by vm_compute|]. split; [done|]. by vm_compute.
Qed.
Print Assumptions C49_refuted.

(** If only transactions have postings and the server gives one span for each request,
    then each marked directive and each of its postings are given the span made for
    its own text, and nothing else changes.  Missing: other directives with
    postings. *)
Theorem C49_aligned_partial so create ds rs spans :
  span_requests so ds = Some rs → create rs = Some spans → length spans = length rs →
  Forall (λ d, well_shaped d = true) ds →
  Forall (λ d, marked d = true → is_txn d = true ∨ vpostings d = []) ds →
  ∃ out rgroups groups, merge_with_provenance so create ds = Some out ∧
    mjoin rgroups = rs ∧ mjoin groups = spans ∧
    Forall2 (λ d rg, if marked d
                     then element_texts so d = Some (rg.*2) ∧
                          ∀ names, came_from d names → Forall (λ r, r.1 = "Synthetic directive from " +:+ String.concat " " names) rg
                     else rg = []) ds rgroups ∧
    Forall2 (λ (rg : list (string * string)) (g : list cval), length rg = length g) rgroups groups ∧
    Forall3 spans_given ds groups out.
Proof.
  intros Hrs Hc Hl Hw Hp. destruct (merge_aligned so create ds rs spans Hrs Hc Hl Hw Hp) as (out & rgs & gs & H1 & H2 & H3 & H4 & H5 & H6).
  exists out, rgs, gs. split; [done|]. split; [done|]. split; [done|]. split; [|done].
  eapply Forall2_impl; [exact H4|]. intros d rg Hrg. unfold span_requests_of in Hrg. destruct (marked d); [|congruence].
  destruct (join_provenance d) as [n|] eqn:En; [|done]. destruct (element_texts so d) as [ts|]; [|done].
  injection Hrg; intros <-. split.
  - f_equal. clear. induction ts as [|t ts IH]; [done|]. cbn [map]. rewrite fmap_cons, <- IH. done.
  - intros names (l & Hpr & Hn). unfold join_provenance in En. rewrite Hpr in En.
    assert (mapM (λ v, str_text (Some v)) l = Some names) as Hm.
    { apply mapM_Some. eapply Forall2_impl; [exact Hn|]. by intros v t [->|(k & -> & ->)]. }
    rewrite Hm in En. injection En as <-. apply Forall_fmap, Forall_true. done.
Qed.
Print Assumptions C49_aligned_partial.
Example C49_aligned_example :
  ∃ ds out, run_plugins id any_spec [raw_plugin "p.flagging" flagging; raw_plugin "p.adding" adding] false s_ledger = Some ds ∧
    merge_with_provenance s_order s_create ds = Some out ∧
    map (λ d, (vget "span-p" d, map (vget "span-p") (vpostings d))) out =
      [(None, []); (Some (s_span 1000), [Some (s_span 1001); Some (s_span 1002)]); (None, []); (Some (s_span 1003), [])] ∧
    option_map (map fst) (span_requests s_order ds) =
      Some ["Synthetic directive from p.flagging"; "Synthetic directive from p.flagging"; "Synthetic directive from p.flagging";
            "Synthetic directive from p.adding"].
Proof. do 2 eexists. split; [by vm_compute|]. split; [by vm_compute|]. split; by vm_compute. Qed.

(** * C52 *)

(** A directive which a plugin makes with an error is not marked, is given no span,
    and the report has none. *)
Theorem C52_refuted :
  ∃ ps ds out out' r, Forall (λ d, is_Some (vget "span" d)) ds ∧
    run_plugins id any_spec ps false ds = Some out ∧
    merge_with_provenance s_order s_create out = Some out' ∧
    r ∈ dct_errors_reports out' ∧ cr_message r = Some (VStr "p.wrong") ∧ cr_span r = None.
Proof.
  exists [raw_plugin "p.wrong" adding_wrong], s_ledger. do 3 eexists. split.
  { repeat constructor; vm_compute; by eexists. }
  split; [by vm_compute|]. split; [by vm_compute|]. split; [vm_compute; left|]. by vm_compute.
Qed.
Print Assumptions C52_refuted.

(** Every error of a directive with a span, its own or a synthetic one, is reported
    with it: one report for each error, in order. *)
Theorem C52_located_partial ds :
  Forall (λ d, ∃ k s, (k = "span" ∨ k = "span-p") ∧ vget k d = Some s ∧ s ≠ VNil ∧ s ≠ VBool false) ds →
  Forall (λ r, ∃ d s, d ∈ ds ∧ cr_span r = Some s ∧ s ≠ VNil ∧ (vget "span" d = Some s ∨ vget "span-p" d = Some s))
    (dct_errors_reports ds) ∧
  (λ r, (cr_message r, cr_reason r)) <$> dct_errors_reports ds =
    ds ≫= λ d, (λ e, (vget "plugin" e, vget "message" e)) <$> match vget "err" d with Some (VVec l) => l | _ => [] end.
Proof.
  intros HF. split.
  - apply Forall_forall. intros r Hr. unfold dct_errors_reports in Hr.
    apply elem_of_list_bind in Hr as (d & Hr & Hd). apply elem_of_list_bind in Hr as (e & Hr & _).
    apply elem_of_list_singleton in Hr as ->. rewrite Forall_forall in HF. destruct (HF d Hd) as (k & s & Hk & Hs & Hn & Hf).
    cbn [cr_span]. assert (truthy (Some s) = true) as Ht. { unfold truthy. destruct s as [|[]| | | | | | | |]; done. }
    unfold either, vget_true. destruct (truthy (vget "span-p" d)) eqn:Hp.
    + destruct (vget "span-p" d) as [x|] eqn:Hx; [|done]. exists d, x. split; [done|]. split; [done|]. split; [|by right].
      intros ->. done.
    + destruct Hk as [->| ->]; rewrite Hs in *; [|congruence]. rewrite Ht. exists d, s. rewrite Hs. split; [done|]. split; [done|]. split; [done|by left].
  - unfold dct_errors_reports. clear. induction ds as [|d ds IH]; [done|]. rewrite !bind_cons, fmap_app, IH. f_equal.
    destruct (vget "err" d) as [[]|]; try done. induction l as [|e l IHl]; [done|]. rewrite bind_cons, fmap_app, IHl. done.
Qed.
Print Assumptions C52_located_partial.
(** In particular the error which a plugin puts on a directive of the ledger. *)
Theorem C52_annotated_partial ns message d d' s :
  vget "span" d = Some s → s ≠ VNil → s ≠ VBool false → vget "span-p" d = None →
  dct_error ns message d = Some d' →
  ∃ rs, dct_errors_reports [d'] = rs ++ [CReport (Some (VStr ns)) (Some (VStr message)) (Some s) None None None].
Proof.
  intros Hs Hn Hf Hp. unfold dct_error. intros H.
  assert (∃ l, vassoc "err" (VVec (l ++ [VMap [("message", VStr message); ("plugin", VStr ns)]])) d = Some d') as (l & Hd).
  { destruct (vget "err" d) as [[]|]; try done; eauto. }
  unfold dct_errors_reports. rewrite bind_singleton. rewrite (vget_vassoc_same _ _ _ _ Hd), bind_app.
  eexists. f_equal. rewrite bind_singleton, andb_false_r. do 2 f_equal.
  unfold either, vget_true. rewrite (vget_vassoc_other "err" "span-p" _ _ _ (ltac:(done)) Hd), Hp.
  rewrite (vget_vassoc_other "err" "span" _ _ _ (ltac:(done)) Hd), Hs. destruct s as [|[]| | | | | | | |]; done.
Qed.
Print Assumptions C52_annotated_partial.
Example C52_annotated_example :
  option_map dct_errors_reports (run_plugins id any_spec [raw_plugin "p.objecting" objecting] false s_ledger) =
  Some [CReport (Some (VStr "p.objecting")) (Some (VStr "no")) (Some (s_span 10)) None None None].
Proof. by vm_compute. Qed.

(** * C76 *)

(** A plugin objects to a directive which another plugin changed: the directive has a
    place in the ledger and a synthetic one, and the report does not show the former. *)
Theorem C76_refuted :
  ∃ ps ds out out' d r s s', Forall (λ d, is_Some (vget "span" d)) ds ∧
    run_plugins id any_spec ps false ds = Some out ∧
    merge_with_provenance s_order s_create out = Some out' ∧
    d ∈ out' ∧ vget "span" d = Some s ∧ vget "span-p" d = Some s' ∧ s ≠ s' ∧ is_Some (vget "err" d) ∧
    dct_errors_reports out' = [r] ∧ cr_span r = Some s' ∧ cr_related r = None.
Proof.
  exists [raw_plugin "p.flagging" flagging; raw_plugin "p.objecting" objecting], s_ledger. do 6 eexists. split.
  { repeat constructor; vm_compute; by eexists. }
  split; [by vm_compute|]. split; [by vm_compute|]. split; [right; left|]. split; [by vm_compute|]. split; [by vm_compute|].
  split; [done|]. split; [by eexists|]. split; [by vm_compute|]. done.
Qed.
Print Assumptions C76_refuted.
(** In general: an error of a changed directive is reported at the changed text, and
    never with anything related.  Missing: the place in the ledger. *)
Theorem C76_changed_partial ds d s es e :
  d ∈ ds → vget "span-p" d = Some s → s ≠ VNil → s ≠ VBool false → vget "err" d = Some (VVec es) → e ∈ es →
  CReport (vget "plugin" e) (vget "message" e) (Some s) None None None ∈ dct_errors_reports ds ∧
  Forall (λ r, cr_related r = None) (dct_errors_reports ds).
Proof.
  intros Hd Hs Hn Hf He Hin. split.
  - unfold dct_errors_reports. apply elem_of_list_bind. exists d. split; [|done]. apply elem_of_list_bind. exists e. rewrite He. split; [|done].
    apply elem_of_list_singleton. rewrite andb_false_r. f_equal. unfold either, vget_true. rewrite Hs. destruct s as [|[]| | | | | | | |]; done.
  - apply Forall_forall. intros r Hr. unfold dct_errors_reports in Hr.
    apply elem_of_list_bind in Hr as (d0 & Hr & _). apply elem_of_list_bind in Hr as (e0 & Hr & _).
    apply elem_of_list_singleton in Hr as ->. cbn [cr_related]. by rewrite andb_false_r.
Qed.
Print Assumptions C76_changed_partial.
Example C76_changed_example :
  let ds := [VMap [("dct", VKw "txn"); ("span", s_span 10); ("span-p", s_span 99); ("err", VVec [VMap [("message", VStr "no"); ("plugin", VStr "p")]])]] in
  dct_errors_reports ds = [CReport (Some (VStr "p")) (Some (VStr "no")) (Some (s_span 99)) None None None].
Proof. by vm_compute. Qed.
