(** Theorems about plugins which run after booking. *)
From Coq Require Import Ascii QArith Qabs Sorted.
From stdpp Require Import prelude gmap strings.
From Verif Require Import DecModel LedgerTypes IsoModel IsoFacts JsonModel WireModel WireSpec WireFacts BookModel BookSpec BookLib BookProps SpanModel ParserModel
  JsonText SampleLib SampleLedgers WireSamples ServerModel ServerSpec ServerFacts ServerSamples CljModel InventoryModel InventorySpec InventoryFacts InventoryProps ClientModel ClientSpec ClientDecode ClientFacts ClientMain ClientSamples FormatModel PluginModel PluginSpec PluginFacts PluginMerge PluginProps LoaderModel
  LoaderSpec LoaderFacts LoaderProps EncodeModel EncodeFacts EncodeStable SystemModel SystemFacts SystemLoad SystemSpec SystemErrors SystemTrace SystemPrint SystemProps
  EditModel EditSpec EditFacts EditRead EditProps ViewSpec ViewFacts ViewProps AfterSpec AfterFacts.
Local Open Scope nat_scope.

Section Load.
Context (env : string → option namespace) (read_config : option cval → option (option cval)).
Context (code : nat → nat) (spec : bool → cval → bool) (so : list cval → list cval).
Context (ask : list pod_request → pod_request → answer).
(** What happens after booking when all goes well. *)
Lemma load_after m :
  load env read_config code spec so ask = Some m → l_error m = None →
  ∃ sp vs, maybe_spans sp ∧ l_booked m = Some vs ∧
    let h := [RPlugins; ROptions; RDirectives] ++ sp in
    ask h (RBook (l_raw_xf m)) ≠ no_answer ∧
    (of_phase true (l_plugins m) = [] ∧ l_directives m = Some vs ∨
     ∃ out xs, run_plugins code (spec true) (l_plugins m) true vs = Some out ∧
       merge_with_provenance so (create_spans ask (h ++ [RBook (l_raw_xf m)])) out = Some xs ∧ l_directives m = Some xs).
Proof.
  intros H He. pose proof (C53_outcome _ _ _ _ _ _ _ H) as Ho. unfold outcome_shown in Ho. rewrite He in Ho.
  destruct Ho as (_&_&Hraw&_).
  destruct (load_steps _ _ _ _ _ _ _ H Hraw) as (m1&m2&m3&H1&E1&H2&E2&H3&Hc).
  destruct Hc as [[? ->]|(E3&m4&H4&Hc)]; [congruence|]. destruct Hc as [[? ->]|(E4&m5&H5&Hc)]; [congruence|].
  destruct Hc as [[? ->]|(E5&H6)]; [congruence|].
  apply first_stage_cases in H1 as (R1&X1&B1&BX1&_&H1).
  destruct (result_of (ask [] RPlugins)) as [ps|]; [|by destruct H1 as (_&_&_&?); congruence].
  destruct H1 as (A1&_). apply raw_cases in H2 as (ok&_&->).
  destruct (run_phase_cases _ _ _ _ _ _ _ H3 E2) as (P3&_&_&B3&_&X3&(sp&A3&Hsp)&_). cbn [l_plugins l_booked l_booked_xf l_asked l_raw_xf] in *.
  destruct (book_cases _ _ _ H4 E3) as (P4&_&_&R4&X4&_&A4&H4'). cbv zeta in H4'.
  destruct (run_phase_cases _ _ _ _ _ _ _ H5 E4) as (P5&_&_&B5&_&R5&_&Hr5).
  unfold final_directives in H6. injection H6 as <-. cbn [l_plugins l_booked l_booked_xf l_asked l_raw_xf l_directives l_error] in *.
  assert (A3' : l_asked m3 = [RPlugins; ROptions; RDirectives] ++ sp) by (rewrite A3, A1; done).
  destruct (result_of (ask (l_asked m3) _)) as [okb|] eqn:Eok.
  2: { destruct H4' as [_ Hx]. congruence. }
  destruct (mapM _ (vec (vget "directives" okb))) as [vs|]; [|by destruct H4' as [? _]; congruence].
  destruct H4' as [_ B4]. exists sp, vs. split; [done|]. split; [congruence|]. cbv zeta.
  rewrite <- A3'. rewrite R5, R4. split. { intros E. by rewrite E in Eok. }
  destruct Hr5 as [(_&[[Hn ->]|(Hn&xs&Hx&_)])|(e&?&_)]; [| |congruence].
  - left. split; [congruence|]. by rewrite X4, X3, BX1, B4.
  - right. destruct (run_phase_output _ _ _ _ true _ _ xs H5 Hx) as (out&Hout&Hm); [congruence|].
    exists out, xs. rewrite B4 in Hout. cbn [default] in Hout. unfold id in Hout. rewrite P5, Hx, <- A4. done.
Qed.
(** The plugins are those which the ledger asks for. *)
Lemma load_plugins m :
  load env read_config code spec so ask = Some m → l_error m = None →
  ∃ ps, result_of (ask [] RPlugins) = Some ps ∧ l_plugins m = resolve_plugin env read_config (l_options m) <$> vec (Some ps).
Proof.
  intros H He. pose proof (C53_outcome _ _ _ _ _ _ _ H) as Ho. unfold outcome_shown in Ho. rewrite He in Ho.
  destruct Ho as (_&_&Hraw&_).
  destruct (load_steps _ _ _ _ _ _ _ H Hraw) as (m1&m2&m3&H1&E1&H2&E2&H3&Hc).
  destruct Hc as [[? ->]|(E3&m4&H4&Hc)]; [congruence|]. destruct Hc as [[? ->]|(E4&m5&H5&Hc)]; [congruence|].
  destruct Hc as [[? ->]|(E5&H6)]; [congruence|].
  apply first_stage_cases in H1 as (_&_&_&_&_&H1).
  destruct (result_of (ask [] RPlugins)) as [ps|]; [|by destruct H1 as (_&_&_&?); congruence].
  destruct H1 as (_&_&P1&_). apply raw_cases in H2 as (ok&_&->).
  destruct (run_phase_cases _ _ _ _ _ _ _ H3 E2) as (P3&O3&_). destruct (book_cases _ _ _ H4 E3) as (P4&O4&_).
  destruct (run_phase_cases _ _ _ _ _ _ _ H5 E4) as (P5&O5&_). cbn [l_plugins l_options] in *.
  unfold final_directives in H6. injection H6 as <-. cbn [l_plugins l_options]. exists ps. split; [done|]. congruence.
Qed.
End Load.

Section System.
Context {P S : Type} (env : server_env P S).
Context (jso : list json → list json) (jmo : list (string * json) → list (string * json)).
Context (Hjso : ∀ l, jso l ≡ₚ l) (Hjmo : ∀ l, jmo l ≡ₚ l).
Context (hs : nat → orders P) (sources : S).
Context (ns : string → option namespace) (read_config : option cval → option (option cval)).
Context (code : nat → nat) (Hcode : ∀ i j, code i = code j → i = j).
Context (spec : bool → cval → bool) (so : list cval → list cval).
Context (p : parsed) (Hacc : ∀ n m, or_accounts (hs n) m ≡ₚ map_to_list m).
Notation load_beanfile := (load_beanfile env jso jmo (Healthy (inl p)) hs sources ns read_config code spec so).
Notation ask := (SystemModel.ask env jso jmo (Healthy (inl p)) hs sources).
Notation to_be_booked := (to_be_booked env jso jmo p).

Lemma spans_length_after sp r rs spans : maybe_spans sp → ask ([RPlugins; ROptions; RDirectives] ++ sp) (RBook r) ≠ no_answer →
  create_spans ask (([RPlugins; ROptions; RDirectives] ++ sp) ++ [RBook r]) rs = Some spans → length spans = length rs.
Proof using Hjmo.
  intros Hsp [s Hs]%alive. unfold create_spans, SystemModel.ask. rewrite Hs. cbn [method_name].
  assert (Hn : small (length (([RPlugins; ROptions; RDirectives] ++ sp) ++ [RBook r]) + 2)).
  { destruct Hsp as [->|(rs'&->)]; apply small_4; cbn; lia. }
  destruct (invoke_spans env jso jmo Hjmo p hs _ s rs Hn) as (s' & sps & -> & Hl).
  cbn [snd a_err a_ok]. intros [= <-]. unfold seen_list, vec. by rewrite !fmap_length.
Qed.
(** The user sees what was booked in what the client has after booking. *)
Lemma booked_seen m :
  load_beanfile = inr (Some m) → l_error m = None →
  countable_ledger p → (∀ xs, l_raw_xf m = Some xs → countable xs) →
  ∃ n l bs ws, to_be_booked m l ∧ book_with env p hs n l = BookSuccess bs ws ∧
    (Forall dates_valid bs → ∃ vs, l_booked m = Some vs ∧ mapM view_directive vs = Some (seen_directive <$> bs)).
Proof using Hjmo Hacc.
  intros Hl He Hcl Hcx. pose proof (load_healthy env jso jmo Hjmo _ _ _ _ _ _ _ _ _ Hl) as Hld.
  pose proof (C53_outcome _ _ _ _ _ _ _ Hld) as Ho. unfold outcome_shown in Ho. rewrite He in Ho.
  destruct Ho as ((sp&sp'&Has&_)&_).
  assert (Hb : RBook (l_raw_xf m) ∈ l_asked m) by (clear -Has; rewrite Has; set_solver).
  unfold ViewProps.to_be_booked.
  destruct (l_raw_xf m) as [xs|] eqn:Ex.
  - destruct (mapM _ (encode jso jmo <$> xs)) as [l|] eqn:El.
    2: { pose proof (C54_refused env jso jmo Hjmo hs sources ns read_config code spec so p m xs Hl Hb El). congruence. }
    destruct (plugin_outcome env jso jmo Hjmo hs sources ns read_config code spec so p Hacc m xs l Hl Hb El (Hcx _ eq_refl)) as [n H].
    destruct (book_with env p hs n l) as [bs ws|errors|w] eqn:Eb; [|destruct H as (?&?&_); congruence|congruence].
    exists n, l, bs, ws. split_and!; [done|done|]. intros Hv. destruct H as (_&vs&Hvs&HF).
    exists vs. split; [done|]. eapply views; [|done|exact HF]. intros b v Hdv. by apply taken_view.
  - destruct (load_book _ _ _ _ _ _ _ _ Hld Hb) as (Hr&ok&raw&sp1&Hok&_&Hsp&Hraw&_&_&H).
    rewrite <- Hr in H, Hraw. destruct (state_prefix env jso jmo Hjmo p hs sources sp1 Hsp) as [s Hs].
    rewrite (ask_directives env jso jmo Hjmo) in Hok. injection Hok as <-. rewrite raw_values in Hraw. subst raw.
    rewrite (ask_book_none env jso jmo Hjmo p hs sources _ s Hs (small_prefix sp1 Hsp)) in H. cbv zeta in H. set (n := _ + 2) in *.
    destruct (book_with env p hs n _) as [bs ws|errors|w] eqn:Eb; [| |cbn in H; congruence].
    + cbn [result_of a_err a_ok] in H. rewrite booked_value_get in H. unfold seen_list, vec in H.
      destruct (ledger_countable p (or_wire (hs 4)) Hcl) as [Hc1 Hc2].
      destruct (all_taken (or_wire (hs n)) _ Hc1 Hc2 bs) as (vs&Hv&HF).
      { apply C01_output_mirrors_ledger, mirrors_idx in Eb. unfold ledger_values. by rewrite !fmap_length in *. }
      rewrite Hv in H. destruct H as [H _]. exists n, (from_directive <$> pa_directives p), bs, ws. split_and!; [done|exact Eb|].
      intros Hdv. exists vs. split; [done|]. eapply views; [|done|exact HF]. intros b v Hb'. by apply taken_view.
    + destruct (create_reports_from_booking_errors _ _) as [rs|]; [|cbn in H; congruence].
      cbn [result_of a_err a_ok] in H. cbn [fmap option_fmap option_map] in H. rewrite failure_report in H. cbn in H. congruence.
Qed.

(** Whatever the server books of a ledger, the user sees with the changes which the
    plugins after booking make, in order; for any plugins which make such changes. *)
Theorem C93_made m Rs :
  load_beanfile = inr (Some m) → l_error m = None →
  Forall2 (λ (pl : string * plugin_xf) R, ∃ f, pl.2 = stepwise f ∧ steps f R) (of_phase true (l_plugins m)) Rs →
  countable_ledger p → (∀ xs, l_raw_xf m = Some xs → countable xs) →
  ∃ n l bs ws, to_be_booked m l ∧ book_with env p hs n l = BookSuccess bs ws ∧
    (Forall dates_valid bs → ∃ vs ds0 ds, l_directives m = Some vs ∧ mapM view_directive vs = Some ds ∧
       Forall2 directive_seen ds0 bs ∧ changed_by Rs ds0 ds).
Proof using Hjmo Hacc Hcode.
  intros Hl He HR Hcl Hcx. destruct (booked_seen m Hl He Hcl Hcx) as (n&l&bs&ws&Ht&Hb&H).
  exists n, l, bs, ws. split_and!; [done..|]. intros Hdv. destruct (H Hdv) as (vs&Hvs&Hview). clear H.
  pose proof (load_healthy env jso jmo Hjmo _ _ _ _ _ _ _ _ _ Hl) as Hld.
  destruct (load_after _ _ _ _ _ _ _ Hld He) as (sp&vs'&Hsp&Hvs'&Hans&Hcase). assert (vs' = vs) as -> by congruence.
  destruct Hcase as [[Hn Hd]|(out&xs&Hout&Hmerge&Hd)].
  { rewrite Hn in HR. inversion HR; subst. exists vs, (seen_directive <$> bs), (seen_directive <$> bs). split_and!; [done..|apply seen_all|done]. }
  assert (HF : Forall2 viewed vs (seen_directive <$> bs)).
  { apply mapM_Some in Hview. clear -Hview. remember (seen_directive <$> bs) as ds eqn:Eds. revert bs Eds.
    induction Hview as [|v d vs ds Hv _ IH]; intros [|b bs] [=]; subst; constructor; [|by eapply IH].
    split; [done|]. split; [|destruct b as [? ? ? ? ? []]; by eexists].
    destruct b as [? ? ? ? ? []]; first [by left|by right]. }
  rewrite C50_chain in Hout by done. destruct (acceptable _ _); [|done].
  destruct (chain_steps _ _ _ _ _ _ _ HR HF Hout) as (ds&Hch&HFd).
  exists xs, (seen_directive <$> bs), ds. split_and!; [done| |apply seen_all|done].
  assert (Forall2 hidden out xs) as Hh.
  { eapply (merge_hidden so _ out xs (λ rs spans, spans_length_after sp _ rs spans Hsp Hans)); [| |exact Hmerge].
    - eapply Forall2_Forall_l; [exact HFd|]. apply Forall_true. intros d v [Hv _]. by eapply view_shaped.
    - eapply Forall2_Forall_l; [exact HFd|]. apply Forall_true. intros d v. apply viewed_flat. }
  apply mapM_Some_2. clear -HFd Hh. revert ds HFd. induction Hh as [|v x out xs Hv _ IH]; intros ds HF; inversion HF; subst; constructor; [|by apply IH].
  by destruct (viewed_hidden v x y).
Qed.
(** The plugins here are such. *)
Theorem C93_loaded m Rs :
  load_beanfile = inr (Some m) → l_error m = None →
  Forall2 (λ (pl : string * plugin_xf) R, alters pl.2 R) (of_phase true (l_plugins m)) Rs →
  countable_ledger p → (∀ xs, l_raw_xf m = Some xs → countable xs) →
  ∃ n l bs ws, to_be_booked m l ∧ book_with env p hs n l = BookSuccess bs ws ∧
    (Forall dates_valid bs → ∃ vs ds0 ds, l_directives m = Some vs ∧ mapM view_directive vs = Some ds ∧
       Forall2 directive_seen ds0 bs ∧ changed_by Rs ds0 ds).
Proof using Hjmo Hacc Hcode.
  intros Hl He HR. apply (C93_made m Rs Hl He). eapply Forall2_impl; [exact HR|]. intros pl R. apply alters_steps.
Qed.
End System.
Print Assumptions C93_made.
Print Assumptions C93_loaded.

(** * The reports *)

(** Changes which add no transactions and no opens, and leave those there as they are,
    change no report. *)
Theorem C93_quiet co ds0 ds o filters Rs :
  Forall quiet Rs → changed_by Rs ds0 ds →
  inventory co (Beans ds o) filters = inventory co (Beans ds0 o) filters ∧
  journal co (Beans ds o) filters = journal co (Beans ds0 o) filters.
Proof.
  intros HR Hc. pose proof (changed_all_quiet Rs ds0 ds HR Hc) as E.
  assert (selected (Beans ds o) filters = selected (Beans ds0 o) filters) as Es.
  { unfold selected. cbn [be_directives]. by rewrite (xf_reports ds), (xf_reports ds0), E. }
  unfold inventory, journal. rewrite Es. cbn [be_directives be_options]. by rewrite (registry_reports ds), (registry_reports ds0), E.
Qed.
Print Assumptions C93_quiet.

(** Every plugin here adds some units to each posting, by its account. *)
Theorem C93_adds (pls : list (string * plugin_xf)) Rs :
  Forall2 (λ pl R, alters pl.2 R) pls Rs → ∃ t, adds Rs t.
Proof.
  induction 1 as [|pl R pls Rs Ha _ [t IH]]; [eexists; constructor|].
  destruct Ha; [exists t; apply AddsQuiet; [|done]..|eexists; by apply AddsTo]; first [apply kept_quiet|apply closed_quiet|apply announced_quiet].
Qed.
Print Assumptions C93_adds.

(** What an account holds is what the server booked to it with what the plugins add to
    each posting; rows of the journal and their balances likewise. *)
Theorem C93_inventory co ds0 ds bs o filters inv Rs t :
  (∀ l, co_lots co l ≡ₚ l) → Forall2 directive_seen ds0 bs → changed_by Rs ds0 ds → adds Rs t →
  inventory co (Beans ds o) filters = Some inv →
  (∀ acc cur, held cur (holding inv acc) == entry_units_with t cur (to_account acc (entries_selected filters bs)))%Q ∧
  (∀ cur, held_in_all cur inv == entry_units_with t cur (entries_selected filters bs))%Q.
Proof.
  intros Hco Hs Hc Ha Hi. pose proof (selected_shifted t ds0 o bs Rs ds filters Hs Ha Hc) as He. unfold inventory in Hi.
  destruct (default_booking _) as [dflt|]; [|done]. split.
  - intros acc cur. rewrite (C36_units_conserved _ _ _ _ Hco Hi). by apply posted_shifted.
  - intros cur. rewrite (held_in_all_posted _ _ _ _ cur Hco Hi). by apply running_shifted.
Qed.
Print Assumptions C93_inventory.
Theorem C93_journal co ds0 ds bs o filters l Rs t :
  (∀ l, co_lots co l ≡ₚ l) → Forall2 directive_seen ds0 bs → changed_by Rs ds0 ds → adds Rs t →
  journal co (Beans ds o) filters = Some l →
  let es := entries_selected filters bs in
  length l = length es ∧
  ∀ n e, es !! n = Some e → ∃ row bal, l !! n = Some (row, bal) ∧
    item_of_posting row = e.1 ∧ (cn_value (cp_units row) == dec_value (p_units e.2) + t (p_acc e.2))%Q ∧
    ∀ cur, (held cur bal == entry_units_with t cur (take (S n) es))%Q.
Proof.
  intros Hco Hs Hc Ha Hj es. pose proof (selected_shifted t ds0 o bs Rs ds filters Hs Ha Hc) as He.
  destruct (C45_journal _ _ _ Hco Hj) as [Hl H]. split; [by rewrite Hl, (Forall2_length _ _ _ He)|].
  intros n e Hn. destruct (Forall2_lookup_r _ _ _ n e He Hn) as (p&Hp&Hi&_&_&Hv).
  destruct (H n p Hp) as (bal&Hn'&_&_&Hb). eexists _, bal. split; [exact Hn'|]. split_and!; [exact Hi|exact Hv|].
  intros cur. rewrite Hb. apply running_shifted. by apply Forall2_take.
Qed.
Print Assumptions C93_journal.

(** The plugin which adds units throws for exactly the directives with a posting to
    which they cannot be added, whatever came before them. *)
Theorem C93_throws config vs v d :
  viewed v d →
  (px_step (adjust_postings config) (vs ++ [v]) = None ↔ Exists (not_addable config) (cd_postings d)).
Proof.
  intros Hv. unfold adjust_postings, stepwise. cbn [px_step]. rewrite last_snoc, fmap_None. by apply adjust_none.
Qed.
Print Assumptions C93_throws.

(** * Samples *)

(** A posting to an account with nothing, nil, false, true or a number to be added. *)
Definition t_posting (acc : string) : cval := VMap [("acc", VStr acc); ("units", VNum (CLong (2 ^ 63 - 2))); ("cur", VStr "USD")].
Definition t_txn (acc : string) : cval := VMap [("dct", VKw "txn"); ("date", VDate (SampleLedgers.day 1)); ("postings", VVec [t_posting "Assets:Bank"; t_posting acc])].
Definition t_config : option cval :=
  Some (VMap [("Assets:Bank", VNum (CLong 1)); ("Nil", VNil); ("False", VBool false); ("True", VBool true); ("Two", VNum (CLong 2)); ("Decimal", VNum (CDec (Dec 2 0)))]).
Example C93_throws_example :
  Forall (λ acc, ∃ d, viewed (t_txn acc) d ∧ cp_acc <$> cd_postings d = ["Assets:Bank"; acc]) ["None"; "Nil"; "False"; "True"; "Two"; "Decimal"] ∧
  (λ acc, bool_decide (px_step (adjust_postings t_config) [t_txn acc] = None)) <$> ["None"; "Nil"; "False"; "True"; "Two"; "Decimal"] =
  [false; false; false; true; true; false].
Proof.
  split; [|by vm_compute]. repeat (constructor; [eexists; split; [split; [by vm_compute|]; split; [by left|by eexists]|done]|]). constructor.
Qed.

(** The ledger of [ViewProps.v] with plugins after booking. *)
Definition a_config (name : string) : option cval :=
  if String.eqb name "auto-close" then Some (VMap [("phase", VKw "booked"); ("accs", VSet [VStr "Assets:Bank:Sub"])])
  else if String.eqb name "adjust" then Some (VMap [("Assets:Bank", VNum (CDec (Dec 5 1))); ("Assets:Bank:Sub", VNum (CLong 1))])
  else if String.eqb name "fail" then Some (VMap [("phase", VKw "booked"); ("matching", VMap [("dct", VKw "note")])])
  else None.
Definition a_choice (x1 x2 x3 x4 x5 : plugin_xf) (name : string) : option plugin_xf :=
  if String.eqb name "auto-close" then Some x1
  else if String.eqb name "adjust" then Some x2
  else if String.eqb name "fail" then Some x3
  else if String.eqb name "create-event" then Some x4
  else if String.eqb name "identity" then Some x5
  else None.
Definition a_namespaces (xf : string → option plugin_xf) (name : string) : option namespace :=
  (λ xf, Namespace (Some (λ _ _, Some (Some xf))) None) <$> xf name.
Definition a_xf : string → option plugin_xf :=
  a_choice (auto_close true (a_config "auto-close")) (adjust_postings (a_config "adjust")) (fail_plugin true (a_config "fail")) create_event identity_plugin.
Definition a_env : string → option namespace := a_namespaces a_xf.
Definition a_parsed (names : list string) : parsed :=
  Parsed (pa_directives v_parsed ++ [PDirective (Span 0 80 89) (SampleLedgers.day 6) no_metadata (PVEvent "location" "Paris")]) (pa_options v_parsed) ((λ n, PPlugin n None) <$> names).
Definition a_load (names : list string) : option cval + option loaded :=
  load_beanfile sample_env id id (Healthy (inl (a_parsed names))) (λ _, sample_orders) sample_start a_env s_read id (λ _ _, true) id.
Definition a_names : list string := ["adjust"; "identity"; "auto-close"; "create-event"; "fail"; "adjust"].
Definition a_plugins : list (string * plugin_xf) := omap (λ n, (λ xf, (n, xf)) <$> a_xf n) a_names.
Definition a_adds (acc : string) : option Q :=
  if String.eqb acc "Assets:Bank" then Some (1 # 2)%Q else if String.eqb acc "Assets:Bank:Sub" then Some 1%Q else None.
Definition a_changes : list change :=
  [adjusted a_adds; kept; closed_after ["Assets:Bank:Sub"]; announced; kept; adjusted a_adds].
Lemma a_adjusts : alters (adjust_postings (a_config "adjust")) (adjusted a_adds).
Proof.
  apply AAdjust. intros acc. unfold a_adds.
  change (a_config "adjust" ≫= vget acc) with (vget acc (VMap [("Assets:Bank", VNum (CDec (Dec 5 1))); ("Assets:Bank:Sub", VNum (CLong 1))])).
  cbn [vget]. unfold vfield. rewrite !entries_cons, (String.eqb_sym acc "Assets:Bank"), (String.eqb_sym acc "Assets:Bank:Sub").
  destruct (String.eqb_spec "Assets:Bank" acc) as [<-|H1]; [by eexists|]. destruct (String.eqb_spec "Assets:Bank:Sub" acc) as [<-|H2]; [by eexists|done].
Qed.
Definition a_booked : list bdirective :=
  match book_with sample_env (a_parsed a_names) (λ _, sample_orders) 0 (from_directive <$> pa_directives (a_parsed a_names)) with BookSuccess bs _ => bs | _ => [] end.
Definition a_directives : list cdirective :=
  default [] (p_seen (λ m, default [] (mapM view_directive (default [] (l_directives m)))) (a_load a_names)).
Definition a_total (cur : string) (filters : list (citem → bool)) : option Q :=
  (λ inv, Qred (held_in_all cur inv)) <$> inventory plain_orders (Beans a_directives (client_options None)) filters.
Definition a_filters (k : Z) : list (citem → bool) := [f_sub_acc [Some "Assets:Bank"]; date_lt (SampleLedgers.day k)].
Definition a_sum (t : string → Q) (k : Z) : Q := Qred (entry_units_with t "USD" (entries_selected (a_filters k) a_booked)).
Lemma a_resolved x1 x2 x3 x4 x5 o names :
  names = a_names →
  of_phase true (resolve_plugin (a_namespaces (a_choice x1 x2 x3 x4 x5)) s_read o <$>
    vec (Some (seen_list (put_plugin <$> ((λ n, PPlugin n None) <$> names))))) =
  omap (λ n, (λ xf, (n, xf)) <$> a_choice x1 x2 x3 x4 x5 n) names.
Proof. intros ->. vm_compute. reflexivity. Qed.
Definition a_good (x : option cval + option loaded) : bool :=
  match x with inr (Some m) => match l_error m, l_raw_xf m with None, None => true | _, _ => false end | _ => false end.
Lemma a_good_load x : a_good x = true → ∃ m, x = inr (Some m) ∧ l_error m = None ∧ l_raw_xf m = None.
Proof.
  unfold a_good. destruct x as [|[m|]]; [done| |done]. destruct (l_error m) eqn:E1; [done|]. destruct (l_raw_xf m) eqn:E2; [done|]. intros _. by exists m.
Qed.
Lemma a_loaded : a_good (a_load a_names) = true →
  ∃ m, a_load a_names = inr (Some m) ∧ l_error m = None ∧ of_phase true (l_plugins m) = a_plugins ∧ l_raw_xf m = None.
Proof.
  intros H. destruct (a_good_load _ H) as (m&El&Ee&Ex). exists m. split; [exact El|]. split; [exact Ee|]. split; [|exact Ex]. clear H Ex.
  unfold a_load in El. apply (load_healthy sample_env id id (λ l, reflexivity l)) in El.
  destruct (load_plugins _ _ _ _ _ _ _ El Ee) as (ps&Hps&Hpl). clear El Ee. rewrite (ask_plugins sample_env id id (λ l, reflexivity l)) in Hps.
  cbn [result_of a_err a_ok] in Hps. injection Hps as <-. rewrite Hpl. exact (a_resolved _ _ _ _ _ _ _ eq_refl).
Qed.
(** Two plugins add to the postings of two accounts, the first and the last; in between
    there are closes and events made. *)
Example C93_example :
  (∃ m, a_load a_names = inr (Some m) ∧ l_error m = None ∧ of_phase true (l_plugins m) = a_plugins ∧ l_raw_xf m = None) ∧
  Forall2 (λ (pl : string * plugin_xf) R, alters pl.2 R) a_plugins a_changes ∧
  (∃ t, adds a_changes t ∧ t "Assets:Bank:Sub" = 2%Q ∧ a_sum t 4 = 13%Q) ∧
  countable_ledger (a_parsed a_names) ∧ Forall dates_valid a_booked ∧
  cd_dct <$> a_directives = ["open"; "open"; "close"; "open"; "pad"; "txn"; "txn"; "balance"; "txn"; "balance"; "event"; "event"] ∧
  length a_booked = 10 ∧
  a_total "USD" (a_filters 4) = Some 13%Q.
Proof.
  split_and!.
  - apply a_loaded; by vm_compute.
  - constructor; [exact a_adjusts|]. constructor; [exact AIdentity|]. constructor; [exact (AClose (a_config "auto-close") ["Assets:Bank:Sub"] eq_refl eq_refl)|]. constructor; [exact AEvent|].
    constructor; [exact (AFail _)|]. constructor; [exact a_adjusts|constructor].
  - eexists. split.
    + apply AddsTo. apply AddsQuiet; [apply kept_quiet|]. apply AddsQuiet; [apply closed_quiet|]. apply AddsQuiet; [apply announced_quiet|].
      apply AddsQuiet; [apply kept_quiet|]. apply AddsTo, AddsNone.
    + by vm_compute.
  - split; [by unfold fits; vm_compute|]. intros d f py n ps Hd Ev.
    assert (Hp : Forall (λ d, match pdr_variant d with PVTransaction _ _ _ ps => length ps ≤ 2 | _ => True end) (pa_directives (a_parsed a_names)))
      by (repeat constructor).
    rewrite Forall_forall in Hp. apply Hp in Hd. rewrite Ev in Hd. unfold fits. lia.
  - apply dates_checked. by vm_compute.
  - by vm_compute.
  - by vm_compute.
  - by vm_compute.
Qed.

(** "What the user sees of a ledger which loads without an error is balanced, and what
    its passed balance assertions say" is false: nothing is checked after the plugins
    which run after booking. *)
Definition a_view (names : list string) : option (list cdirective) := mjoin (p_seen (λ m, l_directives m ≫= mapM view_directive) (a_load names)).
Definition a_last : bdirective := Eval vm_compute in default (BDirective 0 (SampleLedgers.day 1) None None None (BVClose "")) (a_booked !! 8).
Definition a_inventory : gmap string (list position) :=
  default ∅ (inventory plain_orders (Beans (default [] (a_view ["adjust"])) (client_options None)) (a_filters 5)).
Theorem C93_refuted :
  ∃ names m bs n b bb ds inv,
    a_load names = inr (Some m) ∧ l_error m = None ∧ l_raw_xf m = None ∧
    let ledger := from_directive <$> pa_directives (a_parsed names) in
    lib_ok (env_booking sample_env (pa_options (a_parsed names))) ∧ in_ledger_order ledger ∧
    (∀ k, book_with sample_env (a_parsed names) (λ _, sample_orders) k ledger = BookSuccess bs []) ∧
    bs !! n = Some b ∧ b_variant b = BVBalance bb ∧ (∀ j, j < n → unconsumed bs n j = false) ∧
    l_directives m ≫= mapM view_directive = Some ds ∧
    (∃ d, d ∈ ds ∧ cd_dct d = "txn" ∧ Forall (λ q, cp_cur q = "USD" ∧ cp_cost q = None) (cd_postings d) ∧
       ¬ qsum ((λ q, cn_value (cp_units q)) <$> cd_postings d) == 0)%Q ∧
    inventory plain_orders (Beans ds (client_options None)) [f_sub_acc [Some (bal_acc (bb_raw bb))]; date_lt (b_date b)] = Some inv ∧
    (balance_tolerance (lib_multiplier (env_booking sample_env (pa_options (a_parsed names)))) (bb_raw bb) <
     Qabs (dec_value (bal_units (bb_raw bb)) - held_in_all (bal_cur (bb_raw bb)) inv))%Q.
Proof.
  assert (Ho : in_ledger_order (from_directive <$> pa_directives (a_parsed ["adjust"]))).
  { unfold in_ledger_order, a_parsed, v_parsed; cbn [pa_directives]; cbn [app]; cbn [fmap list_fmap]; ledger_in_order. }
  assert (Hg : a_good (a_load ["adjust"]) = true) by by vm_compute.
  assert (Hv : a_view ["adjust"] = Some (default [] (a_view ["adjust"]))) by (apply known; by vm_compute).
  destruct (a_good_load _ Hg) as (m&El&Ee&Ex). clear Hg.
  assert (Hv' : l_directives m ≫= mapM view_directive = Some (default [] (a_view ["adjust"]))).
  { rewrite <- Hv. unfold a_view, p_seen. rewrite El. exact eq_refl. }
  clear Hv. exists ["adjust"], m, a_booked, 8, a_last, (BBalance (Balance "Assets:Bank" (Dec 6 0) "USD" None) None None), (default [] (a_view ["adjust"])), a_inventory.
  split; [exact El|]. split; [exact Ee|]. split; [exact Ex|]. cbv zeta.
  split; [exact sample_lib_ok|]. split; [exact Ho|]. clear El Ee Ex Ho.
  split; [intros k; clear Hv'; by vm_compute|]. split; [clear Hv'; by vm_compute|]. split; [clear Hv'; by vm_compute|].
  split; [clear Hv'; intros j Hj; do 8 (destruct j as [|j]; [by vm_compute|]); lia|].
  split; [exact Hv'|]. clear Hv' m.
  split. { eexists. split; [apply (elem_of_list_lookup_2 _ 7); by vm_compute|]. split; [by vm_compute|]. split; [by repeat constructor|by vm_compute]. }
  split; [apply known; by vm_compute|by vm_compute].
Qed.
Print Assumptions C93_refuted.
