(** Theorems about plugins of several kinds, [auto_accounts] among them: client, wire,
    server and booking together. *)
From Coq Require Import Ascii QArith Sorted.
From stdpp Require Import prelude gmap strings.
From Verif Require Import DecModel LedgerTypes IsoModel IsoFacts JsonModel WireModel WireSpec WireFacts BookModel BookSpec BookLib LedgerMeaning BookProps ReportSpec ReportProps SpanModel ParserModel
  JsonText SampleLib SampleLedgers WireSamples ServerModel ServerSpec ServerFacts ServerSamples CljModel InventoryModel InventorySpec ClientModel ClientDecode FormatModel PluginModel PluginSpec PluginFacts PluginMerge PluginProps LoaderModel
  LoaderSpec LoaderFacts LoaderProps EncodeModel EncodeFacts EncodeStable SystemModel SystemFacts SystemLoad SystemSpec SystemErrors SystemTrace SystemPrint SystemProps
  AutoModel AutoSpec AutoFacts AutoLedgerSpec AutoLedgerFacts AutoLedgerProps EditModel EditSpec EditFacts EditRead EditProps MixSpec MixFacts.
Local Open Scope nat_scope.

(** * A ledger in which opens come first *)
(** Booking reports no posting because the account is not open. *)
Theorem C92_reported {P} (L : booking_lib P) ord opt l errors e :
  (∀ m, ord m ≡ₚ map_to_list m) → lib_ok L → opened_first l →
  book L ord opt l = BookFailure errors → e ∈ errors → is_Some (ei_posting (r_idx e)) →
  r_reason e ≠ "account not open".
Proof.
  intros Hord HL Hf Hb He [j Hj].
  pose proof Hb as Hel. eapply C21_errors_located in Hel as [Hel _]; [|done]. rewrite Forall_forall in Hel.
  destruct (Hel e He) as [(d & Hd & Hpj) _]. rewrite Hj in Hpj.
  destruct (d_variant d) as [t| | | | | | | | | | |] eqn:Ev; try (by destruct Hpj as (? & ? & _)).
  destruct (C06_transactions_reported P L ord Hord HL opt l (ei_directive (r_idx e)) d t) as (inv & meth & _ & _ & Hr); [by rewrite Hb|done|done|].
  rewrite Hb in Hr. cbn [errors_of] in Hr.
  assert (Hin : e ∈ reports_at (ei_directive (r_idx e)) errors) by by apply elem_of_list_filter.
  rewrite Hr in Hin. unfold txn_answer_reports in Hin.
  destruct (lib_book _ _ _ _ _) as [ips ?|?|?].
  2,3: apply elem_of_list_singleton in Hin; rewrite Hin in Hj; discriminate Hj.
  set (k := ei_directive (r_idx e)) in *. 
  assert (Hall : Forall (λ x : string * string, ∃ i o, opens_at (take k l) i x.1 o)
     ((λ x : _ * posting_spec, (ps_acc x.2, in_currency x.1)) <$> zip ips (tx_postings t))).
  { apply Forall_forall. intros x Hx. apply elem_of_list_fmap in Hx as ([ip q] & -> & Hq). apply elem_of_zip_r in Hq. cbn [fst snd] in *.
    destruct (Hf k d (ps_acc q) Hd) as (i & od & Hi & Ho & o & ?); [by exists t, q|].
    exists i, o, od. by rewrite lookup_take. }
  clear Hr. revert Hin. generalize 0 as i. induction Hall as [|[a cur] xs (i0 & o & Ho) _ IH]; intros i; cbn [first_use_report]; [by intros ?%elem_of_nil|].
  assert (Hu : life (take k l) a ≠ Unopened).
  { intros Hu. apply C06_lifecycle_meaning in Hu. by destruct (Hu i0 o). }
  unfold use_report. destruct (life (take k l) a) as [|i'|c|c i'] eqn:El; [done| | |]; cbn [unusable_report].
  - destruct (opening _ _) as [[i1 o1]|]; [destruct (allowsb _ _)|]; [apply IH| |apply IH]. intros Hin%elem_of_list_singleton. by rewrite Hin.
  - intros Hin%elem_of_list_singleton. by rewrite Hin.
  - destruct (opening _ _) as [[i1 o1]|]; [destruct (allowsb _ _)|]; [apply IH| |apply IH]. intros Hin%elem_of_list_singleton. by rewrite Hin.
Qed.
Print Assumptions C92_reported.
(** They do so after [auto_accounts], whatever the other plugins do. *)
Theorem C92_kept dp jso jmo pls Ts ds l :
  Forall2 (turns dp jso jmo) pls Ts → turned_by Ts ds l → opened_first ds ∨ opens_filled_in ∈ Ts → opened_first l.
Proof.
  intros HF. revert ds. induction HF as [|xf T pls Ts Ht HF IH]; intros ds; cbn [turned_by].
  - intros -> [?|Hn]; [done|]. by apply elem_of_nil in Hn.
  - intros (ds' & HT & Hby) Ho. apply (IH ds' Hby).
    destruct Ho as [Ho|[<-|Ho]%elem_of_cons]; [left|left; by eapply filled_opened_first|by right].
    destruct Ht as [xf R HR|config cs H1 H2|].
    + by eapply edits_opened_first.
    + eapply (edits_opened_first dp jso jmo identity_plugin unchanged); [apply EIdentity|exact Ho|exact HT].
    + by eapply filled_opened_first.
Qed.
Print Assumptions C92_kept.

(** * From the ledger to booking *)
Lemma turns_hold dp jso jmo : (∀ l, jso l ≡ₚ l) → (∀ l, jmo l ≡ₚ l) → ∀ spec pls Ts vs ds out,
  Forall2 (λ (pl : string * plugin_xf) T, turns dp jso jmo pl.2 T) pls Ts → Forall2 (holds dp jso jmo) vs ds →
  chain spec false pls vs = Some out → ∃ l, turned_by Ts ds l ∧ Forall2 (holds dp jso jmo) out l.
Proof.
  intros Hjso Hjmo spec pls. induction pls as [|[name xf] pls IH]; intros Ts vs ds out HP HF Hc; inversion HP as [|? T ? Ts' HT HP']; subst.
  { cbn in Hc. injection Hc as <-. by exists ds. }
  cbn [snd] in HT. cbn [chain] in Hc. destruct (through _ _ _ _) as [vs'|] eqn:Et; [|done].
  assert (∃ ds', T ds ds' ∧ Forall2 (holds dp jso jmo) vs' ds') as (ds' & Hd & HF').
  { destruct HT as [xf R HR|config cs H1 H2|].
    - destruct (edits_makes dp jso jmo xf R Hjso Hjmo HR) as (f & -> & Hf). by eapply through_makes.
    - assert (∃ message, fail_plugin false config = stepwise (fail_step (configured <$> cs) message)) as [message Hf].
      { eexists. unfold fail_plugin. rewrite H1, H2. reflexivity. }
      rewrite Hf in Et. eapply (through_makes dp jso jmo Hjmo); [|done|done]. by apply fail_makes.
    - by eapply auto_turns. }
  destruct (IH Ts' vs' ds' out HP' HF' Hc) as (l & Hl & Hout). exists l. split; [by exists ds'|done].
Qed.

Section System.
Context {P S : Type} (env : server_env P S).
Context (jso : list json → list json) (jmo : list (string * json) → list (string * json)).
Context (Hjso : ∀ l, jso l ≡ₚ l) (Hjmo : ∀ l, jmo l ≡ₚ l).
Context (hs : nat → orders P) (sources : S).
Context (ns : string → option namespace) (read_config : option cval → option (option cval)).
Context (code : nat → nat) (Hcode : ∀ i j, code i = code j → i = j).
Context (spec : bool → cval → bool) (so : list cval → list cval).
Context (p : parsed).
Notation ledger := (from_directive <$> pa_directives p).
Notation load_beanfile hl := (load_beanfile env jso jmo hl hs sources ns read_config code spec so).
Notation server_reads xs := (mapM (get_directive (env_dec_parse env)) (encode jso jmo <$> xs)).
Notation book_with := (book_with env p hs).
Notation hl := (Healthy (inl p)).
Notation turns := (turns (env_dec_parse env) jso jmo).

(** What the server is asked to book, and understands, is the ledger as the plugins
    turn it, in order. *)
Theorem C92_books m xs Ts :
  load_beanfile hl = inr (Some m) → RBook (Some xs) ∈ l_asked m →
  Forall2 (λ (pl : string * plugin_xf) T, turns pl.2 T) (of_phase false (l_plugins m)) Ts →
  any_order (or_wire (hs 4)) → Forall (λ d, ok_directive d ∧ directive_no_clash d) ledger →
  ∃ l, server_reads xs = Some l ∧ turned_by Ts ledger l.
Proof using Hjso Hjmo Hcode.
  intros Hm Hb Hps Hord Hok. apply load_healthy in Hm.
  destruct (load_book _ _ _ _ _ _ m (Some xs) Hm Hb) as (Exs & ok & raw & sp & Hres & Hraw & Hsp & Eraw & Hrun & _).
  rewrite (ask_directives env jso jmo Hjmo) in Hres. injection Hres as <-. rewrite raw_values in Hrun.
  destruct (Hrun xs) as (out & Hout & Hmerge & _); [done|].
  rewrite C50_chain in Hout by done. destruct (acceptable _ _); [|done].
  destruct (turns_hold (env_dec_parse env) jso jmo Hjso Hjmo _ _ _ _ _ _ Hps (ledger_holds env jso jmo Hjso Hjmo hs p Hord Hok) Hout) as (l & Hl & HF).
  exists l. split; [|done]. apply holds_read.
  assert (Forall2 hidden out xs) as Hh.
  { eapply (merge_hidden so _ out xs (spans_length env jso jmo Hjmo hs sources p)); [| |exact Hmerge].
    - eapply Forall2_Forall_l; [exact HF|]. apply Forall_true. by intros d v [_ (? & _)].
    - eapply Forall2_Forall_l; [exact HF|]. apply Forall_true. intros d v [_ (_ & _ & Ht & _)]. destruct Ht as [Ht|Ht]; [by left|right].
      apply Forall_cons in Ht as [Ht _]. unfold vpostings. by rewrite Ht. }
  clear -HF Hh Hjmo. revert l HF. induction Hh as [|v x out xs Hv _ IH]; intros l HF; inversion HF; subst; constructor; [|by apply IH].
  by eapply holds_hidden.
  Unshelve. exact Hjmo.
Qed.
(** So with [auto_accounts] anywhere among them loading never fails because a
    transaction uses an account which is not open: either what results is booked, or
    each error has a report, and none is of this kind at a posting. *)
Theorem C92_loaded m xs Ts :
  (∀ n m, or_accounts (hs n) m ≡ₚ map_to_list m) → lib_ok (env_booking env (pa_options p)) →
  load_beanfile hl = inr (Some m) → RBook (Some xs) ∈ l_asked m →
  Forall2 (λ (pl : string * plugin_xf) T, turns pl.2 T) (of_phase false (l_plugins m)) Ts →
  opens_filled_in ∈ Ts →
  any_order (or_wire (hs 4)) → Forall (λ d, ok_directive d ∧ directive_no_clash d) ledger → countable xs →
  ∃ n l, turned_by Ts ledger l ∧
    match book_with n l with
    | BookSuccess bs _ => (∀ e, l_error m ≠ Some (LeBooking e)) ∧
        ∃ vs, l_booked m = Some vs ∧ Forall2 (taken_from (or_wire (hs n)) xs) bs vs
    | BookFailure errors => ∃ rs, l_error m = Some (LeBooking (BeReports rs)) ∧
        Forall2 (λ e r, located_report (env_layout env) xs e r ∧
                   (is_Some (ei_posting (r_idx e)) → cr_reason r ≠ Some (VStr "account not open"))) errors rs
    | BookPanic _ => l_error m = Some (LeBooking (BeReports []))
    end.
Proof using Hjso Hjmo Hcode.
  intros Hacc HL Hm Hb Hps Hin Hord Hok Hc.
  destruct (C92_books m xs Ts Hm Hb Hps Hord Hok) as (l & Hl & Hf).
  destruct (plugin_outcome env jso jmo Hjmo hs sources ns read_config code spec so p Hacc m xs l Hm Hb Hl Hc) as [n Hn].
  exists n, l. split; [done|]. destruct (book_with n l) as [bs ws|errors|w] eqn:Eb; [done| |done].
  destruct Hn as (rs & Hrs & HF). exists rs. split; [done|].
  apply Forall2_same_length_lookup_2; [by eapply Forall2_length|].
  intros i e r He Hr. eapply Forall2_lookup_lr in HF as [HF _]; [|done..]. split; [done|].
  intros Hp. destruct HF as (_ & -> & _). intros [= Hx]. revert Hx.
  assert (opened_first l) as Hof.
  { eapply (C92_kept (env_dec_parse env) jso jmo ((of_phase false (l_plugins m)).*2) Ts ledger l); [|done|by right]. by apply Forall2_fmap_l. }
  eapply (C92_reported (env_booking env (pa_options p)) (or_accounts (hs n))); [apply Hacc|done|done|exact Eb|by eapply elem_of_list_lookup_2|done].
Qed.
End System.
Print Assumptions C92_books.
Print Assumptions C92_loaded.

(** * Samples *)

(** The transaction of the sample ledger, without the opens. *)
Definition x_env (name : string) : option namespace :=
  if String.eqb name "auto" then Some (Namespace None (Some (λ _ _, Some (Some auto_accounts)))) else e_env name.
Definition x_xf (name : string) : option plugin_xf := if String.eqb name "auto" then Some auto_accounts else e_xf name.
Definition x_parsed (names : list string) : parsed :=
  Parsed (drop 2 (pa_directives (sample_parsed true))) (pa_options (sample_parsed true)) ((λ n, PPlugin n None) <$> names).
Definition x_load (names : list string) : option cval + option loaded :=
  load_beanfile sample_env id id (Healthy (inl (x_parsed names))) (λ _, sample_orders) sample_start x_env s_read id (λ _ _, true) id.
Definition x_raw (names : list string) : list cval := default [] (mjoin (p_seen l_raw_xf (x_load names))).
Lemma x_seen_sent names x : p_seen p_sent (x_load names) = Some (Some x) → ∃ m, x_load names = inr (Some m) ∧ RBook x ∈ l_asked m.
Proof.
  unfold p_seen. destruct (x_load names) as [|[m|]]; try done. intros [= H]. exists m. split; [done|]. unfold p_sent in H.
  destruct (List.filter _ _) as [|r l] eqn:E; [done|]. assert (Hr : r ∈ l_asked m).
  { apply elem_of_list_In. assert (Hin : List.In r (r :: l)) by by left. rewrite <- E in Hin. by apply List.filter_In in Hin as [? _]. }
  destruct r; try done. by injection H as ->.
Qed.
Definition x_plugins (names : list string) : list (string * plugin_xf) := omap (λ n, (λ xf, (n, xf)) <$> x_xf n) names.
(** A copy of the transaction, opens, narration, an account closed at once, and a plugin
    which fails on something else. *)
Definition x_names : list string := ["duplicate-txns"; "auto"; "set-narration"; "auto-close"; "fail"].
Definition x_turns : list turn :=
  [edited duplicated; opens_filled_in; edited (narrated "as usual"); edited (closed_at_once ["Assets:Bank"]); edited unchanged].
Lemma x_turns_ok : Forall2 (λ (pl : string * plugin_xf) T, turns no_strings id id pl.2 T) (x_plugins x_names) x_turns.
Proof.
  constructor; [apply TEdit, EDuplicate|]. constructor; [apply TAuto|]. constructor; [by apply TEdit, ENarration|].
  constructor; [by apply TEdit, (EClose _ _ _ _ ["Assets:Bank"])|]. constructor; [by apply (TFail _ _ _ _ [HasKind "event"])|constructor].
Qed.
Lemma x_ok names : Forall (λ d, ok_directive d ∧ directive_no_clash d) (from_directive <$> pa_directives (x_parsed names)).
Proof. pose proof (sample_ok true) as H. apply Forall_cons in H as [_ H]. apply Forall_cons in H as [_ H]. exact H. Qed.
Definition reasons (r : option cval + option loaded) : option (list (option cval)) :=
  match r with inr (Some m) => match l_error m with Some (LeBooking (BeReports rs)) => Some (cr_reason <$> rs) | _ => None end | _ => None end.
Example C92_example :
  (∃ m, x_load x_names = inr (Some m) ∧ RBook (Some (x_raw x_names)) ∈ l_asked m) ∧
  p_seen (λ m, of_phase false (l_plugins m)) (x_load x_names) = Some (x_plugins x_names) ∧
  opens_filled_in ∈ x_turns ∧ any_order plain_order ∧
  Forall (λ d, ok_directive d ∧ directive_no_clash d) (from_directive <$> pa_directives (x_parsed x_names)) ∧
  countable (x_raw x_names) ∧
  fmap kind_name <$> p_reads (x_raw x_names) = Some ["open"; "close"; "open"; "txn"; "txn"] ∧
  (∃ r, reasons (x_load x_names) = Some [r; r] ∧ r = Some (VStr "account was closed")) ∧
  reasons (x_load (take 3 x_names)) = None ∧
  reasons (x_load ["identity"]) = Some [Some (VStr "account not open")].
Proof.
  split_and!; [by apply x_seen_sent; vm_compute|by vm_compute|by right; left|apply plain_order_any|apply x_ok| |by vm_compute..| | |].
  - assert (Hp : Forall (λ d, length (vpostings d) ≤ 2) (x_raw x_names)) by (vm_compute; repeat constructor).
    split; [by unfold fits; vm_compute|]. rewrite Forall_forall in Hp. intros d Hd%Hp. unfold fits. lia.
  - eexists. by split; vm_compute.
  - by vm_compute.
  - by vm_compute.
Qed.
