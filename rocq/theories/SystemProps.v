(** Theorems about client and server together. *)
From Coq Require Import Ascii QArith.
From stdpp Require Import prelude gmap strings.
From Verif Require Import DecModel LedgerTypes IsoModel IsoFacts JsonModel WireModel WireSpec WireFacts BookModel BookSpec BookProps ReportSpec ReportProps SpanModel ParserModel
  JsonText SampleLib SampleLedgers WireSamples ServerModel ServerSpec ServerFacts ServerSamples CljModel InventoryModel ClientModel ClientDecode FormatModel PluginModel PluginSpec PluginFacts PluginMerge PluginProps LoaderModel
  LoaderSpec LoaderFacts LoaderProps EncodeModel EncodeFacts EncodeStable SystemModel SystemFacts SystemLoad SystemSpec SystemErrors SystemTrace SystemPrint.
Local Open Scope nat_scope.

Section System.
Context {P S : Type} (env : server_env P S).
Context (jso : list json → list json) (jmo : list (string * json) → list (string * json)).
Context (Hjso : ∀ l, jso l ≡ₚ l) (Hjmo : ∀ l, jmo l ≡ₚ l).
Context (hs : nat → orders P) (sources : S).
Context (ns : string → option namespace) (read_config : option cval → option (option cval)).
Context (code : nat → nat) (spec : bool → cval → bool) (so : list cval → list cval).
Notation encode := (encode jso jmo).
Notation load_beanfile hl := (load_beanfile env jso jmo hl hs sources ns read_config code spec so).
Notation ask hl := (SystemModel.ask env jso jmo hl hs sources).
Notation server_reads xs := (mapM (get_directive (env_dec_parse env)) (encode <$> xs)).

Lemma start_healthy pl : pod_start env jso jmo (Healthy pl) hs sources = None.
Proof.
  unfold pod_start. erewrite invoke_eq by (by eapply (message_status _ _ _ Hjmo 1)). cbn [dispatch_method status snd].
  by rewrite answer_result.
Qed.
Lemma load_healthy pl m : load_beanfile (Healthy pl) = inr (Some m) →
  load ns read_config code spec so (ask (Healthy pl)) = Some m.
Proof. unfold SystemModel.load_beanfile. rewrite start_healthy. by intros [= ?]. Qed.

Section Parsed.
Context (p : parsed).
Notation ledger := (from_directive <$> pa_directives p).
Notation book_with := (book_with env p hs).
Notation hl := (Healthy (inl p)).

Lemma raw_values : vec (vget "directives" (directives_value p hs 4)) = ledger_values (or_wire (hs 4)) (pa_directives p).
Proof. by rewrite directives_value_get. Qed.
Lemma small_prefix sp : maybe_spans sp → small (length ([RPlugins; ROptions; RDirectives] ++ sp) + 2).
Proof. intros [->|(rs&->)]; by apply small_4; cbn; lia. Qed.

(** What an [int] can count: true of whatever fits in memory. *)
Definition countable (ds : list cval) : Prop := fits (length ds) ∧ ∀ d, d ∈ ds → fits (length (vpostings d)).
Definition countable_ledger : Prop :=
  fits (length (pa_directives p)) ∧
  ∀ d f py n ps, d ∈ pa_directives p → pdr_variant d = PVTransaction f py n ps → fits (length ps).
Lemma ledger_countable ord : countable_ledger → countable (ledger_values ord (pa_directives p)).
Proof.
  intros [H1 H2]. unfold ledger_values. split; [by rewrite !fmap_length|].
  intros d Hd. apply elem_of_list_fmap in Hd as (j&->&Hj). apply elem_of_list_fmap in Hj as (pd&->&Hin). rewrite ledger_postings.
  destruct (pdr_variant pd) as [f py n ps| | | | | | | | | | |] eqn:E; try (unfold fits; cbn; lia). rewrite fmap_length. by eapply H2.
Qed.
Context (Hacc : ∀ n m, or_accounts (hs n) m ≡ₚ map_to_list m).

(** * C54 *)

(** When there are no raw plugins and booking fails, the loaded result has no report at
    all. *)
Theorem C54_lost m : load_beanfile hl = inr (Some m) → RBook None ∈ l_asked m →
  (∀ n bs ws, book_with n ledger ≠ BookSuccess bs ws) →
  l_error m = Some (LeBooking (BeReports [])).
Proof.
  intros Hl%load_healthy Hb Hf. destruct (load_book _ _ _ _ _ _ _ _ Hl Hb) as (Hr&ok&raw&sp&Hok&_&Hsp&Hraw&_&_&H).
  rewrite <- Hr in H, Hraw. destruct (state_prefix env jso jmo Hjmo p hs sources sp Hsp) as [s Hs].
  rewrite (ask_book_none env jso jmo Hjmo p hs sources _ s Hs (small_prefix sp Hsp)) in H. cbv zeta in H.
  destruct (book_with _ ledger) as [bs ws|errors|w] eqn:Eb; [by apply Hf in Eb| |exact H].
  destruct (create_reports_from_booking_errors _ _) as [rs|]; [|exact H].
  cbn [result_of a_err a_ok] in H. cbn [fmap option_fmap option_map] in H. rewrite failure_report in H. exact H.
Qed.

Lemma plugin_outcome m xs l :
  load_beanfile hl = inr (Some m) → RBook (Some xs) ∈ l_asked m → server_reads xs = Some l → countable xs →
  ∃ n, match book_with n l with
       | BookSuccess bs _ => (∀ e, l_error m ≠ Some (LeBooking e)) ∧
           ∃ vs, l_booked m = Some vs ∧ Forall2 (taken_from (or_wire (hs n)) xs) bs vs
       | BookFailure errors => ∃ rs, l_error m = Some (LeBooking (BeReports rs)) ∧
           Forall2 (λ e r, located_report (env_layout env) xs e r ∧ with_context xs e r) errors rs
       | BookPanic _ => l_error m = Some (LeBooking (BeReports []))
       end.
Proof.
  intros Hl%load_healthy Hb Hx [Hc1 Hc2]. destruct (load_book _ _ _ _ _ _ _ _ Hl Hb) as (Hr&ok&raw&sp&Hok&_&Hsp&Hraw&Hplug&_&H).
  rewrite <- Hr in H, Hraw, Hplug. subst raw. destruct (state_prefix env jso jmo Hjmo p hs sources sp Hsp) as [s Hs].
  rewrite (ask_book_some env jso jmo Hjmo p hs sources _ s xs l Hs (small_prefix sp Hsp) Hx) in H. cbv zeta in H.
  exists (length ([RPlugins; ROptions; RDirectives] ++ sp) + 2). set (n := _ + 2) in *.
  destruct (Hplug _ eq_refl) as (out&_&Hm&_). apply merge_marks in Hm. rewrite Forall_forall in Hm.
  assert (Hlen : length l = length xs).
  { apply mapM_length in Hx. by rewrite fmap_length in Hx. }
  assert (Hkind : ∀ d, d ∈ xs → ∃ k, vget "dct" d = Some (VKw k) ∨ vget "dct" d = Some (VStr k)).
  { intros d Hd. apply mapM_Some in Hx. apply elem_of_list_lookup in Hd as [i Hi].
    eapply Forall2_lookup_l in Hx as (x&_&Hg); [|rewrite list_lookup_fmap, Hi; reflexivity]. by eapply dct_read. }
  destruct (book_with n l) as [bs ws|errors|w] eqn:Eb; [| |exact H].
  - cbn [result_of a_err a_ok] in H. rewrite booked_value_get in H. cbn [vec seen_list] in H.
    destruct (all_taken (or_wire (hs n)) xs Hc1 Hc2 bs) as (vs&Hv&HF).
    { apply C01_output_mirrors_ledger, mirrors_idx in Eb. by rewrite Hlen in Eb. }
    unfold seen_list, vec in H. rewrite Hv in H. destruct H as [H1 H2]. split; [exact H2|]. by exists vs.
  - cbn [result_of a_err a_ok] in H. cbn [fmap option_fmap option_map] in H. rewrite failure_indexed in H. 
    cbn [indexed_of fmap option_fmap option_map] in H. cbn [decode] in H. change (is_set_key (Some "data")) with false in H. cbv iota in H. cbn [vec] in H.
    destruct (reports_located xs Hc1 Hc2 Hkind Hm env errors) as (rs&Hrs&HF).
    { eapply C21_errors_located in Eb as [Hel _]; [|by apply Hacc]. eapply Forall_impl; [exact Hel|]. intros e [H1 H2]. rewrite <- Hlen. 
      assert (He : ∀ i, element_of l i → ei_directive i < length l).
      { intros i (d&Hd&_). by eapply lookup_lt_Some. }
      split; [by apply He|]. intros l' i Hl' Hi. apply He. by eapply H2. }
    change (map (decode None)) with (fmap (M:=list) (decode None)) in H. rewrite Hrs in H. by exists rs.
Qed.

(** With raw plugins, the directives [xs] which they made and which the server reads as
    [l] are booked; there is then a report for each error, at the place of the error,
    or none if booking panics. *)
Theorem C54_reports_partial m xs l :
  load_beanfile hl = inr (Some m) → RBook (Some xs) ∈ l_asked m → server_reads xs = Some l → countable xs →
  ∃ n, match book_with n l with
       | BookSuccess _ _ => ∀ e, l_error m ≠ Some (LeBooking e)
       | BookFailure errors => ∃ rs, l_error m = Some (LeBooking (BeReports rs)) ∧
           Forall2 (λ e r, located_report (env_layout env) xs e r ∧ with_context xs e r) errors rs
       | BookPanic _ => l_error m = Some (LeBooking (BeReports []))
       end.
Proof.
  intros H1 H2 H3 H4. destruct (plugin_outcome m xs l H1 H2 H3 H4) as [n H]. exists n. destruct (book_with n l); [by destruct H|done|done].
Qed.

(** If the server cannot read what the plugins made, booking fails without report. *)
Theorem C54_refused m xs :
  load_beanfile hl = inr (Some m) → RBook (Some xs) ∈ l_asked m → server_reads xs = None →
  l_error m = Some (LeBooking (BeReports [])).
Proof.
  intros Hl%load_healthy Hb Hx. destruct (load_book _ _ _ _ _ _ _ _ Hl Hb) as (Hr&ok&raw&sp&Hok&_&Hsp&Hraw&Hplug&_&H).
  rewrite <- Hr in H, Hraw, Hplug. destruct (state_prefix env jso jmo Hjmo p hs sources sp Hsp) as [s Hs].
  destruct (ask_book_refused env jso jmo Hjmo p hs sources _ s xs Hs (small_prefix sp Hsp) Hx) as [w Ha]. 
  cbv zeta in H. rewrite Ha in H. cbn [result_of a_err a_ok] in H. cbn [fmap option_fmap option_map] in H. by rewrite failure_parse in H.
Qed.

(** * C55 *)

(** Without raw plugins: every booked directive has the span of the directive of the
    ledger it comes from, and every booked posting that of its posting. *)
Theorem C55_traced m :
  load_beanfile hl = inr (Some m) → RBook None ∈ l_asked m → countable_ledger →
  ∃ n, ∀ bs ws, book_with n ledger = BookSuccess bs ws →
    ∃ vs, l_booked m = Some vs ∧ Forall2 (traced_to (or_wire (hs n)) (pa_directives p)) bs vs.
Proof.
  intros Hl%load_healthy Hb Hc. destruct (load_book _ _ _ _ _ _ _ _ Hl Hb) as (Hr&ok&raw&sp&Hok&_&Hsp&Hraw&_&_&H).
  rewrite <- Hr in H, Hraw. destruct (state_prefix env jso jmo Hjmo p hs sources sp Hsp) as [s Hs].
  rewrite (ask_directives env jso jmo Hjmo) in Hok. injection Hok as <-. rewrite raw_values in Hraw. subst raw.
  rewrite (ask_book_none env jso jmo Hjmo p hs sources _ s Hs (small_prefix sp Hsp)) in H. cbv zeta in H.
  exists (length ([RPlugins; ROptions; RDirectives] ++ sp) + 2). set (n := _ + 2) in *. intros bs ws Eb. rewrite Eb in H. cbn [result_of a_err a_ok] in H. rewrite booked_value_get in H. unfold seen_list, vec in H.
  destruct (ledger_countable (or_wire (hs 4)) Hc) as [Hc1 Hc2].
  destruct (all_taken (or_wire (hs n)) _ Hc1 Hc2 bs) as (vs&Hv&HF).
  { apply C01_output_mirrors_ledger, mirrors_idx in Eb. unfold ledger_values. by rewrite !fmap_length in *. }
  rewrite Hv in H. destruct H as [H _]. exists vs. split; [done|]. eapply Forall2_impl; [exact HF|]. intros b v. apply taken_traced.
Qed.
(** With raw plugins: the spans and marks are those of the directives which the plugins
    made. *)
Theorem C55_traced_plugins m xs l :
  load_beanfile hl = inr (Some m) → RBook (Some xs) ∈ l_asked m → server_reads xs = Some l → countable xs →
  ∃ n, ∀ bs ws, book_with n l = BookSuccess bs ws →
    ∃ vs, l_booked m = Some vs ∧ Forall2 (taken_from (or_wire (hs n)) xs) bs vs.
Proof.
  intros H1 H2 H3 H4. destruct (plugin_outcome m xs l H1 H2 H3 H4) as [n H]. exists n. intros bs ws Eb. rewrite Eb in H. by destruct H.
Qed.

(** * C56 *)

(** The rest of each report of a booking error is read by the server as it is, and
    printed. *)
Theorem C56_rest_partial m rs ws :
  load_beanfile hl = inr (Some m) → l_error m = Some (LeBooking (BeReports rs)) → rs ≠ [] →
  Forall2 (λ r w, says r w ∧ wr_contexts w = None) rs ws →
  mapM get_report (encode <$> (report_value <$> rs)) = Some ws ∧
  ∃ s, pod_state env jso jmo hl hs sources (l_asked m) = Some s ∧
    ((∀ w, w ∈ ws → is_Some (src_write_report (env_sources env) s false w)) →
     ∃ t, printed_reports env jso jmo hl hs sources m = Some (Some (VStr t)) ∧
       printed_as (src_write_report (env_sources env) s false) ws t).
Proof.
  intros Hl%load_healthy He Hne HF.
  assert (Hm : mapM get_report (encode <$> (report_value <$> rs)) = Some ws).
  { apply mapM_Some. clear -HF Hjmo. induction HF as [|r w rs ws [H1 H2]]; constructor; [|done]. by apply says_read. }
  split; [done|]. pose proof (C53_outcome _ _ _ _ _ _ _ Hl) as Ho. unfold outcome_shown in Ho. rewrite He in Ho.
  destruct Ho as ((sp&Has&Hsp)&_).
  assert (Hb : RBook (l_raw_xf m) ∈ l_asked m) by (rewrite Has; set_solver).
  destruct (load_book _ _ _ _ _ _ _ _ Hl Hb) as (_&ok&raw&sp1&_&_&Hsp1&_&_&(sp2&Has2&Hsp2)&H).
  assert (sp1 = sp) as ->.
  { rewrite Has in Has2. destruct Hsp as [->|(?&->)], Hsp1 as [->|(?&->)]; cbn in Has2; try done; congruence. }
  assert (Halive : is_Some (pod_state env jso jmo hl hs sources (l_asked m))).
  { rewrite Has, (assoc_L app). apply alive. intros Hno. rewrite Hno in H. cbn in H. congruence. }
  destruct Halive as [s Hs]. exists s. split; [done|]. intros Hw.
  unfold printed_reports. rewrite He. cbn [mbind option_bind error_reports_of]. rewrite Hs.
  destruct (format_prints env jso jmo Hjmo (inl p) hs (length (l_asked m) + 2) s (report_value <$> rs) ws) as (t&->&Ht).
  - rewrite Has. destruct Hsp as [->|(?&->)]; by apply small_4; cbn; lia.
  - done.
  - done.
  - exists t. by split.
Qed.

(** * C71 *)

(** A directive of the ledger which comes through the raw plugins unchanged is booked
    as it is in the ledger. *)
Theorem C71_unchanged (ord : hash_order) xs l i j d :
  any_order ord → server_reads xs = Some l →
  pa_directives p !! j = Some d → xs !! i = ledger_values ord (pa_directives p) !! j →
  ok_directive (from_directive d) → directive_no_clash (from_directive d) →
  l !! i = Some (from_directive d).
Proof.
  intros Hord Hx Hd Hi Hok Hnc. unfold ledger_values in Hi. rewrite !list_lookup_fmap, Hd in Hi. cbn [fmap option_fmap option_map] in Hi.
  apply mapM_Some in Hx. eapply Forall2_lookup_l in Hx as (x&Hl&Hg); [|rewrite list_lookup_fmap, Hi; reflexivity].
  rewrite sent_back in Hg by done. congruence.
Qed.
(** If the raw plugins change nothing, the ledger is booked, and its errors are
    reported, at the same places as without them. *)
Theorem C71_nothing_changed m xs :
  load_beanfile hl = inr (Some m) → RBook (Some xs) ∈ l_asked m → l_raw m = Some xs →
  any_order (or_wire (hs 4)) → Forall (λ d, ok_directive d ∧ directive_no_clash d) ledger → countable_ledger →
  ∃ n, match book_with n ledger with
       | BookSuccess bs _ => ∃ vs, l_booked m = Some vs ∧ Forall2 (traced_to (or_wire (hs n)) (pa_directives p)) bs vs
       | BookFailure errors => ∃ rs, l_error m = Some (LeBooking (BeReports rs)) ∧
           Forall2 (λ e r, located_report (env_layout env) xs e r) errors rs
       | BookPanic _ => l_error m = Some (LeBooking (BeReports []))
       end.
Proof.
  intros Hl Hb Hraw Hord Hok Hc. pose proof (load_healthy _ _ Hl) as Hl'.
  destruct (load_book _ _ _ _ _ _ _ _ Hl' Hb) as (Hr&ok&raw&sp&Hokv&Hraw'&Hsp&Hraw2&Hplug&_&H).
  rewrite (ask_directives env jso jmo Hjmo) in Hokv. injection Hokv as <-. rewrite raw_values in Hraw'.
  assert (xs = ledger_values (or_wire (hs 4)) (pa_directives p)) as Exs by congruence.
  assert (Hx : server_reads xs = Some ledger).
  { rewrite Exs. unfold ledger_values. apply mapM_Some. clear -Hok Hord Hjso Hjmo. induction (pa_directives p) as [|d ds IH]; [constructor|].
    cbn [fmap list_fmap] in *. apply Forall_cons in Hok as [[H1 H2] Hok]. constructor; [by apply sent_back|by apply IH]. }
  assert (Hcx : countable xs) by (rewrite Exs; by apply ledger_countable).
  destruct (plugin_outcome m xs ledger Hl Hb Hx Hcx) as [n Hn]. exists n. destruct (book_with n ledger) as [bs ws|errors|w]; [| |done].
  - destruct Hn as (_&vs&Hv&HF). exists vs. split; [done|]. eapply Forall2_impl; [exact HF|]. intros b v Hbv. rewrite Exs in Hbv. by eapply taken_traced.
  - destruct Hn as (rs&He&HF). exists rs. split; [done|]. eapply Forall2_impl; [exact HF|]. by intros e r [? _].
Qed.
End Parsed.

(** * C56 *)

(** No report which the client sends brings a context to the server. *)
Theorem C56_lost r w : get_report (encode (report_value r)) = Some w → wr_contexts w = None.
Proof. by apply context_lost. Qed.

(** * C72 *)

(** A ledger which does not parse: loading fails at once, with all errors; they are
    printed, in order. *)
Theorem C72_parse_errors es :
  ∃ m, load_beanfile (Healthy (inr es)) = inr (Some m) ∧ parsing_failed m ∧
    (∃ vs, l_error m = Some (LeParser (Some (VVec vs))) ∧ mapM get_report (encode <$> vs) = Some (from_error <$> es)) ∧
    ((∀ e, e ∈ es → is_Some (src_write_report (env_sources env) sources false (from_error e))) →
     ∃ t, printed_reports env jso jmo (Healthy (inr es)) hs sources m = Some (Some (VStr t)) ∧
       printed_as (src_write_report (env_sources env) sources false) (from_error <$> es) t).
Proof.
  assert (Ha : invoke env jso jmo (Healthy (inr es)) hs 2 (Some sources) "parser.plugins" None =
     (Some sources, Answer None (Some (error_value ERROR_REPORT "Error reports" (Some (JArr (put_report <$> (from_error <$> es)))))))).
  { erewrite invoke_eq by (eapply (message_plain _ _ _ Hjmo 2 RPlugins MPlugins); [by apply small_4; lia|set_solver]).
    cbn [dispatch_method parser_plugins]. unfold error_reports. by rewrite answer_error. }
  assert (Hask : ask (Healthy (inr es)) [] RPlugins = Answer None (Some (error_value ERROR_REPORT "Error reports" (Some (JArr (put_report <$> (from_error <$> es))))))).
  { unfold SystemModel.ask. cbn -[invoke]. by rewrite Ha. }
  destruct (load_beanfile (Healthy (inr es))) as [?|[m|]] eqn:Hl.
  { unfold SystemModel.load_beanfile in Hl. by rewrite start_healthy in Hl. }
  2: { unfold SystemModel.load_beanfile in Hl. rewrite start_healthy in Hl. injection Hl as Hl. apply C53_thrown in Hl as (ps&Hps&_). by rewrite Hask in Hps. }
  exists m. split; [done|]. apply load_healthy in Hl.
  assert (He : l_error m = Some (LeParser (Some (VVec (decode None <$> (put_report <$> (from_error <$> es))))))).
  { unfold load in Hl. apply bind_stages_cons in Hl as (m1&H1&Hl); [|done]. apply first_stage_cases in H1 as (_&_&_&_&_&H1).
    rewrite Hask in H1. cbn [result_of a_err] in H1. destruct H1 as (_&_&_&H1). cbn [a_err fmap option_fmap option_map] in H1.
    rewrite failure_report in H1. apply bind_stages_stop in Hl; [|congruence]. subst m. rewrite H1. done. }
  pose proof (C53_outcome _ _ _ _ _ _ _ Hl) as Ho. unfold outcome_shown in Ho. rewrite He in Ho.
  assert (Hm : mapM get_report (encode <$> (decode None <$> (put_report <$> (from_error <$> es)))) = Some (from_error <$> es)).
  { apply mapM_Some. clear -Hjso Hjmo. induction es as [|e es IH]; [constructor|]. constructor; [|exact IH]. by apply report_back. }
  split; [done|]. split; [by eexists|]. intros Hw.
  unfold printed_reports. rewrite He. cbn [mbind option_bind error_reports_of]. destruct Ho as (Has&_). rewrite Has.
  unfold pod_state. cbn [state_after method_name request_params]. rewrite Ha. cbn [fst].
  destruct (format_prints env jso jmo Hjmo (inr es) hs (length [RPlugins] + 2) sources _ _ (small_4 3 ltac:(lia)) Hm) as (t&->&Ht).
  - intros w Hin. apply elem_of_list_fmap in Hin as (e&->&Hin). by apply Hw.
  - exists t. by split.
Qed.
(** A ledger file which cannot be read: nothing is loaded, the reason is thrown. *)
Theorem C72_unreadable why : load_beanfile (Unhealthy why) = inl (Some (VStr why)).
Proof.
  unfold SystemModel.load_beanfile, pod_start. erewrite invoke_eq by (by eapply (message_status _ _ _ Hjmo 1)).
  cbn [dispatch_method snd]. unfold other_error. rewrite answer_error. cbn [snd a_err].
  by destruct (error_value_get ERROR_BEANFILE_IO_ERROR why None) as (_&->&_).
Qed.

(** * C73 *)

(** With this server, loading a ledger which was read never throws, and resolving what
    the server returns from booking does not either. *)
Theorem C73_always_loads pl : ∃ m, load_beanfile (Healthy pl) = inr (Some m).
Proof.
  unfold SystemModel.load_beanfile. rewrite start_healthy. destruct (load _ _ _ _ _ _) as [m|] eqn:E; [by exists m|].
  exfalso. pose proof E as E'. apply C53_thrown in E' as (ps&Hps&_&Hd). destruct pl as [p|es].
  - by rewrite (ask_directives env jso jmo Hjmo) in Hd.
  - destruct (C72_parse_errors es) as (m&Hm&_). unfold SystemModel.load_beanfile in Hm. rewrite start_healthy in Hm. congruence.
Qed.
Theorem C73_booking_resolved p m :
  (∀ n m, or_accounts (hs n) m ≡ₚ map_to_list m) →
  load_beanfile (Healthy (inl p)) = inr (Some m) → countable_ledger p → (∀ xs, l_raw_xf m = Some xs → countable xs) →
  l_error m ≠ Some (LeBooking BeThrown).
Proof.
  intros Hacc Hl Hc Hcx He. pose proof (load_healthy _ _ Hl) as Hl'.
  pose proof (C53_outcome _ _ _ _ _ _ _ Hl') as Ho. unfold outcome_shown in Ho. rewrite He in Ho. destruct Ho as ((sp0&Has&_)&_).
  assert (Hb : RBook (l_raw_xf m) ∈ l_asked m) by (rewrite Has; set_solver).
  destruct (l_raw_xf m) as [xs|] eqn:Ex.
  - destruct (server_reads xs) as [l|] eqn:Hx.
    + destruct (plugin_outcome p Hacc m xs l Hl Hb Hx (Hcx _ eq_refl)) as [n H]. 
      destruct (book_with env p hs n l); [by destruct H as (H&_); apply H in He|destruct H as (rs&H&_)|]; congruence.
    + rewrite (C54_refused p m xs Hl Hb Hx) in He. congruence.
  - destruct (load_book _ _ _ _ _ _ _ _ Hl' Hb) as (Hr&ok&raw&sp&Hok&_&Hsp&Hraw&_&_&H).
    rewrite <- Hr in H, Hraw. destruct (state_prefix env jso jmo Hjmo p hs sources sp Hsp) as [s Hs].
    rewrite (ask_directives env jso jmo Hjmo) in Hok. injection Hok as <-. rewrite raw_values in Hraw. subst raw.
    rewrite (ask_book_none env jso jmo Hjmo p hs sources _ s Hs (small_prefix sp Hsp)) in H. cbv zeta in H. set (n := _ + 2) in *.
    destruct (book_with env p hs n _) as [bs ws|errors|w] eqn:Eb; [| |cbn in H; congruence].
    + cbn [result_of a_err a_ok] in H. rewrite booked_value_get in H. unfold seen_list, vec in H.
      destruct (ledger_countable p (or_wire (hs 4)) Hc) as [Hc1 Hc2].
      destruct (all_taken (or_wire (hs n)) _ Hc1 Hc2 bs) as (vs&Hv&HF).
      { apply C01_output_mirrors_ledger, mirrors_idx in Eb. unfold ledger_values. by rewrite !fmap_length in *. }
      rewrite Hv in H. destruct H as [_ H]. by apply H in He.
    + destruct (create_reports_from_booking_errors _ _) as [rs|]; [|cbn in H; congruence].
      cbn [result_of a_err a_ok] in H. cbn [fmap option_fmap option_map] in H. rewrite failure_report in H. cbn in H. congruence.
Qed.
End System.

(** * Samples *)

(** A raw plugin which changes nothing, or another one, or none, for the plugin which
    the sample ledger names. *)
Definition p_passing : plugin_xf := PluginXf (λ h, Some [Pass (length h - 1)]) (λ _, Some []).
Definition p_nonsense : plugin_xf := PluginXf (λ _, Some [Emit (VMap [("dct", VKw "nonsense"); ("date", VDate (Date 2024 1 1))])]) (λ _, Some []).
Definition p_env (xf : option plugin_xf) (name : string) : option namespace :=
  if String.eqb name "limabean.beancount.plugins.auto-accounts" then Some (Namespace None (Some (λ _ _, Some xf))) else None.
Definition p_load (xf : option plugin_xf) (hl : health) : option cval + option loaded :=
  load_beanfile sample_env id id hl (λ _, sample_orders) sample_start (p_env xf) s_read id (λ _ _, true) id.
Definition p_seen {A} (f : loaded → A) (x : option cval + option loaded) : option A :=
  match x with inr (Some m) => Some (f m) | _ => None end.
Definition p_sent (m : loaded) : option (option (list cval)) :=
  match List.filter (λ r, match r with RBook _ => true | _ => false end) (l_asked m) with RBook x :: _ => Some x | _ => None end.
Lemma p_seen_sent xf hl x : p_seen p_sent (p_load xf hl) = Some (Some x) →
  ∃ m, p_load xf hl = inr (Some m) ∧ RBook x ∈ l_asked m.
Proof.
  unfold p_seen. destruct (p_load xf hl) as [|[m|]]; try done. intros [= H]. exists m. split; [done|]. unfold p_sent in H.
  destruct (List.filter _ _) as [|r l] eqn:E; [done|]. assert (Hr : r ∈ l_asked m).
  { apply elem_of_list_In. assert (Hin : List.In r (r :: l)) by by left. rewrite <- E in Hin. by apply List.filter_In in Hin as [? _]. }
  destruct r; try done. by injection H as ->.
Qed.
Definition p_book (good : bool) := book_with sample_env (sample_parsed good) (λ _, sample_orders) 0 (from_directive <$> pa_directives (sample_parsed good)).

Example C54_lost_example : (∃ m, p_load None bad_health = inr (Some m) ∧ RBook None ∈ l_asked m) ∧
  ∃ e, p_book false = BookFailure [e].
Proof. split; [by apply p_seen_sent; vm_compute|]. eexists. by vm_compute. Qed.
(** "Every booking error is reported" is false without raw plugins. *)
Theorem C54_refuted : ∃ m e, p_load None bad_health = inr (Some m) ∧ p_book false = BookFailure [e] ∧
  l_error m = Some (LeBooking (BeReports [])).
Proof.
  destruct C54_lost_example as [(m&Hm&Hb)[e He]]. exists m, e. split_and!; [done|done|].
  assert (Hs : p_seen l_error (p_load None bad_health) = Some (Some (LeBooking (BeReports [])))) by by vm_compute.
  rewrite Hm in Hs. by injection Hs.
Qed.
Definition s_txn_span : cval := VVec [VNum (CLong 0); VNum (CLong 21); VNum (CLong 60)].
Definition s_posting_span : cval := VVec [VNum (CLong 0); VNum (CLong 40); VNum (CLong 45)].
Definition s_creport (what : string) : creport :=
  CReport (Some (VStr ("invalid " +:+ what))) (Some (VStr "account not open")) (Some s_posting_span) None (Some [VStr "txn"; s_txn_span]) None.
Definition p_raw (xf : plugin_xf) (hl : health) : list cval := default [] (mjoin (p_seen l_raw_xf (p_load (Some xf) hl))).
Notation p_reads xs := (mapM (get_directive no_strings) (encode id id <$> xs)).
(** With them, the error is reported at its posting. *)
Example C54_reports_example :
  (∃ m, p_load (Some flagging) bad_health = inr (Some m) ∧ RBook (Some (p_raw flagging bad_health)) ∈ l_asked m) ∧
  (∃ l, p_reads (p_raw flagging bad_health) = Some l ∧ length l = 3) ∧ countable (p_raw flagging bad_health) ∧
  p_seen l_error (p_load (Some flagging) bad_health) =
    Some (Some (LeBooking (BeReports [s_creport "posting, modified by limabean.beancount.plugins.auto_accounts"]))) ∧
  p_seen l_error (p_load (Some p_passing) bad_health) = Some (Some (LeBooking (BeReports [s_creport "posting"]))) ∧
  p_seen l_error (p_load (Some p_passing) good_health) = Some None.
Proof.
  split_and!; [by apply p_seen_sent; vm_compute|eexists; split; [by vm_compute|done]| |by vm_compute..].
  assert (Hp : Forall (λ d, length (vpostings d) ≤ 2) (p_raw flagging bad_health)) by (vm_compute; repeat constructor).
  split; [by unfold fits; vm_compute|]. rewrite Forall_forall in Hp. intros d Hd%Hp. unfold fits. lia.
Qed.
Example C54_refused_example :
  (∃ m, p_load (Some p_nonsense) bad_health = inr (Some m) ∧ RBook (Some (p_raw p_nonsense bad_health)) ∈ l_asked m) ∧
  p_reads (p_raw p_nonsense bad_health) = None ∧ length (p_raw p_nonsense bad_health) = 3.
Proof. split_and!; [by apply p_seen_sent; vm_compute|by vm_compute..]. Qed.

Lemma sample_countable good : countable_ledger (sample_parsed good).
Proof.
  split; [by unfold fits; destruct good; vm_compute|]. intros d f py n ps Hd Ev.
  assert (Hp : Forall (λ d, match pdr_variant d with PVTransaction _ _ _ ps => length ps ≤ 2 | _ => True end) (pa_directives (sample_parsed good)))
    by (repeat constructor).
  rewrite Forall_forall in Hp. apply Hp in Hd. rewrite Ev in Hd. unfold fits. lia.
Qed.
Definition p_spans (d : cval) : option cval * list (option cval) := (vget "span" d, vget "span" <$> vpostings d).
Definition p_marks (d : cval) : option cval * option cval * option cval := (vget "span" d, vget "provenance" d, vget "flag" d).
Example C55_traced_example :
  (∃ m, p_load None good_health = inr (Some m) ∧ RBook None ∈ l_asked m) ∧ countable_ledger (sample_parsed true) ∧
  (∃ bs ws, p_book true = BookSuccess bs ws ∧ length bs = 3) ∧
  p_seen (λ m, p_spans <$> default [] (l_booked m)) (p_load None good_health) =
    Some [(Some (span_value (Span 0 0 10)), []); (Some (span_value (Span 0 11 20)), []);
                (Some (span_value (Span 0 21 60)), [Some (span_value (Span 0 30 35)); Some (span_value (Span 0 40 45))])].
Proof.
  split_and!; [by apply p_seen_sent; vm_compute|apply sample_countable| |by vm_compute].
  eexists _, _. split; [by vm_compute|done].
Qed.
(** Also with a plugin: what it has changed is marked. *)
Example C55_traced_plugins_example :
  (∃ m, p_load (Some flagging) good_health = inr (Some m) ∧ RBook (Some (p_raw flagging good_health)) ∈ l_asked m) ∧
  (∃ l, p_reads (p_raw flagging good_health) = Some l ∧ length l = 3) ∧
  p_seen (λ m, p_marks <$> default [] (l_booked m)) (p_load (Some flagging) good_health) =
    Some [(Some (span_value (Span 0 0 10)), None, None); (Some (span_value (Span 0 11 20)), None, None);
                (Some (span_value (Span 0 21 60)), Some (VVec [VStr "limabean.beancount.plugins.auto_accounts"]), Some (VStr "!"))].
Proof.
  split_and!; [by apply p_seen_sent; vm_compute| |by vm_compute].
  eexists. split; [by vm_compute|done].
Qed.

(** "The reports reach the server as they are" is false: the context does not. *)
Theorem C56_refuted : ∃ m r w,
  p_load (Some p_passing) bad_health = inr (Some m) ∧ l_error m = Some (LeBooking (BeReports [r])) ∧
  cr_context r = Some [VStr "txn"; s_txn_span] ∧ says r w ∧
  get_report (encode id id (report_value r)) = Some w ∧ wr_contexts w = None.
Proof.
  destruct (p_load (Some p_passing) bad_health) as [|[m|]] eqn:Em; [by vm_compute in Em| |by vm_compute in Em].
  exists m, (s_creport "posting"), (WireReport "invalid posting" "account not open" (Span 0 40 45) None None None).
  split; [done|]. split.
  { assert (Hs : p_seen l_error (p_load (Some p_passing) bad_health) = Some (Some (LeBooking (BeReports [s_creport "posting"])))) by by vm_compute.
    rewrite Em in Hs. by injection Hs. }
  split_and!; [done|by repeat split|by vm_compute|done].
Qed.
Example C56_rest_example :
  p_seen (printed_reports sample_env id id bad_health (λ _, sample_orders) sample_start) (p_load (Some p_passing) bad_health) =
    Some (Some (Some (VStr ("error: invalid posting" +:+ line_end)))).
Proof. by vm_compute. Qed.

Example C71_nothing_changed_example :
  (∃ m, p_load (Some p_passing) good_health = inr (Some m) ∧ RBook (Some (p_raw p_passing good_health)) ∈ l_asked m) ∧
  p_seen l_raw (p_load (Some p_passing) good_health) = Some (Some (p_raw p_passing good_health)) ∧
  p_seen l_booked (p_load (Some p_passing) good_health) = p_seen l_booked (p_load None good_health) ∧
  any_order plain_order ∧
  Forall (λ d, ok_directive d ∧ directive_no_clash d) (from_directive <$> pa_directives (sample_parsed true)) ∧
  countable_ledger (sample_parsed true).
Proof.
  split_and!; [by apply p_seen_sent; vm_compute|by vm_compute|by vm_compute| | |apply sample_countable].
  - apply plain_order_any.
  - pose proof sample_ok as Hok. rewrite Forall_forall in *. intros d Hd. split; [by apply Hok|]. clear Hok. revert d Hd. apply Forall_forall.
    repeat apply Forall_cons_2; [by split..| |by apply Forall_nil_2]. split; [|by repeat constructor].
    intros k v Hk. vm_compute in Hk.
    change (({["note" := MVAmount (Dec 5 1) "USD"]} : gmap string meta_value) !! k = Some v) in Hk.
    by apply lookup_singleton_Some in Hk as [<- <-]; intros [?|?].
Qed.
(** Without the premise on metadata it is false: an entry [dct] of the metadata is lost
    on the way through the client. *)
Definition clash_directive : directive :=
  from_directive (PDirective (Span 0 0 10) (Date 2024 1 1) (PMetadata [] [] [("dct", PMSimple (SVString "x"))]) (PVClose "Assets:Bank")).
Theorem C71_clash_refuted : ∃ d d', ok_directive d ∧
  get_directive no_strings (encode id id (decode None (put_directive plain_order d))) = Some d' ∧
  (λ m : gmap string meta_value, m !! "dct") <$> d_metadata d = Some (Some (MVString "x")) ∧
  (λ m : gmap string meta_value, m !! "dct") <$> d_metadata d' = Some (Some MVNull).
Proof.
  eexists clash_directive, _. split; [|by split_and!; vm_compute].
  split_and!; try done. intros k v Hk. vm_compute in Hk.
  change (({["dct" := MVString "x"]} : gmap string meta_value) !! k = Some v) in Hk.
  by apply lookup_singleton_Some in Hk as [<- <-].
Qed.

Example C72_example :
  p_seen (λ m, (l_asked m, l_raw m, l_booked m)) (p_load None sample_broken) = Some ([RPlugins], None, None) ∧
  p_seen (printed_reports sample_env id id sample_broken (λ _, sample_orders) sample_start) (p_load None sample_broken) =
    Some (Some (Some (VStr ("error: invalid directive" +:+ line_end)))) ∧
  p_load None (Unhealthy "no such file") = inl (Some (VStr "no such file")).
Proof. split_and!; by vm_compute. Qed.
Example C73_example :
  (∀ m, or_accounts sample_orders m ≡ₚ map_to_list m) ∧ countable_ledger (sample_parsed false) ∧
  (∃ m, p_load (Some flagging) bad_health = inr (Some m) ∧ ∀ xs, l_raw_xf m = Some xs → countable xs).
Proof.
  split; [done|]. split; [apply sample_countable|]. destruct C54_reports_example as [(m&Hm&_)[_ [Hc _]]]. exists m. split; [done|].
  intros xs Hx. assert (E : p_raw flagging bad_health = xs) by (unfold p_raw; rewrite Hm; cbn; by rewrite Hx). by rewrite <- E.
Qed.

Print Assumptions C54_lost.
Print Assumptions C54_reports_partial.
Print Assumptions C54_refused.
Print Assumptions C54_refuted.
Print Assumptions C55_traced.
Print Assumptions C55_traced_plugins.
Print Assumptions C56_lost.
Print Assumptions C56_rest_partial.
Print Assumptions C56_refuted.
Print Assumptions C71_unchanged.
Print Assumptions C71_nothing_changed.
Print Assumptions C71_clash_refuted.
Print Assumptions C72_parse_errors.
Print Assumptions C72_unreadable.
Print Assumptions C73_always_loads.
Print Assumptions C73_booking_resolved.
