(** Theorems about the plugin [auto_accounts] from the ledger to booking: client, wire,
    server and booking together. *)
From Coq Require Import Ascii QArith Sorted.
From stdpp Require Import prelude gmap strings.
From Verif Require Import DecModel LedgerTypes IsoModel IsoFacts JsonModel WireModel WireSpec WireFacts BookModel BookSpec BookLib LedgerMeaning BookProps ReportSpec ReportProps SpanModel ParserModel
  JsonText SampleLib SampleLedgers WireSamples ServerModel ServerSpec ServerFacts ServerSamples CljModel InventoryModel InventorySpec ClientModel ClientDecode FormatModel PluginModel PluginSpec PluginFacts PluginMerge PluginProps LoaderModel
  LoaderSpec LoaderFacts LoaderProps EncodeModel EncodeFacts EncodeStable SystemModel SystemFacts SystemLoad SystemSpec SystemErrors SystemTrace SystemPrint SystemProps
  AutoModel AutoSpec AutoFacts AutoLedgerSpec AutoLedgerFacts.
Local Open Scope nat_scope.

(** * A ledger in which opens are filled in *)

(** Before each transaction there is an open of each account it posts to. *)
Theorem C86_opened ds l k d a :
  opens_filled_in ds l → l !! k = Some d → posting_to d a → ∃ i o, i < k ∧ opens_at l i a o.
Proof.
  intros Hf Hk Hp. destruct (filled_before ds l (take k l) d (drop (S k) l) a Hf) as (o & Ho & op & Hv & Ha); [by rewrite take_drop_middle|done|].
  apply elem_of_list_lookup in Ho as [i Hi]. apply lookup_take_Some in Hi as [Hi Hlt]. exists i, op. split; [done|]. by exists o.
Qed.

(** So booking reports none of its postings because the account is not open. *)
Theorem C86_reported {P} (L : booking_lib P) ord opt ds l errors e :
  (∀ m, ord m ≡ₚ map_to_list m) → lib_ok L → opens_filled_in ds l →
  book L ord opt l = BookFailure errors → e ∈ errors → is_Some (ei_posting (r_idx e)) →
  r_reason e ≠ "account not open".
Proof.
  intros Hord HL Hf Hb He [j Hj].
  pose proof Hb as Hel. eapply C21_errors_located in Hel as [Hel _]; [|done]. rewrite Forall_forall in Hel.
  destruct (Hel e He) as [(d & Hd & Hpj) _]. rewrite Hj in Hpj.
  destruct (d_variant d) as [t| | | | | | | | | | |] eqn:Ev; try (by destruct Hpj as (? & ? & _)).
  destruct (C06_transactions_reported P L ord Hord HL opt l (ei_directive (r_idx e)) d t) as (inv & meth & _ & _ & Hr); [by rewrite Hb|done|done|].
  rewrite Hb in Hr. cbn [errors_of] in Hr.
  assert (Hin : e ∈ reports_at (ei_directive (r_idx e)) errors) by by apply elem_of_list_filter.
  rewrite Hr in Hin. unfold txn_answer_reports in Hin.
  destruct (lib_book _ _ _ _ _) as [ips ?|?|?].
  2,3: apply elem_of_list_singleton in Hin; rewrite Hin in Hj; discriminate Hj.
  set (k := ei_directive (r_idx e)) in *. 
  assert (Hall : Forall (λ x : string * string, ∃ i o, opens_at (take k l) i x.1 o)
     ((λ x : _ * posting_spec, (ps_acc x.2, in_currency x.1)) <$> zip ips (tx_postings t))).
  { apply Forall_forall. intros x Hx. apply elem_of_list_fmap in Hx as ([ip q] & -> & Hq). apply elem_of_zip_r in Hq. cbn [fst snd] in *.
    destruct (C86_opened ds l k d (ps_acc q) Hf Hd) as (i & o & Hi & od & Ho & ?); [by exists t, q|].
    exists i, o, od. by rewrite lookup_take. }
  clear Hr. revert Hin. generalize 0 as i. induction Hall as [|[a cur] xs (i0 & o & Ho) _ IH]; intros i; cbn [first_use_report]; [by intros ?%elem_of_nil|].
  assert (Hu : life (take k l) a ≠ Unopened).
  { intros Hu. apply C06_lifecycle_meaning in Hu. by destruct (Hu i0 o). }
  unfold use_report. destruct (life (take k l) a) as [|i'|c|c i'] eqn:El; [done| | |]; cbn [unusable_report].
  - destruct (opening _ _) as [[i1 o1]|]; [destruct (allowsb _ _)|]; [apply IH| |apply IH]. intros Hin%elem_of_list_singleton. by rewrite Hin.
  - intros Hin%elem_of_list_singleton. by rewrite Hin.
  - destruct (opening _ _) as [[i1 o1]|]; [destruct (allowsb _ _)|]; [apply IH| |apply IH]. intros Hin%elem_of_list_singleton. by rewrite Hin.
Qed.

(** Nor is any open which was filled in refused. *)
Theorem C86_added_accepted {P} (L : booking_lib P) ord opt ds l k o :
  (∀ m, ord m ≡ₚ map_to_list m) → opens_filled_in ds l → (∀ d, d ∈ ds → d_span d ≠ None) →
  (∀ w, book L ord opt l ≠ BookPanic w) → l !! k = Some o → d_span o = None →
  reports_at k (errors_of (book L ord opt l)) = [].
Proof.
  intros Hord Hf Hsp Hnp Hk Hno.
  destruct (filled_fresh ds l (take k l) o (drop (S k) l) Hf Hsp) as (day & a & -> & Hfr); [by rewrite take_drop_middle|done|].
  erewrite C06_opens_reported; [|done|done|done|reflexivity].
  assert (life (take k l) (op_acc (Open a None None)) = Unopened) as ->; [|done].
  apply C06_lifecycle_meaning. intros i op (d & Hd & Hv & Ha). apply (Hfr d); [by eapply elem_of_list_lookup_2|]. by exists op.
Qed.

(** * From the ledger to booking *)
Section System.
Context {P S : Type} (env : server_env P S).
Context (jso : list json → list json) (jmo : list (string * json) → list (string * json)).
Context (Hjso : ∀ l, jso l ≡ₚ l) (Hjmo : ∀ l, jmo l ≡ₚ l).
Context (hs : nat → orders P) (sources : S).
Context (ns : string → option namespace) (read_config : option cval → option (option cval)).
Context (code : nat → nat) (Hcode : ∀ i j, code i = code j → i = j).
Context (spec : bool → cval → bool) (so : list cval → list cval).
Context (p : parsed).
Notation ledger := (from_directive <$> pa_directives p).
Notation load_beanfile hl := (load_beanfile env jso jmo hl hs sources ns read_config code spec so).
Notation server_reads xs := (mapM (get_directive (env_dec_parse env)) (encode jso jmo <$> xs)).
Notation book_with := (book_with env p hs).
Notation hl := (Healthy (inl p)).

(** If [auto_accounts] is the only raw plugin, what the server is asked to book, and
    understands, is the ledger with opens filled in. *)
Theorem C86_books m name xs :
  load_beanfile hl = inr (Some m) → RBook (Some xs) ∈ l_asked m →
  of_phase false (l_plugins m) = [(name, auto_accounts)] →
  any_order (or_wire (hs 4)) → Forall (λ d, ok_directive d ∧ directive_no_clash d) ledger →
  ∃ l, server_reads xs = Some l ∧ opens_filled_in ledger l.
Proof using Hjso Hjmo Hcode.
  intros Hm Hb Hps Hord Hok. apply load_healthy in Hm.
  destruct (load_book _ _ _ _ _ _ m (Some xs) Hm Hb) as (Exs & ok & raw & sp & Hres & Hraw & Hsp & Eraw & Hrun & _).
  rewrite (ask_directives env jso jmo Hjmo) in Hres. injection Hres as <-. rewrite raw_values in Hrun.
  destruct (Hrun xs) as (out & Hout & Hmerge & _); [done|].
  rewrite C50_chain in Hout by done. destruct (acceptable _ _); [|done]. rewrite Hps in Hout. cbn [chain] in Hout.
  destruct (through _ _ _ _) as [out'|] eqn:Ht; [|done]. cbn in Hout. injection Hout as <-.
  assert (Ev : ledger_values (or_wire (hs 4)) (pa_directives p) = (λ d, decode None (put_directive (or_wire (hs 4)) d)) <$> ledger).
  { unfold ledger_values. by rewrite <- !list_fmap_compose. }
  rewrite Ev in Ht. apply through_auto in Ht.
  2: { apply Forall_forall. intros v Hv. apply elem_of_list_fmap in Hv as (d & -> & _). apply seen_named. }
  apply merge_span_added in Hmerge.
  eapply (opens_read (env_dec_parse env) jso jmo Hjso Hjmo (or_wire (hs 4)) Hord name ledger out' xs Hok); done.
  Unshelve. exact Hjmo.
Qed.

(** So with [auto_accounts] loading never fails because a transaction uses an account
    which is not open: either what results is booked, or each error has a report, and
    none is of this kind at a posting. *)
Theorem C86_loaded m name xs :
  (∀ n m, or_accounts (hs n) m ≡ₚ map_to_list m) → lib_ok (env_booking env (pa_options p)) →
  load_beanfile hl = inr (Some m) → RBook (Some xs) ∈ l_asked m →
  of_phase false (l_plugins m) = [(name, auto_accounts)] →
  any_order (or_wire (hs 4)) → Forall (λ d, ok_directive d ∧ directive_no_clash d) ledger → countable xs →
  ∃ n l, opens_filled_in ledger l ∧
    match book_with n l with
    | BookSuccess bs _ => (∀ e, l_error m ≠ Some (LeBooking e)) ∧
        ∃ vs, l_booked m = Some vs ∧ Forall2 (taken_from (or_wire (hs n)) xs) bs vs
    | BookFailure errors => ∃ rs, l_error m = Some (LeBooking (BeReports rs)) ∧
        Forall2 (λ e r, located_report (env_layout env) xs e r ∧
                   (is_Some (ei_posting (r_idx e)) → cr_reason r ≠ Some (VStr "account not open"))) errors rs
    | BookPanic _ => l_error m = Some (LeBooking (BeReports []))
    end.
Proof using Hjso Hjmo Hcode.
  intros Hacc HL Hm Hb Hps Hord Hok Hc.
  destruct (C86_books m name xs Hm Hb Hps Hord Hok) as (l & Hl & Hf).
  destruct (plugin_outcome env jso jmo Hjmo hs sources ns read_config code spec so p Hacc m xs l Hm Hb Hl Hc) as [n Hn].
  exists n, l. split; [done|]. destruct (book_with n l) as [bs ws|errors|w] eqn:Eb; [done| |done].
  destruct Hn as (rs & Hrs & HF). exists rs. split; [done|].
  apply Forall2_same_length_lookup_2; [by eapply Forall2_length|].
  intros i e r He Hr. eapply Forall2_lookup_lr in HF as [HF _]; [|done..]. split; [done|].
  intros Hp. destruct HF as (_ & -> & _). intros [= Hx]. revert Hx.
  eapply (C86_reported (env_booking env (pa_options p)) (or_accounts (hs n))); [apply Hacc|done|done|exact Eb|by eapply elem_of_list_lookup_2|done].
Qed.
End System.
Print Assumptions C86_opened.
Print Assumptions C86_reported.
Print Assumptions C86_added_accepted.
Print Assumptions C86_books.
Print Assumptions C86_loaded.

(** * Samples *)

(** The ledger with a transaction on an account which is not opened, with the plugin:
    it is booked, the account having been opened. *)
Definition al_read : list directive := default [] (p_reads (p_raw auto_accounts bad_health)).
Definition al_names (d : directive) : string :=
  match d_variant d with DOpen o => "open " +:+ op_acc o | DTransaction _ => "transaction" | _ => "" end.
Example C86_example :
  (∃ m, p_load (Some auto_accounts) bad_health = inr (Some m) ∧ RBook (Some (p_raw auto_accounts bad_health)) ∈ l_asked m) ∧
  p_seen (λ m, of_phase false (l_plugins m)) (p_load (Some auto_accounts) bad_health) =
    Some [("limabean.beancount.plugins.auto_accounts", auto_accounts)] ∧
  any_order plain_order ∧
  Forall (λ d, ok_directive d ∧ directive_no_clash d) (from_directive <$> pa_directives (sample_parsed false)) ∧
  countable (p_raw auto_accounts bad_health) ∧
  al_names <$> al_read = ["open Assets:Bank"; "open Equity:Opening"; "open Equity:Closed"; "transaction"] ∧
  (∃ e, p_book false = BookFailure [e] ∧ r_reason e = "account not open") ∧
  p_seen l_error (p_load (Some auto_accounts) bad_health) = Some None.
Proof.
  split_and!; [by apply p_seen_sent; vm_compute|by vm_compute|apply plain_order_any| | |by vm_compute|eexists; by split; vm_compute|by vm_compute].
  - apply Forall_cons_2; [|apply Forall_cons_2; [|apply Forall_cons_2; [|apply Forall_nil_2]]].
    + split; [|by split]. split; [done|]. split; [done|]. split; [done|]. split; [done|]. split; [done|].
      intros x Hx%elem_of_list_to_set. by apply elem_of_list_singleton in Hx as ->.
    + split; [done|by split].
    + assert (Hk : ∀ k v, d_metadata (from_directive (PDirective (Span 0 21 60) (SampleLedgers.day 2)
          (PMetadata ["trip"; "trip"] [] [("note", PMSimple (SVString "x")); ("note", PMAmount (Dec 5 1) "USD")]) (PVClose ""))) ≫= (.!! k) = Some v →
          k = "note" ∧ v = MVAmount (Dec 5 1) "USD").
      { intros k v Hk. vm_compute in Hk.
        change (({["note" := MVAmount (Dec 5 1) "USD"]} : gmap string meta_value) !! k = Some v) in Hk.
        by apply lookup_singleton_Some in Hk as [<- <-]. }
      split.
      * split; [done|]. split; [|split; [done|split]].
        -- intros x Hx. apply (elem_of_list_to_set x ["trip"; "trip"]) in Hx.
           by apply elem_of_cons in Hx as [->|Hx%elem_of_list_singleton]; [|subst].
        -- intros k v Hkv. apply Hk in Hkv as [-> ->]. done.
        -- intros x Hx. apply elem_of_cons in Hx as [->|Hx]; [by vm_compute|]. apply elem_of_list_singleton in Hx as ->. by vm_compute.
      * split; [|by repeat constructor]. intros k v Hkv. apply Hk in Hkv as [-> ->]. by intros [?|?].
  - assert (Hp : Forall (λ d, length (vpostings d) ≤ 2) (p_raw auto_accounts bad_health)) by (vm_compute; repeat constructor).
    split; [by unfold fits; vm_compute|]. rewrite Forall_forall in Hp. intros d Hd%Hp. unfold fits. lia.
Qed.

(** A ledger with a close too early: the opens are filled in and accepted, and the error
    at the posting is that the account was closed. *)
Definition al_dir (n : nat) (v : directive_variant) : directive :=
  Directive (Some (Span 0 n (n + 1))) (SampleLedgers.day 3) None None None v.
Definition al_pay : directive := al_dir 1 (txn [post "Income:Gift" (-5) "USD"; post "Assets:Cash" 5 "USD"]).
Definition al_close : directive := al_dir 2 (DClose "Income:Gift").
Definition al_again : directive := al_dir 3 (txn [post "Income:Gift" (-5) "USD"; post "Assets:Bank" 5 "USD"]).
Definition al_ledger : list directive := [al_pay; al_close; al_again].
Definition al_filled : list directive :=
  [filled_in (SampleLedgers.day 3) "Assets:Cash"; filled_in (SampleLedgers.day 3) "Income:Gift"; al_pay; al_close;
   filled_in (SampleLedgers.day 3) "Assets:Bank"; al_again].
Lemma posting_to_pay n a b m m' c x :
  posting_to (al_dir n (txn [post a m c; post b m' c])) x ↔ x = a ∨ x = b.
Proof.
  split.
  - intros (t & q & [= <-] & Hq & Hx). cbn in Hq. apply elem_of_cons in Hq as [->|Hq%elem_of_list_singleton]; [by left|subst; by right].
  - intros [->| ->]; eexists _; [exists (post a m c)|exists (post b m' c)]; (split; [reflexivity|]); (split; [|reflexivity]); cbn; [by left|by right; left].
Qed.
Example C86_filled_example :
  opens_filled_in al_ledger al_filled ∧ (∀ d, d ∈ al_ledger → d_span d ≠ None) ∧
  (∃ e, sample_run al_filled = BookFailure [e] ∧ ei_posting (r_idx e) = Some 0 ∧ r_reason e = "account was closed") ∧
  (∃ o, al_filled !! 4 = Some o ∧ d_span o = None) ∧ posting_to al_again "Assets:Bank".
Proof.
  split_and!.
  - exists [["Assets:Cash"; "Income:Gift"]; []; ["Assets:Bank"]]. split; [done|]. split; [done|].
    intros i d as_ Hd Ha. destruct i as [|[|[|i]]]; [| | |done]; injection Hd as <-; injection Ha as <-.
    + split; [by repeat constructor|]. intros a. unfold al_pay; rewrite posting_to_pay, !elem_of_cons, elem_of_nil.
      split; [intros Ha; split; [tauto|lia]|tauto].
    + split; [constructor|]. intros a. rewrite elem_of_nil. split; [done|]. intros [(t & q & Hv & _) _]. discriminate Hv.
    + split; [by repeat constructor|]. intros a. unfold al_again; rewrite posting_to_pay, elem_of_list_singleton. split.
      * intros ->. split; [by right|]. intros j e Hj He. destruct j as [|[|j]]; [| |lia]; injection He as <-.
        -- split; [intros (o & Hv & _); discriminate Hv|]. intros Hp. apply posting_to_pay in Hp as [Hp|Hp]; discriminate Hp.
        -- split; [intros (o & Hv & _); discriminate Hv|]. intros (t & q & Hv & _). discriminate Hv.
      * intros [[->| ->] Hfirst]; [|done]. destruct (Hfirst 0 al_pay) as [_ Hn]; [lia|done|]. destruct Hn. apply posting_to_pay. by left.
  - intros d Hd. repeat (apply elem_of_cons in Hd as [->|Hd]; [done|]). by apply elem_of_nil in Hd.
  - eexists. split; [by vm_compute|done].
  - eexists. split; done.
  - apply posting_to_pay. by right.
Qed.

(** Only transactions are provided for: with a pad or balance on an account which is not
    open, or a close of it, loading fails all the same.  Here a balance. *)
Theorem C86_other_use_refuted :
  ∃ ds l e, opens_filled_in ds l ∧ sample_run l = BookFailure [e] ∧ r_reason e = "account not open".
Proof.
  exists [al_dir 1 (dbal "Assets:Cash" 0 0 "USD")], [al_dir 1 (dbal "Assets:Cash" 0 0 "USD")]. eexists. split; [|by split; vm_compute].
  exists [[]]. split; [done|]. split; [done|]. intros i d as_ Hd Ha. destruct i; [|done]. injection Hd as <-. injection Ha as <-.
  split; [constructor|]. intros a. rewrite elem_of_nil. split; [done|]. intros [(t & q & Hv & _) _]. discriminate Hv.
Qed.
Print Assumptions C86_other_use_refuted.
