(** Theorems about edits of the ledger by plugins: client, wire and server together. *)
From Coq Require Import Ascii QArith.
From stdpp Require Import prelude gmap strings.
From Verif Require Import DecModel LedgerTypes IsoModel IsoFacts JsonModel WireModel WireSpec WireFacts BookModel BookSpec BookLib SpanModel ParserModel
  JsonText SampleLib SampleLedgers WireSamples ServerModel ServerSpec ServerFacts ServerSamples CljModel InventoryModel ClientModel ClientDecode FormatModel PluginModel PluginSpec PluginFacts PluginMerge PluginProps LoaderModel
  LoaderSpec LoaderFacts LoaderProps EncodeModel EncodeFacts EncodeStable SystemModel SystemFacts SystemLoad SystemSpec SystemErrors SystemTrace SystemPrint SystemProps
  AutoLedgerFacts EditModel EditSpec EditFacts EditRead.
Local Open Scope nat_scope.

Lemma edits_makes dp jso jmo xf R : (∀ l, jso l ≡ₚ l) → (∀ l, jmo l ≡ₚ l) →
  edits dp jso jmo xf R → ∃ f, xf = stepwise f ∧ makes dp jso jmo f R.
Proof.
  intros Hs Hm. destruct 1 as [|config s Hc| |config cs s Hc Ht Hp|config new Hn| |config accs Hp Ha|config Hp]; eexists; (split; [reflexivity|]).
  - apply identity_makes.
  - unfold config_or. destruct config as [c|]; [|done]. cbn [mbind option_bind] in *. unfold vget_true. rewrite Hc. cbn [truthy default]. unfold id. by apply set_narration_makes.
  - by apply set_narration_makes.
  - unfold config_matching, config_or. destruct config as [c|]; [|done]. cbn [mbind option_bind] in *. unfold vget_true. rewrite Hc, Ht. cbn [truthy default]. unfold id. by apply tag_matching_makes.
  - by apply set_metadata_makes.
  - by apply duplicate_txns_makes.
  - by apply auto_close_makes.
  - by apply auto_close_other.
Qed.
Lemma chain_app spec booked a b ds : chain spec booked (a ++ b) ds = chain spec booked a ds ≫= chain spec booked b.
Proof. revert ds. induction a as [|p a IH]; intros ds; [done|]. cbn [app chain]. destruct (through _ _ _ _); [apply IH|done]. Qed.

Section System.
Context {P S : Type} (env : server_env P S).
Context (jso : list json → list json) (jmo : list (string * json) → list (string * json)).
Context (Hjso : ∀ l, jso l ≡ₚ l) (Hjmo : ∀ l, jmo l ≡ₚ l).
Context (hs : nat → orders P) (sources : S).
Context (ns : string → option namespace) (read_config : option cval → option (option cval)).
Context (code : nat → nat) (Hcode : ∀ i j, code i = code j → i = j).
Context (spec : bool → cval → bool) (so : list cval → list cval).
Context (p : parsed).
Notation ledger := (from_directive <$> pa_directives p).
Notation load_beanfile hl := (load_beanfile env jso jmo hl hs sources ns read_config code spec so).
Notation server_reads xs := (mapM (get_directive (env_dec_parse env)) (encode jso jmo <$> xs)).
Notation book_with := (book_with env p hs).
Notation hl := (Healthy (inl p)).
Notation holds := (holds (env_dec_parse env) jso jmo).
Notation edits := (edits (env_dec_parse env) jso jmo).
Notation makes := (makes (env_dec_parse env) jso jmo).
Notation ask := (SystemModel.ask env jso jmo hl hs sources).

Lemma spans_length rs spans :
  create_spans ask [RPlugins; ROptions; RDirectives] rs = Some spans → length spans = length rs.
Proof using Hjmo.
  unfold create_spans, SystemModel.ask.
  destruct (state_prefix env jso jmo Hjmo p hs sources [] ltac:(by left)) as [s Hs]. cbn [app] in Hs. rewrite Hs.
  cbn [method_name length Nat.add].
  destruct (invoke_spans env jso jmo Hjmo p hs 5 s rs ltac:(by apply small_4; lia)) as (s' & sps & -> & Hl).
  cbn [snd a_err a_ok]. intros [= <-]. unfold seen_list, vec. by rewrite !fmap_length.
Qed.
Lemma ledger_holds : any_order (or_wire (hs 4)) → Forall (λ d, ok_directive d ∧ directive_no_clash d) ledger →
  Forall2 holds (ledger_values (or_wire (hs 4)) (pa_directives p)) ledger.
Proof using Hjso Hjmo.
  intros Hord Hok.
  assert (Ev : ledger_values (or_wire (hs 4)) (pa_directives p) = (λ d, decode None (put_directive (or_wire (hs 4)) d)) <$> ledger).
  { unfold ledger_values. by rewrite <- !list_fmap_compose. }
  rewrite Ev, Forall2_fmap_l. apply Forall_Forall2_diag. eapply Forall_impl; [exact Hok|]. intros d [H1 H2]. split; [by apply sent_back|apply seen_proper].
Qed.

(** What the server is asked to book, and understands, is the ledger with the edits which
    the plugins make, in order; for any plugins which make edits. *)
Theorem C91_made m xs Rs :
  load_beanfile hl = inr (Some m) → RBook (Some xs) ∈ l_asked m →
  Forall2 (λ (pl : string * plugin_xf) R, ∃ f, pl.2 = stepwise f ∧ makes f R) (of_phase false (l_plugins m)) Rs →
  any_order (or_wire (hs 4)) → Forall (λ d, ok_directive d ∧ directive_no_clash d) ledger →
  ∃ l, server_reads xs = Some l ∧ edited_by Rs ledger l.
Proof using Hjso Hjmo Hcode.
  intros Hm Hb Hps Hord Hok. apply load_healthy in Hm.
  destruct (load_book _ _ _ _ _ _ m (Some xs) Hm Hb) as (Exs & ok & raw & sp & Hres & Hraw & Hsp & Eraw & Hrun & _).
  rewrite (ask_directives env jso jmo Hjmo) in Hres. injection Hres as <-. rewrite raw_values in Hrun.
  destruct (Hrun xs) as (out & Hout & Hmerge & _); [done|].
  rewrite C50_chain in Hout by done. destruct (acceptable _ _); [|done].
  destruct (chain_makes _ jso jmo Hjmo _ _ _ _ _ _ _ Hps (ledger_holds Hord Hok) Hout) as (l & Hl & HF).
  exists l. split; [|done]. apply holds_read.
  assert (Forall2 hidden out xs) as Hh.
  { eapply (merge_hidden so _ out xs spans_length); [| |exact Hmerge].
    - eapply Forall2_Forall_l; [exact HF|]. apply Forall_true. by intros d v [_ (? & _)].
    - eapply Forall2_Forall_l; [exact HF|]. apply Forall_true. intros d v [_ (_ & _ & Ht & _)]. destruct Ht as [Ht|Ht]; [by left|right].
      apply Forall_cons in Ht as [Ht _]. unfold vpostings. by rewrite Ht. }
  clear -HF Hh Hjmo. revert l HF. induction Hh as [|v x out xs Hv _ IH]; intros l HF; inversion HF; subst; constructor; [|by apply IH].
  by eapply holds_hidden.
  Unshelve. exact Hjmo.
Qed.
(** The plugins here are such. *)
Theorem C91_books m xs Rs :
  load_beanfile hl = inr (Some m) → RBook (Some xs) ∈ l_asked m →
  Forall2 (λ (pl : string * plugin_xf) R, edits pl.2 R) (of_phase false (l_plugins m)) Rs →
  any_order (or_wire (hs 4)) → Forall (λ d, ok_directive d ∧ directive_no_clash d) ledger →
  ∃ l, server_reads xs = Some l ∧ edited_by Rs ledger l.
Proof using Hjso Hjmo Hcode.
  intros Hm Hb Hps. eapply C91_made; [done|done|]. eapply Forall2_impl; [exact Hps|]. intros pl R. by apply edits_makes.
Qed.
(** So the outcome of loading is that of booking the edited ledger. *)
Theorem C91_loaded m xs Rs :
  (∀ n m, or_accounts (hs n) m ≡ₚ map_to_list m) →
  load_beanfile hl = inr (Some m) → RBook (Some xs) ∈ l_asked m →
  Forall2 (λ (pl : string * plugin_xf) R, edits pl.2 R) (of_phase false (l_plugins m)) Rs →
  any_order (or_wire (hs 4)) → Forall (λ d, ok_directive d ∧ directive_no_clash d) ledger → countable xs →
  ∃ n l, edited_by Rs ledger l ∧
    match book_with n l with
    | BookSuccess bs _ => (∀ e, l_error m ≠ Some (LeBooking e)) ∧
        ∃ vs, l_booked m = Some vs ∧ Forall2 (taken_from (or_wire (hs n)) xs) bs vs
    | BookFailure errors => ∃ rs, l_error m = Some (LeBooking (BeReports rs)) ∧
        Forall2 (λ e r, located_report (env_layout env) xs e r ∧ with_context xs e r) errors rs
    | BookPanic _ => l_error m = Some (LeBooking (BeReports []))
    end.
Proof using Hjso Hjmo Hcode.
  intros Hacc Hm Hb Hps Hord Hok Hc. destruct (C91_books m xs Rs Hm Hb Hps Hord Hok) as (l & Hl & Hed).
  destruct (plugin_outcome env jso jmo Hjmo hs sources ns read_config code spec so p Hacc m xs l Hm Hb Hl Hc) as [n Hn].
  by exists n, l.
Qed.
(** The plugin which fails, after others: if it comes to booking, no directive which it
    was given was one to fail on. *)
Theorem C91_fail m xs Rs pls name config cs :
  load_beanfile hl = inr (Some m) → RBook (Some xs) ∈ l_asked m →
  of_phase false (l_plugins m) = pls ++ [(name, fail_plugin false config)] →
  Forall2 (λ (pl : string * plugin_xf) R, edits pl.2 R) pls Rs →
  config ≫= vget "phase" = Some (VKw "raw") → config ≫= vget "matching" = Some (VMap (configured <$> cs)) →
  any_order (or_wire (hs 4)) → Forall (λ d, ok_directive d ∧ directive_no_clash d) ledger →
  ∃ l, server_reads xs = Some l ∧ edited_by Rs ledger l ∧ Forall (λ d, ¬ Forall (meets d) cs) l.
Proof using Hjso Hjmo Hcode.
  intros Hm Hb Eps Hps Hph Hma Hord Hok.
  assert (Hf : ∃ message, fail_plugin false config = stepwise (fail_step (configured <$> cs) message)).
  { eexists. unfold fail_plugin. rewrite Hph, Hma. reflexivity. }
  destruct Hf as [message Hf].
  apply load_healthy in Hm.
  destruct (load_book _ _ _ _ _ _ m (Some xs) Hm Hb) as (Exs & ok & raw & sp & Hres & Hraw & Hsp & Eraw & Hrun & _).
  rewrite (ask_directives env jso jmo Hjmo) in Hres. injection Hres as <-. rewrite raw_values in Hrun.
  destruct (Hrun xs) as (out & Hout & Hmerge & Herr); [done|].
  rewrite C50_chain in Hout by done. destruct (acceptable _ _); [|done]. rewrite Eps, chain_app in Hout.
  destruct (chain _ _ pls _) as [mid|] eqn:Emid; [|done]. cbn [mbind option_bind] in Hout.
  assert (Hmk : Forall2 (λ (pl : string * plugin_xf) R, ∃ f, pl.2 = stepwise f ∧ makes f R) pls Rs).
  { eapply Forall2_impl; [exact Hps|]. intros pl R. by apply edits_makes. }
  destruct (chain_makes _ jso jmo Hjmo _ _ _ _ _ _ _ Hmk (ledger_holds Hord Hok) Emid) as (l & Hl & HF).
  cbn [chain] in Hout. rewrite Hf in Hout. destruct (through _ _ _ _) as [out'|] eqn:Et; [|done]. injection Hout as ->.
  pose proof Et as Et'. apply (through_makes (env_dec_parse env) jso jmo Hjmo _ _ _ _ unchanged mid l out) in Et' as (l' & Hed & HF'); [|by apply fail_makes|done].
  assert (l' = l) as ->. { destruct Hed as (parts & HP & ->). clear -HP. induction HP as [|d part l parts -> _ IH]; [done|]. by cbn; f_equal. }
  assert (Forall2 hidden out xs) as Hh.
  { eapply (merge_hidden so _ out xs spans_length); [| |exact Hmerge].
    - eapply Forall2_Forall_l; [exact HF'|]. apply Forall_true. by intros d v [_ (? & _)].
    - eapply Forall2_Forall_l; [exact HF'|]. apply Forall_true. intros d v [_ (_ & _ & Ht & _)]. destruct Ht as [Ht|Ht]; [by left|right].
      apply Forall_cons in Ht as [Ht _]. unfold vpostings. by rewrite Ht. }
  exists l. split; [|split; [done|]].
  { apply holds_read. clear -HF' Hh Hjmo. revert l HF'. induction Hh as [|v x out xs Hv _ IH]; intros l HF; inversion HF; subst; constructor; [|by apply IH].
    by eapply holds_hidden. }
  assert (Hno : Forall (λ d, erroneous d = false) out).
  { clear -Hh Herr. induction Hh as [|v x out xs Hv _ IH]; constructor; inversion Herr; subst; [|by apply IH].
    unfold erroneous in *. rewrite <- (hidden_get _ _ "err" Hv); [done|]. set_solver. }
  apply through_stepwise in Et as (parts & -> & HP). clear -HP HF Hno Hjmo Hjso. revert l HF Hno.
  induction HP as [|v part mid parts (es & Hes & Hpart) _ IH]; intros l HF Hno; inversion HF as [|? d ? l' Hd HF']; subst; constructor.
  - intros Hc. destruct (fail_erroneous _ jso jmo Hjmo _ _ _ _ _ Hd Hes Hc) as (x & -> & Hx).
    inversion Hpart as [|? y ? ? Hy Hrest]; subst. unfold made in Hy. rewrite Hx in Hy. injection Hy as <-. inversion Hrest; subst.
    change (mjoin ([x] :: parts)) with (x :: mjoin parts) in Hno. apply Forall_cons in Hno as [Hno _]. congruence.
  - apply IH; [done|]. change (mjoin (part :: parts)) with (part ++ mjoin parts) in Hno. by apply Forall_app in Hno as [_ ?].
  Unshelve. - exact Hjmo.
Qed.
End System.
Print Assumptions C91_made.
Print Assumptions C91_books.
Print Assumptions C91_loaded.
Print Assumptions C91_fail.

(** * Samples *)

(** The sample ledger with plugins which have a configuration. *)
Definition e_config (name : string) : option cval :=
  if String.eqb name "set-narration" then Some (VMap [("narration", VStr "as usual")])
  else if String.eqb name "tag-matching" then Some (VMap [("matching", VMap [("dct", VKw "txn"); ("payee", VStr "Shop")]); ("tag", VStr "shopping")])
  else if String.eqb name "set-metadata" then Some (VMap [("open", VMap [("opened-with", VMap [("string", VStr "can opener")])])])
  else if String.eqb name "auto-close" then Some (VMap [("phase", VKw "raw"); ("accs", VSet [VStr "Assets:Bank"])])
  else if String.eqb name "fail" then Some (VMap [("phase", VKw "raw"); ("matching", VMap [("dct", VKw "event")])])
  else None.
Definition e_xf (name : string) : option plugin_xf :=
  if String.eqb name "set-narration" then Some (set_narration (e_config name))
  else if String.eqb name "tag-matching" then Some (tag_matching (e_config name))
  else if String.eqb name "set-metadata" then Some (set_metadata (e_config name))
  else if String.eqb name "auto-close" then Some (auto_close false (e_config name))
  else if String.eqb name "fail" then Some (fail_plugin false (e_config name))
  else if String.eqb name "duplicate-txns" then Some duplicate_txns
  else if String.eqb name "identity" then Some identity_plugin
  else None.
Definition e_env (name : string) : option namespace :=
  (λ xf, Namespace None (Some (λ _ _, Some (Some xf)))) <$> e_xf name.
Definition e_parsed (names : list string) : parsed :=
  Parsed (pa_directives (sample_parsed true)) (pa_options (sample_parsed true)) ((λ n, PPlugin n None) <$> names).
Definition e_load (names : list string) : option cval + option loaded :=
  load_beanfile sample_env id id (Healthy (inl (e_parsed names))) (λ _, sample_orders) sample_start e_env s_read id (λ _ _, true) id.
Definition e_raw (names : list string) : list cval := default [] (mjoin (p_seen l_raw_xf (e_load names))).
Lemma e_seen_sent names x : p_seen p_sent (e_load names) = Some (Some x) → ∃ m, e_load names = inr (Some m) ∧ RBook x ∈ l_asked m.
Proof.
  unfold p_seen. destruct (e_load names) as [|[m|]]; try done. intros [= H]. exists m. split; [done|]. unfold p_sent in H.
  destruct (List.filter _ _) as [|r l] eqn:E; [done|]. assert (Hr : r ∈ l_asked m).
  { apply elem_of_list_In. assert (Hin : List.In r (r :: l)) by by left. rewrite <- E in Hin. by apply List.filter_In in Hin as [? _]. }
  destruct r; try done. by injection H as ->.
Qed.
Lemma sample_ok good : Forall (λ d, ok_directive d ∧ directive_no_clash d) (from_directive <$> pa_directives (sample_parsed good)).
Proof.
  apply Forall_cons_2; [|apply Forall_cons_2; [|apply Forall_cons_2; [|apply Forall_nil_2]]].
  + split; [|by split]. split; [done|]. split; [done|]. split; [done|]. split; [done|]. split; [done|].
    intros x Hx%elem_of_list_to_set. by apply elem_of_list_singleton in Hx as ->.
  + split; [done|by split].
  + assert (Hk : ∀ k v, d_metadata (from_directive (PDirective (Span 0 21 60) (SampleLedgers.day 2)
        (PMetadata ["trip"; "trip"] [] [("note", PMSimple (SVString "x")); ("note", PMAmount (Dec 5 1) "USD")]) (PVClose ""))) ≫= (.!! k) = Some v →
        k = "note" ∧ v = MVAmount (Dec 5 1) "USD").
    { intros k v Hk. vm_compute in Hk.
      change (({["note" := MVAmount (Dec 5 1) "USD"]} : gmap string meta_value) !! k = Some v) in Hk.
      by apply lookup_singleton_Some in Hk as [<- <-]. }
    split.
    * split; [done|]. split; [|split; [done|split]].
      -- intros x Hx. apply (elem_of_list_to_set x ["trip"; "trip"]) in Hx.
         by apply elem_of_cons in Hx as [->|Hx%elem_of_list_singleton]; [|subst].
      -- intros k v Hkv. apply Hk in Hkv as [-> ->]. done.
      -- intros x Hx. apply elem_of_cons in Hx as [->|Hx]; [by vm_compute|]. apply elem_of_list_singleton in Hx as ->. by destruct good; vm_compute.
    * split; [|by repeat constructor]. intros k v Hkv. apply Hk in Hkv as [-> ->]. by intros [?|?].
Qed.
Definition e_names : list string := ["duplicate-txns"; "set-narration"; "tag-matching"; "set-metadata"; "auto-close"; "identity"].
Definition can_opener : gmap string meta_value := {[ "opened-with" := MVString "can opener" ]}.
Definition e_metadata (kind : string) : option (gmap string meta_value) :=
  if String.eqb kind "open" then Some can_opener else None.
Definition e_edits : list edit :=
  [duplicated; narrated "as usual"; tagged [HasKind "txn"; HasPayee "Shop"] "shopping"; annotated e_metadata; closed_at_once ["Assets:Bank"]; unchanged].
Lemma e_edits_ok : Forall2 (λ (pl : string * plugin_xf) R, edits no_strings id id pl.2 R)
  (omap (λ n, (λ xf, (n, xf)) <$> e_xf n) e_names) e_edits.
Proof.
  constructor; [apply EDuplicate|]. constructor; [by apply ENarration|]. constructor; [by apply ETag|]. constructor.
  { apply EMetadata. intros kind. unfold e_metadata.
    change (match vget kind (VMap [("open", VMap [("opened-with", VMap [("string", VStr "can opener")])])]) with
      | Some c => ∃ m, (if String.eqb kind "open" then Some can_opener else None) = Some m ∧ holds_metadata no_strings id id c m
      | None => (if String.eqb kind "open" then Some can_opener else None) = None end).
    cbn [vget]. unfold vfield. rewrite entries_cons. rewrite String.eqb_sym. destruct (String.eqb_spec kind "open"); [|done]. cbn [entries].
    exists can_opener. split; [done|]. eexists. split; [done|]. intros k. cbn [vget]. unfold vfield. rewrite entries_cons.
    unfold can_opener. destruct (String.eqb_spec "opened-with" k) as [<-|Hk].
    - change (last _) with (Some (VMap [("string", VStr "can opener")])). split; [done|]. eexists. split; [by vm_compute|]. by rewrite lookup_singleton.
    - by rewrite lookup_singleton_ne. }
  constructor; [by apply (EClose _ _ _ _ ["Assets:Bank"])|]. constructor; [apply EIdentity|constructor].
Qed.
Definition e_shown (d : directive) : string * option string * list string * bool :=
  (kind_name d, match d_variant d with DTransaction t => tx_narration t | _ => None end, base.elements (default ∅ (d_tags d)),
   bool_decide (is_Some (d_span d))).
Example C91_example :
  (∃ m, e_load e_names = inr (Some m) ∧ RBook (Some (e_raw e_names)) ∈ l_asked m) ∧
  p_seen (λ m, of_phase false (l_plugins m)) (e_load e_names) = Some (omap (λ n, (λ xf, (n, xf)) <$> e_xf n) e_names) ∧
  any_order plain_order ∧
  Forall (λ d, ok_directive d ∧ directive_no_clash d) (from_directive <$> pa_directives (e_parsed e_names)) ∧
  countable (e_raw e_names) ∧
  fmap e_shown <$> p_reads (e_raw e_names) = Some
    [("open", None, [], true); ("close", None, [], false); ("open", None, [], true);
     ("txn", Some "as usual", ["trip"; "shopping"], false); ("txn", Some "as usual", ["trip"; "shopping"], true)].
Proof.
  split_and!; [by apply e_seen_sent; vm_compute|by vm_compute|apply plain_order_any|apply sample_ok| |].
  - assert (Hp : Forall (λ d, length (vpostings d) ≤ 2) (e_raw e_names)) by (vm_compute; repeat constructor).
    split; [by unfold fits; vm_compute|]. rewrite Forall_forall in Hp. intros d Hd%Hp. unfold fits. lia.
  - by vm_compute.
Qed.
(** With a plugin which fails on something else after these. *)
Example C91_fail_example :
  (∃ m, e_load (e_names ++ ["fail"]) = inr (Some m) ∧ RBook (Some (e_raw (e_names ++ ["fail"]))) ∈ l_asked m) ∧
  p_seen (λ m, of_phase false (l_plugins m)) (e_load (e_names ++ ["fail"])) =
    Some (omap (λ n, (λ xf, (n, xf)) <$> e_xf n) e_names ++ [("fail", fail_plugin false (e_config "fail"))]) ∧
  e_config "fail" ≫= vget "matching" = Some (VMap (configured <$> [HasKind "event"])).
Proof. split_and!; [by apply e_seen_sent; vm_compute|by vm_compute..]. Qed.
