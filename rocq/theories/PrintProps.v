(** Theorems about printed and dumped directives. *)
From Coq Require Import Ascii QArith.
From stdpp Require Import prelude gmap strings.
From Verif Require Import DecModel LedgerTypes IsoModel IsoFacts JsonModel WireModel WireSpec WireFacts BookModel BookSpec SpanModel ParserModel
  JsonText SampleLib SampleLedgers WireSamples ServerModel ServerSpec ServerFacts ServerSamples CljModel InventoryModel ClientModel ClientDecode FormatModel PluginModel PluginSpec LoaderModel
  LoaderSpec LoaderFacts LoaderProps EncodeModel SystemModel SystemFacts SystemLoad SystemErrors SystemSpec SystemTrace SystemProps
  NumText TextFacts TextSpec WriteSpec TextWords TextRead WriteFacts WriteCost WritePosting WriteDirective WriteDecode PrintModel.
From Verif Require PluginProps.
Local Open Scope nat_scope.

Lemma common_readable own d : own = true ∨ common d → readable own (d_variant d).
Proof.
  unfold common, readable, readable_posting. intros H. destruct (d_variant d) as [t|p|b|o|a|c|p|a s|a s|s s'|s s'|c]; try done.
  destruct H as [H|H].
  - apply Forall_forall. intros q _. by left.
  - eapply Forall_impl; [exact H|]. intros q Hq. right. intros p Hp. cbv beta in Hq. by rewrite Hp in Hq.
Qed.
Lemma unspanned_as_written b : unspanned (as_written b) = as_written b.
Proof.
  destruct b as [i dt tg lk md x]. unfold unspanned, as_written. cbn. f_equal. destruct x; try done. cbn. f_equal. f_equal. rewrite <- list_fmap_compose. by apply list_fmap_ext.
Qed.

(** * Any directives *)
Section Print.
Context (so : list cval → list cval) (Hso : ∀ l, so l ≡ₚ l) (ord : hash_order) (Hord : any_order ord).

Lemma typed_kind {A} k (x : typed A) : ty_kind (type_as k x) = Some k.
Proof. unfold type_as. by destruct (decide _). Qed.
Lemma typed_value {A} k (x : typed A) : ty_value (type_as k x) = ty_value x.
Proof. unfold type_as. by destruct (decide _). Qed.
Lemma print_typed (xs : list (typed cval)) : print_directives so (type_directives xs) = directives_text so (ty_value <$> xs).
Proof.
  unfold print_directives, type_directives. rewrite typed_kind, typed_value. rewrite decide_True by done. cbn [ty_value]. f_equal.
  rewrite <- list_fmap_compose. apply list_fmap_ext. intros i x _. apply typed_value.
Qed.
Lemma values_text own vs ds : Forall2 directive_is vs ds → Forall writable ds → own = true ∨ Forall common ds →
  ∃ T, directives_text so vs = Some T ∧ read_ledger own T = Some (unspanned <$> ds).
Proof using Hso.
  intros HF HW Ho. destruct (ledger_text so Hso own vs ds HF HW) as (ts&E&R).
  - apply Forall_forall. intros d Hd. apply common_readable. destruct Ho as [|Ho]; [by left|]. right. rewrite Forall_forall in Ho. by apply Ho.
  - unfold directives_text. rewrite E. by eexists.
Qed.
(** Directives as the server sends them, and with whatever types they had: printed, they
    are a ledger with these directives.  The order of sets and maps is any. *)
Theorem C95_printed_partial own ds xs : Forall writable ds → own = true ∨ Forall common ds →
  ty_value <$> xs = (λ d, decode None (put_directive ord d)) <$> ds →
  ∃ T, print_directives so (type_directives xs) = Some T ∧ read_ledger own T = Some (unspanned <$> ds).
Proof using Hso Hord.
  intros HW Ho Hx. rewrite print_typed, Hx. apply values_text; [|done..]. clear -HW Hord. induction HW as [|d ds W HW IH]; [constructor|].
  constructor; [by apply put_directive_is|done].
Qed.
(** One directive alone is a ledger too. *)
Theorem C95_one_partial own d x xs v : writable d → own = true ∨ common d → xs = [x] → ty_value x = decode None (put_directive ord d) →
  ty_value (type_directives xs) = [v] →
  ∃ T, print_directive so v = Some T ∧ read_ledger own T = Some [unspanned d].
Proof using Hso Hord.
  intros W Ho -> Hx Hv. destruct (C95_printed_partial own [d] [x]) as (T&E&R); [by apply Forall_singleton|destruct Ho; [by left|right; by apply Forall_singleton]|cbn; by rewrite Hx|].
  exists T. split; [|done]. rewrite print_typed in E. unfold type_directives in Hv. rewrite typed_value in Hv. cbn [ty_value fmap list_fmap] in Hv.
  injection Hv as <-. unfold print_directive. rewrite typed_kind, typed_value. rewrite decide_True by done. unfold directives_text in E. cbn [fmap list_fmap mapM] in E.
  destruct (directive_text so (ty_value x)); [|done]. cbn in E. by injection E as ->.
Qed.
End Print.

(** * Loaded ledgers *)
Section Loaded.
Context {P S : Type} (env : server_env P S).
Context (jso : list json → list json) (jmo : list (string * json) → list (string * json)).
Context (Hjso : ∀ l, jso l ≡ₚ l) (Hjmo : ∀ l, jmo l ≡ₚ l).
Context (hs : nat → orders P) (sources : S).
Context (ns : string → option namespace) (read_config : option cval → option (option cval)).
Context (code : nat → nat) (spec : bool → cval → bool) (so : list cval → list cval) (Hso : ∀ l, so l ≡ₚ l).
Context (Hord : ∀ n, any_order (or_wire (hs n))).
Context (p : parsed).
Notation load_beanfile hl := (load_beanfile env jso jmo hl hs sources ns read_config code spec so).
Notation ledger := (from_directive <$> pa_directives p).
Notation book_with := (book_with env p hs).
Notation hl := (Healthy (inl p)).
Notation shown vs := (print_directives so (type_directives vs)).

Lemma raw_loaded m : load_beanfile hl = inr (Some m) → is_Some (l_raw m) →
  l_raw m = Some (ledger_values (or_wire (hs 4)) (pa_directives p)).
Proof using Hjmo.
  intros Hl%load_healthy Hr; [|done].
  destruct (load_steps _ _ _ _ _ _ _ Hl Hr) as (m1&m2&m3&H1&E1&H2&E2&H3&Hrest).
  assert (Hraw : l_raw m = l_raw m2).
  { apply run_phase_cases in H3 as (_&_&R3&_); [|done]. destruct Hrest as [[? ->]|(E3&m4&H4&Hrest)]; [congruence|].
    apply book_cases in H4 as (_&_&R4&_); [|done]. destruct Hrest as [[? ->]|(E4&m5&H5&Hrest)]; [congruence|].
    apply run_phase_cases in H5 as (_&_&R5&_); [|done]. destruct Hrest as [[? ->]|(E5&H6)]; [congruence|].
    unfold final_directives in H6. destruct (l_booked_xf m5), (l_booked m5); try done; injection H6 as <-; cbn; congruence. }
  apply raw_cases in H2 as (ok&Hok&E). rewrite Hraw, E. cbn [l_raw].
  apply first_stage_cases in H1 as (_&_&_&_&_&H1). destruct (result_of _) in H1; [|destruct H1 as (_&_&_&?); congruence].
  destruct H1 as (A1&_). rewrite A1, (ask_directives env jso jmo Hjmo) in Hok. injection Hok as <-.
  by rewrite raw_values.
Qed.
Lemma raw_are m vs : load_beanfile hl = inr (Some m) → l_raw m = Some vs → Forall writable ledger → Forall2 directive_is vs ledger.
Proof using Hjmo Hord.
  intros Hl Hr HW. rewrite (raw_loaded m Hl) in Hr by (by rewrite Hr). injection Hr as <-. unfold ledger_values.
  induction (pa_directives p) as [|d ds IH]; [constructor|]. cbn [fmap list_fmap] in *. apply Forall_cons in HW as [W HW].
  constructor; [by apply put_directive_is|by apply IH].
Qed.
(** What is loaded, when it is printed, is a ledger with the same directives. *)
Theorem C95_loaded_partial own m vs xs : load_beanfile hl = inr (Some m) → l_raw m = Some vs → ty_value <$> xs = vs →
  Forall writable ledger → own = true ∨ Forall common ledger →
  ∃ T, shown xs = Some T ∧ read_ledger own T = Some (unspanned <$> ledger).
Proof using Hjmo Hord Hso.
  intros Hl Hr Hx HW Ho. rewrite print_typed, Hx. apply values_text; [done|by eapply raw_are|done..].
Qed.
(** And so are the booked directives. *)
Theorem C95_booked_partial m : load_beanfile hl = inr (Some m) → RBook None ∈ l_asked m → countable_ledger p →
  ∃ n, ∀ own bs ws, book_with n ledger = BookSuccess bs ws →
    Forall writable (as_written <$> bs) → own = true ∨ Forall common (as_written <$> bs) →
    ∃ vs, l_booked m = Some vs ∧ ∀ xs, ty_value <$> xs = vs →
      ∃ T, shown xs = Some T ∧ read_ledger own T = Some (as_written <$> bs).
Proof using Hjmo Hord Hso.
  intros Hl Hb Hc. destruct (C55_traced env jso jmo Hjmo hs sources ns read_config code spec so p m Hl Hb Hc) as [n H]. exists n. intros own bs ws Eb HW Ho.
  destruct (H bs ws Eb) as (vs&Hv&HF). exists vs. split; [done|]. intros xs Hx. rewrite print_typed, Hx.
  destruct (values_text so Hso own vs (as_written <$> bs)) as (T&E&R); [|done..|].
  - clear -HF HW Hord. induction HF as [|b v bs vs Hv HF IH]; [constructor|]. cbn [fmap list_fmap] in *. apply Forall_cons in HW as [W HW].
    constructor; [by eapply traced_is|by apply IH].
  - exists T. split; [done|]. rewrite R. f_equal. rewrite <- list_fmap_compose. apply list_fmap_ext. intros i b _. apply unspanned_as_written.
Qed.
End Loaded.

(** * C96: dumps *)
Lemma file_name_dir acc dir s : file_name_from acc (dir +:+ String "/" s) = file_name s.
Proof.
  revert acc. induction dir as [|c dir IH]; intros acc; [done|]. change (String c dir +:+ ?r) with (String c (dir +:+ r)). cbn [file_name_from].
  destruct (Ascii.eqb c "/"); apply IH.
Qed.
Lemma file_name_plain acc s : has_char (Ascii.eqb "/") s = false → file_name_from acc s = acc +:+ s.
Proof.
  revert acc. induction s as [|c s IH]; intros acc H; [cbn; by rewrite TextWords.app_nil|]. cbn [has_char] in H. apply orb_false_iff in H as [H1 H2].
  cbn [file_name_from]. rewrite Ascii.eqb_sym, H1. rewrite IH by done. by rewrite TextFacts.string_app_assoc.
Qed.
Lemma dotted_char s : dotted s = has_char (Ascii.eqb ".") s.
Proof. induction s as [|c s IH]; [done|]. cbn. by rewrite IH, Ascii.eqb_sym. Qed.
Lemma strip_extension_stem stem ext : has_char (Ascii.eqb ".") ext = false → strip_extension (stem +:+ String "." ext) = stem.
Proof.
  intros H. induction stem as [|c s IH].
  - change ("" +:+ ?r) with r. cbn [strip_extension]. rewrite dotted_char, H. done.
  - change (String c s +:+ ?r) with (String c (s +:+ r)). cbn [strip_extension]. rewrite IH.
    assert (dotted (s +:+ String "." ext) = true) as ->; [|by rewrite andb_false_r].
    rewrite dotted_char, has_char_app. cbn [has_char]. by rewrite orb_true_r.
Qed.
(** The file of a ledger [dir/stem.ext] for raw or booked directives. *)
Lemma dump_name_stem dir stem ext k : has_char (Ascii.eqb "/") stem = false → has_char (λ c, Ascii.eqb "/" c || Ascii.eqb "." c) ext = false →
  k ∈ ["raw"; "booked"] → dump_name (dir +:+ "/" +:+ stem +:+ "." +:+ ext) (k +:+ "-directives") = stem +:+ "." +:+ k +:+ ".beancount".
Proof.
  intros Hs He Hk. assert (has_char (Ascii.eqb "/") ext = false ∧ has_char (Ascii.eqb ".") ext = false) as [He1 He2].
  { clear -He. induction ext as [|c e IH]; [done|]. cbn [has_char] in *. apply orb_false_iff in He as [H1 H2]. apply orb_false_iff in H1 as [-> ->]. destruct (IH H2) as [-> ->]. done. }
  unfold dump_name, file_name. change ("/" +:+ ?r) with (String "/" r). rewrite file_name_dir. unfold file_name. rewrite file_name_plain.
  2:{ rewrite !has_char_app, Hs, He1. done. }
  change ("" +:+ ?r) with r. change ("." +:+ ext) with (String "." ext). rewrite strip_extension_stem by done. do 2 f_equal.
  repeat (apply elem_of_cons in Hk as [-> |Hk]; [by vm_compute|]). by apply elem_of_nil in Hk.
Qed.

Section Dumps.
Context {P S : Type} (env : server_env P S).
Context (jso : list json → list json) (jmo : list (string * json) → list (string * json)).
Context (Hjso : ∀ l, jso l ≡ₚ l) (Hjmo : ∀ l, jmo l ≡ₚ l).
Context (hs : nat → orders P) (sources : S).
Context (ns : string → option namespace) (read_config : option cval → option (option cval)).
Context (code : nat → nat) (spec : bool → cval → bool) (so : list cval → list cval) (Hso : ∀ l, so l ≡ₚ l).
Context (Hord : ∀ n, any_order (or_wire (hs n))).
Context (p : parsed).
Notation load_beanfile hl := (load_beanfile env jso jmo hl hs sources ns read_config code spec so).
Notation ledger := (from_directive <$> pa_directives p).
Notation book_with := (book_with env p hs).
Notation hl := (Healthy (inl p)).
Context (dir stem ext : string).
Context (Hstem : has_char (Ascii.eqb "/") stem = false) (Hext : has_char (λ c, Ascii.eqb "/" c || Ascii.eqb "." c) ext = false).
Notation path := (dir +:+ "/" +:+ stem +:+ "." +:+ ext).
Notation files m := (files_of (load_dumps so path m)).


Lemma dumped m :
  (∀ ds, l_raw m = Some ds → files m !! (stem +:+ ".raw.beancount") = Some (directives_text so ds)) ∧
  (∀ ds, l_booked m = Some ds → files m !! (stem +:+ ".booked.beancount") = Some (directives_text so ds)) ∧
  (∀ k t, files m !! k = Some t → k = stem +:+ ".raw.beancount" ∨ k = stem +:+ ".booked.beancount").
Proof using Hstem Hext.
  pose proof (dump_name_stem dir stem ext "raw" Hstem Hext (elem_of_list_here _ _)) as E1. pose proof (dump_name_stem dir stem ext "booked" Hstem Hext (elem_of_list_further _ _ _ (elem_of_list_here _ _))) as E2.
  change ("raw" +:+ "-directives") with "raw-directives" in E1. change ("booked" +:+ "-directives") with "booked-directives" in E2.
  change ("." +:+ "raw" +:+ ".beancount") with ".raw.beancount" in E1. change ("." +:+ "booked" +:+ ".beancount") with ".booked.beancount" in E2.
  assert (stem +:+ ".raw.beancount" ≠ stem +:+ ".booked.beancount") as Hne by (intros H; apply (inj (String.append stem)) in H; done).
  unfold load_dumps, dump. rewrite E1, E2. unfold files_of. clear E1 E2. revert Hne. generalize (stem +:+ ".raw.beancount") (stem +:+ ".booked.beancount"). intros x y Hne. clear -Hne.
  destruct (l_raw m) as [ds|], (l_raw_xf m) as [xs|], (l_booked m) as [bs|], (l_booked_xf m) as [ys|]; cbn [app foldl fst snd default id];
    (split; [|split]; [intros ? [= <-]; by simplify_map_eq|intros ? [= <-]; by simplify_map_eq|intros k t; rewrite ?lookup_insert_Some, ?lookup_empty; naive_solver]) || idtac.
Qed.
(** The ledger [dir/stem.ext] which is loaded can be read again from [stem.raw.beancount]. *)
Theorem C96_raw_partial own m vs : load_beanfile hl = inr (Some m) → l_raw m = Some vs →
  Forall writable ledger → own = true ∨ Forall common ledger →
  ∃ T, files m !! (stem +:+ ".raw.beancount") = Some (Some T) ∧ read_ledger own T = Some (unspanned <$> ledger).
Proof using Hjmo Hord Hso Hstem Hext.
  intros Hl Hr HW Ho. destruct (dumped m) as (D&_&_). rewrite (D vs Hr).
  destruct (values_text so Hso own vs ledger) as (T&E&R); [by eapply raw_are|done..|]. exists T. by rewrite E.
Qed.
(** What is booked can be read from [stem.booked.beancount]. *)
Theorem C96_booked_partial m : load_beanfile hl = inr (Some m) → RBook None ∈ l_asked m → countable_ledger p →
  ∃ n, ∀ own bs ws, book_with n ledger = BookSuccess bs ws →
    Forall writable (as_written <$> bs) → own = true ∨ Forall common (as_written <$> bs) →
    ∃ T, files m !! (stem +:+ ".booked.beancount") = Some (Some T) ∧ read_ledger own T = Some (as_written <$> bs).
Proof using Hjmo Hord Hso Hstem Hext.
  intros Hl Hb Hc. destruct (C95_booked_partial env jso jmo Hjmo hs sources ns read_config code spec so Hso Hord p m Hl Hb Hc) as [n H]. exists n. intros own bs ws Eb HW Ho.
  destruct (H own bs ws Eb HW Ho) as (vs&Hv&Hx). destruct (dumped m) as (_&D&_). rewrite (D vs Hv).
  destruct (Hx (Typed None <$> vs)) as (T&E&R). { rewrite <- list_fmap_compose. apply list_fmap_id. }
  rewrite print_typed, <- list_fmap_compose in E. change (ty_value ∘ Typed None) with (@id cval) in E. rewrite list_fmap_id in E. exists T. by rewrite E.
Qed.
(** Whatever is loaded, no other file is written. *)
Theorem C96_no_other m k t : files m !! k = Some t → k = stem +:+ ".raw.beancount" ∨ k = stem +:+ ".booked.beancount".
Proof using Hstem Hext. apply dumped. Qed.
End Dumps.

(** * Samples *)

(** Whether a sample is writable is calculated. *)
#[local] Instance all_of_dec {A} (P : A → Prop) `{!∀ x, Decision (P x)} o : Decision (all_of P o).
Proof. destruct o; cbn; apply _. Defined.
#[local] Instance is_some_dec {A} (o : option A) : Decision (is_Some o).
Proof. destruct o; [left; by eexists|right; by intros [? ?]]. Defined.
#[local] Instance plain_number_dec d : Decision (plain_number d).
Proof. unfold plain_number. apply _. Defined.
#[local] Instance plain_string_dec s : Decision (plain_string s).
Proof. unfold plain_string. apply _. Defined.
#[local] Instance word_name_dec s : Decision (word_name s).
Proof. unfold word_name. apply _. Defined.
#[local] Instance account_name_dec s : Decision (account_name s).
Proof. unfold account_name. apply _. Defined.
#[local] Instance currency_name_dec s : Decision (currency_name s).
Proof. unfold currency_name. apply _. Defined.
#[local] Instance key_name_dec s : Decision (key_name s).
Proof. unfold key_name. destruct s; apply _. Defined.
#[local] Instance value_writable_dec v : Decision (value_writable v).
Proof. unfold value_writable. destruct v; apply _. Defined.
#[local] Instance apart_dec l : Decision (apart l).
Proof. induction l as [|v l IH]; cbn; [apply _|]. destruct v; try apply _. destruct l as [|[]]; apply _. Defined.
Lemma set_all_dec (P : string → Prop) (D : ∀ x, Decision (P x)) (X : gset string) : Decision (X ≠ ∅ ∧ ∀ s, s ∈ X → P s).
Proof.
  apply and_dec; [apply _|]. destruct (decide (Forall P (base.elements X))) as [H|H].
  - left. rewrite Forall_forall in H. intros s Hs. apply H. by apply elem_of_elements.
  - right. intros H'. apply H. apply Forall_forall. intros s Hs%elem_of_elements. by apply H'.
Defined.
#[local] Instance labels_writable_dec X : Decision (labels_writable X).
Proof. unfold labels_writable. apply set_all_dec, _. Defined.
#[local] Instance metadata_writable_dec m : Decision (metadata_writable m).
Proof.
  unfold metadata_writable. apply and_dec; [apply _|]. destruct (decide (Forall (λ kv, key_name kv.1 ∧ value_writable kv.2) (map_to_list m))) as [H|H].
  - left. rewrite Forall_forall in H. intros k v Hk. by apply (H (k, v)), elem_of_map_to_list.
  - right. intros H'. apply H. apply Forall_forall. intros [k v] Hs%elem_of_map_to_list. by apply H'.
Defined.
#[local] Instance cost_writable_dec c : Decision (cost_writable c).
Proof. unfold cost_writable. apply _. Defined.
#[local] Instance price_writable_dec c : Decision (price_writable c).
Proof. unfold price_writable. apply _. Defined.
#[local] Instance posting_writable_dec c : Decision (posting_writable c).
Proof. unfold posting_writable. apply _. Defined.
#[local] Instance writable_dec d : Decision (writable d).
Proof.
  unfold writable. do 4 (apply and_dec; [apply _|]). unfold variant_writable. destruct (d_variant d); try apply _.
Defined.
#[local] Instance common_dec d : Decision (common d).
Proof. unfold common. destruct (d_variant d); apply _. Defined.
(** How the text says that there is a new line. *)
Definition text (l : list string) : string := String.concat line_end l.

(** A ledger with everything which text can say; it names the plugin of the other samples. *)
Definition word_meta : pmetadata := PMetadata ["trip"; "nz"] ["inv-7"] [("note", PMSimple (SVString "x, y; z")); ("due", PMSimple (SVDate (day 9)))].
Definition printed_parsed : parsed :=
  Parsed
    [ PDirective (Span 0 0 10) (day 1) no_metadata (PVOpen "Assets:Bank" ["USD"; "NZD"] (Some BFifo));
      PDirective (Span 0 11 20) (day 1) word_meta (PVOpen "Equity:Opening" [] None);
      PDirective (Span 0 21 60) (day 2) word_meta
        (PVTransaction FAsterisk (Some "Shop") (Some "lunch")
          [ ParserModel.PPosting (Span 0 30 35) (Some FExclamation) "Assets:Bank" (Some (Dec 1050 2)) (Some "NZD")
              (Some (PCostSpec (Some (Dec 2 0)) None (Some "USD") (Some (day 2)) (Some "lot") false))
              (Some (PPSCurrencyAmount (PerUnit (Dec 25 1)) "USD")) word_meta;
            ParserModel.PPosting (Span 0 40 45) None "Equity:Opening" (Some (Dec (-2100) 2)) (Some "USD") None None no_metadata ]);
      PDirective (Span 0 61 70) (day 3) no_metadata (PVBalance "Assets:Bank" (Dec 1050 2) "NZD" None);
      PDirective (Span 0 71 80) (day 3) no_metadata (PVPrice "NZD" (Dec 5 1) "USD");
      PDirective (Span 0 81 90) (day 3) no_metadata
        (PVCustom "budget" [PMSimple (SVAccount "Assets:Bank"); PMAmount (Dec (-5) 1) "USD"; PMSimple (SVBool true); PMSimple (SVString "x")]) ]
    (pa_options (sample_parsed true)) (pa_plugins (sample_parsed true)).
Definition printed_ledger : list directive := from_directive <$> pa_directives printed_parsed.
Definition printed_health : health := Healthy (inl printed_parsed).
Definition typed_as_sent (d : directive) : typed cval := Typed None (decode None (put_directive plain_order d)).

Lemma printed_writable : Forall writable printed_ledger.
Proof. apply (bool_decide_unpack _). by vm_compute. Qed.
Lemma printed_common : Forall common printed_ledger.
Proof. apply (bool_decide_unpack _). by vm_compute. Qed.
Lemma printed_countable : countable_ledger printed_parsed.
Proof.
  split; [by unfold fits; vm_compute|]. intros d f py n ps Hd Ev.
  assert (Hp : Forall (λ d, match pdr_variant d with PVTransaction _ _ _ ps => length ps ≤ 2 | _ => True end) (pa_directives printed_parsed))
    by (repeat constructor).
  rewrite Forall_forall in Hp. apply Hp in Hd. rewrite Ev in Hd. unfold fits. lia.
Qed.
Definition printed_with (flag : string) : string :=
  text [ "2024-01-01 open Assets:Bank NZD,USD ""FIFO""";
         "";
         "2024-01-01 open Equity:Opening #trip #nz ^inv-7";
         "  due: 2024-01-09";
         "  note: ""x, y; z""";
         "";
         "2024-01-02 " +:+ flag +:+ " ""Shop"" ""lunch"" #trip #nz ^inv-7";
         "  due: 2024-01-09";
         "  note: ""x, y; z""";
         "  ! Assets:Bank 10.50 NZD {2 USD, 2024-01-02, ""lot""} @ 2.5 USD";
         "  #trip";
         "  #nz";
         "  ^inv-7";
         "  due: 2024-01-09";
         "  note: ""x, y; z""";
         "  Equity:Opening -21.00 USD";
         "";
         "2024-01-03 balance Assets:Bank 10.50 NZD";
         "";
         "2024-01-03 price NZD 0.5 USD";
         "";
         "2024-01-03 custom ""budget"" Assets:Bank -0.5 USD TRUE ""x""";
         "" ].
Definition printed_text : string := printed_with "*".
Example C95_printed_example : Forall writable printed_ledger ∧ Forall common printed_ledger ∧
  print_directives id (type_directives (typed_as_sent <$> printed_ledger)) = Some printed_text.
Proof. split; [apply printed_writable|]. split; [apply printed_common|]. by vm_compute. Qed.

(** Loaded, and printed with its books. *)
Definition pr_load (xf : option plugin_xf) : option cval + option loaded :=
  load_beanfile sample_env id id printed_health (λ _, sample_orders) sample_start (p_env xf) s_read id (λ _ _, true) id.
Lemma pr_seen_sent xf x : p_seen p_sent (pr_load xf) = Some (Some x) → ∃ m, pr_load xf = inr (Some m) ∧ RBook x ∈ l_asked m.
Proof.
  unfold p_seen. destruct (pr_load xf) as [|[m|]]; try done. intros [= H]. exists m. split; [done|]. unfold p_sent in H.
  destruct (List.filter _ _) as [|r l] eqn:E; [done|]. assert (Hr : r ∈ l_asked m).
  { apply elem_of_list_In. assert (Hin : List.In r (r :: l)) by by left. rewrite <- E in Hin. by apply List.filter_In in Hin as [? _]. }
  destruct r; try done. by injection H as ->.
Qed.
Definition pr_book : book_result := book_with sample_env printed_parsed (λ _, sample_orders) 0 printed_ledger.
Definition booked_with (flag : string) : string :=
  text [ "2024-01-01 open Assets:Bank NZD,USD ""FIFO""";
         "";
         "2024-01-01 open Equity:Opening #trip #nz ^inv-7";
         "  due: 2024-01-09";
         "  note: ""x, y; z""";
         "";
         "2024-01-02 " +:+ flag +:+ " ""Shop"" ""lunch"" #trip #nz ^inv-7";
         "  due: 2024-01-09";
         "  note: ""x, y; z""";
         "  ! Assets:Bank 9.50 NZD {2 USD, 2024-01-02, ""lot""}";
         "  #trip";
         "  #nz";
         "  ^inv-7";
         "  due: 2024-01-09";
         "  note: ""x, y; z""";
         "  ! Assets:Bank 1 NZD {2 USD, 2024-01-02, ""lot""}";
         "  #trip";
         "  #nz";
         "  ^inv-7";
         "  due: 2024-01-09";
         "  note: ""x, y; z""";
         "  Equity:Opening -21.00 USD";
         "";
         "2024-01-03 balance Assets:Bank 10.50 NZD";
         "";
         "2024-01-03 price NZD 0.5 USD";
         "";
         "2024-01-03 custom ""budget"" Assets:Bank -0.5 USD TRUE ""x""";
         "" ].
Definition booked_text : string := booked_with "*".
Example C95_booked_example : (∃ m, pr_load None = inr (Some m) ∧ RBook None ∈ l_asked m) ∧ countable_ledger printed_parsed ∧
  (∃ bs ws, pr_book = BookSuccess bs ws ∧ Forall writable (as_written <$> bs) ∧ Forall common (as_written <$> bs)) ∧
  p_seen (λ m, (λ vs, print_directives id (type_directives (Typed None <$> vs))) <$> l_booked m) (pr_load None) = Some (Some (Some booked_text)).
Proof.
  split; [by apply pr_seen_sent; vm_compute|]. split; [apply printed_countable|]. split.
  - assert (H : match pr_book with BookSuccess bs ws => bool_decide (Forall writable (as_written <$> bs) ∧ Forall common (as_written <$> bs)) | _ => false end = true) by by vm_compute.
    destruct pr_book as [bs ws| |]; [|done..]. exists bs, ws. apply bool_decide_eq_true in H. naive_solver.
  - by vm_compute.
Qed.

(** * What is not kept *)
Definition bare (v : directive_variant) : directive := Directive None (day 1) None None None v.
Definition with_posting (c : option cost_spec) (p : option price_spec) : directive :=
  bare (DTransaction (Transaction "*" None (Some "x") [PostingSpec None None "Assets:Bank" (Some (Dec 3 0)) (Some "NZD") c p None None None])).
Definition printed (d : directive) : option string := print_directives id (type_directives [typed_as_sent d]).
(** A tolerance comes after the currency, and not where Beancount has it. *)
Theorem C95_tolerance_refuted : ∃ d T0 T,
  read_ledger false T0 = Some [d] ∧ printed d = Some T ∧ read_ledger false T = None ∧
  T0 = "2024-01-01 balance Assets:Bank 10 ~ 0.01 NZD" ∧ T = text ["2024-01-01 balance Assets:Bank 10 NZD ~ 0.01"; ""].
Proof. exists (bare (DBalance (Balance "Assets:Bank" (Dec 10 0) "NZD" (Some (Dec 1 2))))). eexists _, _. split_and!; [|by vm_compute| |done..]; by vm_compute. Qed.
(** A price for all units is not written with two at signs. *)
Theorem C95_total_price_refuted : ∃ d T0 T,
  read_ledger false T0 = Some [d] ∧ printed d = Some T ∧ read_ledger false T = None ∧
  T0 = text ["2024-01-01 * ""x"""; "  Assets:Bank 3 NZD @@ 10 USD"] ∧
  T = text ["2024-01-01 * ""x"""; "  Assets:Bank 3 NZD @ # 10 USD"; ""].
Proof. exists (with_posting None (Some (PriceSpec None (Some (Dec 10 0)) (Some "USD")))). eexists _, _. split_and!; [|by vm_compute| |done..]; by vm_compute. Qed.
(** Of a cost per unit and for all units the second is lost, without a word. *)
Theorem C95_total_cost_refuted : ∃ d d' T0 T,
  read_ledger false T0 = Some [d] ∧ printed d = Some T ∧ read_ledger false T = Some [d'] ∧ d ≠ d' ∧
  T0 = text ["2024-01-01 * ""x"""; "  Assets:Bank 3 NZD {2 # 10 USD}"] ∧
  T = text ["2024-01-01 * ""x"""; "  Assets:Bank 3 NZD {2 USD}"; ""].
Proof.
  exists (with_posting (Some (CostSpec (Some (Dec 2 0)) (Some (Dec 10 0)) (Some "USD") None None false)) None),
    (with_posting (Some (CostSpec (Some (Dec 2 0)) None (Some "USD") None None false)) None). eexists _, _.
  split_and!; [|by vm_compute| |done..]; by vm_compute.
Qed.
(** A missing value of a custom directive is lost. *)
Theorem C95_null_refuted : ∃ d d' T0 T,
  read_ledger false T0 = Some [d] ∧ printed d = Some T ∧ read_ledger false T = Some [d'] ∧ d ≠ d' ∧
  T0 = "2024-01-01 custom ""x"" NULL ""y""" ∧ T = text ["2024-01-01 custom ""x""  ""y"""; ""].
Proof.
  exists (bare (DCustom (Custom "x" [MVNull; MVString "y"]))), (bare (DCustom (Custom "x" [MVString "y"]))). eexists _, _.
  split_and!; [|by vm_compute| |done..]; by vm_compute.
Qed.

(** * What is dumped *)
Example C96_example :
  p_seen (load_dumps id "books/2024.a.beancount") (pr_load None) =
    Some [("2024.a.raw.beancount", Some printed_text); ("2024.a.booked.beancount", Some booked_text)] ∧
  has_char (Ascii.eqb "/") "2024.a" = false ∧ has_char (λ c, Ascii.eqb "/" c || Ascii.eqb "." c) "beancount" = false.
Proof. split_and!; by vm_compute. Qed.
(** What plugins before booking make of a ledger is in no file, although one is written
    after they have run: it has the ledger from before, again. *)
Theorem C96_plugins_refuted : ∃ m xs T w, pr_load (Some PluginProps.flagging) = inr (Some m) ∧ l_raw_xf m = Some xs ∧
  directives_text id xs = Some T ∧
  load_dumps id "books/main.beancount" m = [("main.raw.beancount", Some printed_text); ("main.raw.beancount", Some printed_text); w] ∧
  T ≠ printed_text ∧ w.2 ≠ Some T.
Proof.
  assert (H : p_seen (λ m, (load_dumps id "books/main.beancount" m, l_raw_xf m ≫= directives_text id)) (pr_load (Some PluginProps.flagging)) =
    Some ([("main.raw.beancount", Some printed_text); ("main.raw.beancount", Some printed_text); ("main.booked.beancount", Some (booked_with "!"))],
          Some (printed_with "!"))) by by vm_compute.
  revert H. destruct (pr_load (Some PluginProps.flagging)) as [|[m|]]; cbn [p_seen]; [done| |done]. intros [= H1 H2].
  destruct (l_raw_xf m) as [xs|] eqn:Ex; [|done]. exists m, xs, (printed_with "!"), ("main.booked.beancount", Some (booked_with "!")).
  split_and!; [done..| |]; by vm_compute.
Qed.
(** Two ledgers of the same name have the same file. *)
Theorem C96_names_refuted k : ∃ p p', p ≠ p' ∧ dump_name p k = dump_name p' k.
Proof. exists "a/main.beancount", "b/main.beancount". by split. Qed.

Print Assumptions C95_printed_partial.
Print Assumptions C95_one_partial.
Print Assumptions C95_loaded_partial.
Print Assumptions C95_booked_partial.
Print Assumptions C95_tolerance_refuted.
Print Assumptions C95_total_price_refuted.
Print Assumptions C95_total_cost_refuted.
Print Assumptions C95_null_refuted.
Print Assumptions C96_raw_partial.
Print Assumptions C96_booked_partial.
Print Assumptions C96_no_other.
Print Assumptions C96_plugins_refuted.
Print Assumptions C96_names_refuted.
