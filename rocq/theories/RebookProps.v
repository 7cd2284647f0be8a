(** Booking what was booked. *)
From Coq Require Import Ascii QArith.
From stdpp Require Import prelude gmap strings.
From Verif Require Import DecModel LedgerTypes IsoModel IsoFacts JsonModel WireModel WireSpec WireFacts BookModel BookSpec SpanModel ParserModel
  JsonText SampleLib SampleLedgers WireSamples ServerModel ServerSpec ServerFacts ServerSamples CljModel InventoryModel ClientModel ClientDecode FormatModel PluginModel PluginSpec LoaderModel
  LoaderSpec LoaderFacts LoaderProps EncodeModel SystemModel SystemFacts SystemLoad SystemErrors SystemSpec SystemTrace SystemProps
  NumText TextFacts TextSpec WriteSpec TextWords TextRead WriteFacts WriteCost WritePosting WriteDirective WriteDecode PrintModel PrintProps BookLib RebookSpec RebookFacts
  InventorySpec ClientSpec ViewSpec ViewFacts ViewProps ClientSamples.
Local Open Scope nat_scope.

(** What is booked of a ledger without pads can be booked again, whatever the hash
    orders: nothing is reported that was not, and the directives are, written down, the
    same.  So they are if they are booked once more, and ever after. *)
Theorem C102_again_partial {P} (L : booking_lib P) same ord ord' opt opt' ds bs ws :
  settles L same → (∀ m, ord m ≡ₚ map_to_list m) → (∀ m, ord' m ≡ₚ map_to_list m) →
  default_booking_option L opt' = default_booking_option L opt → Forall (λ d, ¬ is_pad d) ds →
  book L ord opt ds = BookSuccess bs ws →
  ∃ bs', book L ord' opt' (as_written <$> bs) = BookSuccess bs' ws ∧ as_written <$> bs' = as_written <$> bs ∧
    b_idx <$> bs' = b_idx <$> bs ∧ book L ord' opt' (as_written <$> bs') = BookSuccess bs' ws.
Proof.
  intros HL Ho Ho' Hopt Hp Hb. destruct (rebook L same HL ord ord' Ho Ho' opt ds bs ws Hp Hb) as (bs'&Hb'&Hw&Hi&Hi').
  exists bs'. assert (E : book L ord' opt' (as_written <$> bs) = BookSuccess bs' ws) by (unfold book in *; by rewrite Hopt).
  split; [done|]. split; [done|]. split; [by rewrite Hi|]. by rewrite Hw.
Qed.

(** So the dump of the booked directives is a ledger with which booking is done. *)
Section Dumps.
Context {P S : Type} (env : server_env P S).
Context (jso : list json → list json) (jmo : list (string * json) → list (string * json)).
Context (Hjmo : ∀ l, jmo l ≡ₚ l).
Context (hs : nat → orders P) (sources : S).
Context (ns : string → option namespace) (read_config : option cval → option (option cval)).
Context (code : nat → nat) (spec : bool → cval → bool) (so : list cval → list cval) (Hso : ∀ l, so l ≡ₚ l).
Context (Hord : ∀ n, any_order (or_wire (hs n))) (Hacc : ∀ n m, or_accounts (hs n) m ≡ₚ map_to_list m).
Context (p : parsed).
Notation load_beanfile hl := (load_beanfile env jso jmo hl hs sources ns read_config code spec so).
Notation ledger := (from_directive <$> pa_directives p).
Notation book_with := (book_with env p hs).
Notation hl := (Healthy (inl p)).
Notation L := (env_booking env (pa_options p)).
Notation opt := (po_booking_method (pa_options p)).
Context (dir stem ext : string).
Context (Hstem : has_char (Ascii.eqb "/") stem = false) (Hext : has_char (λ c, Ascii.eqb "/" c || Ascii.eqb "." c) ext = false).
Notation path := (dir +:+ "/" +:+ stem +:+ "." +:+ ext).
Notation files m := (files_of (load_dumps so path m)).

Theorem C102_dumped_partial same m : settles L same → Forall (λ d, ¬ is_pad d) ledger →
  load_beanfile hl = inr (Some m) → RBook None ∈ l_asked m → countable_ledger p →
  ∃ n, ∀ own bs ws, book_with n ledger = BookSuccess bs ws →
    Forall writable (as_written <$> bs) → own = true ∨ Forall common (as_written <$> bs) →
    ∃ T ds, files m !! (stem +:+ ".booked.beancount") = Some (Some T) ∧ read_ledger own T = Some ds ∧
      ∀ ord', (∀ m, ord' m ≡ₚ map_to_list m) → ∃ bs', book L ord' opt ds = BookSuccess bs' ws ∧ as_written <$> bs' = ds.
Proof using Hjmo Hord Hso Hstem Hext Hacc.
  intros HL Hp Hl Hb Hc. destruct (C96_booked_partial env jso jmo Hjmo hs sources ns read_config code spec so Hso Hord p dir stem ext Hstem Hext m Hl Hb Hc) as [n H]. exists n.
  intros own bs ws Eb HW Ho. destruct (H own bs ws Eb HW Ho) as (T&E&R). exists T, (as_written <$> bs). split; [done|]. split; [done|]. intros ord' Ho'.
  destruct (C102_again_partial L same (or_accounts (hs n)) ord' opt opt ledger bs ws HL (Hacc n) Ho' eq_refl Hp Eb) as (bs'&Hb'&Hw&_). exists bs'. done.
Qed.
End Dumps.

(** ** The reports *)
(** Booked postings which are, for the user and their filters, the same. *)
Definition same_entry (e e' : citem * posting) : Prop :=
  e.1 = e'.1 ∧ p_units e.2 = p_units e'.2 ∧ p_cur e.2 = p_cur e'.2 ∧ p_acc e.2 = p_acc e'.2.
Lemma same_postings d y n l l' : posting_as_written <$> l' = posting_as_written <$> l →
  Forall2 same_entry ((λ p, (CItem d (Some (p_acc p)) (Some (p_cur p)) y n, p)) <$> l) ((λ p, (CItem d (Some (p_acc p)) (Some (p_cur p)) y n, p)) <$> l').
Proof.
  revert l'. induction l as [|q l IH]; intros [|q' l'] H; try done; [by constructor|]. rewrite !fmap_cons in H. injection H as _ H1 H2 H3 _ _ _ _ _ H.
  rewrite !fmap_cons. constructor; [|by apply IH]. unfold same_entry. cbn. rewrite H1, H2, H3. done.
Qed.
Lemma same_entries bs bs' : as_written <$> bs' = as_written <$> bs → Forall2 same_entry (booked_entries bs) (booked_entries bs').
Proof.
  revert bs'. induction bs as [|b bs IH]; intros [|b' bs'] H; try done; [by constructor|]. rewrite !fmap_cons in H. injection H as Hd _ _ _ Hv H.
  unfold booked_entries. rewrite !bind_cons. apply Forall2_app; [|by apply IH].
  destruct (b_variant b), (b_variant b'); try done; [|by constructor..]. injection Hv as _ Hy Hn Hl. rewrite Hy, Hn, Hd. by apply same_postings.
Qed.
Lemma same_filter (Q Q' : citem * posting → Prop) `{!∀ e, Decision (Q e), !∀ e, Decision (Q' e)} l l' :
  (∀ e e', same_entry e e' → Q e ↔ Q' e') → Forall2 same_entry l l' → Forall2 same_entry (filter Q l) (filter Q' l').
Proof.
  intros HQ. induction 1 as [|e e' l l' He Hl IH]; [by constructor|]. rewrite !filter_cons. destruct (decide (Q e)) as [q|q].
  - rewrite decide_True by by apply (HQ e e' He). by constructor.
  - rewrite decide_False; [done|]. by rewrite <- (HQ e e' He).
Qed.
Lemma same_selected filters bs bs' : as_written <$> bs' = as_written <$> bs → Forall2 same_entry (entries_selected filters bs) (entries_selected filters bs').
Proof. intros H. apply same_filter; [|by apply same_entries]. by intros e e' [-> _]. Qed.
Lemma same_units cur l l' : Forall2 same_entry l l' → entry_units cur l = entry_units cur l'.
Proof.
  intros H. unfold entry_units. f_equal. apply (same_filter (λ e, p_cur e.2 = cur) (λ e, p_cur e.2 = cur)) in H; [|by intros e e' (_&_&->&_)].
  induction H as [|e e' k k' (_&E&_) _ IH]; [done|]. rewrite !fmap_cons, E. by f_equal.
Qed.
Lemma same_to_account acc l l' : Forall2 same_entry l l' → Forall2 same_entry (to_account acc l) (to_account acc l').
Proof. apply same_filter. by intros e e' (_&_&_&->). Qed.

(** A user who books the booked ledger sees in the inventory and in the journal what
    they saw before, whatever the filters: in each account as much of each currency, and
    the same rows with the same units and the same balances. *)
Theorem C102_reports_partial {P} (L : booking_lib P) same ord ord' opt ds bs ws bs' ws' cs cs' co co' o o' filters :
  settles L same → (∀ m, ord m ≡ₚ map_to_list m) → (∀ m, ord' m ≡ₚ map_to_list m) → Forall (λ d, ¬ is_pad d) ds →
  (∀ l, co_lots co l ≡ₚ l) → (∀ l, co_lots co' l ≡ₚ l) →
  book L ord opt ds = BookSuccess bs ws → book L ord' opt (as_written <$> bs) = BookSuccess bs' ws' →
  Forall2 directive_seen cs bs → Forall2 directive_seen cs' bs' →
  (∀ inv inv', inventory co (Beans cs o) filters = Some inv → inventory co' (Beans cs' o') filters = Some inv' →
     ∀ acc cur, (InventorySpec.held cur (holding inv acc) == InventorySpec.held cur (holding inv' acc))%Q) ∧
  (∀ l l', journal co (Beans cs o) filters = Some l → journal co' (Beans cs' o') filters = Some l' →
     length l = length l' ∧
     ∀ n row bal, l !! n = Some (row, bal) → ∃ row' bal', l' !! n = Some (row', bal') ∧
       item_of_posting row = item_of_posting row' ∧ (cn_value (cp_units row) == cn_value (cp_units row'))%Q ∧
       ∀ cur, (InventorySpec.held cur bal == InventorySpec.held cur bal')%Q).
Proof.
  intros HL Ho Ho' Hp Hco Hco' Hb Hb' Hs Hs'.
  destruct (C102_again_partial L same ord ord' opt opt ds bs ws HL Ho Ho' eq_refl Hp Hb) as (bs2&Hb2&Hw&_).
  rewrite Hb2 in Hb'. injection Hb' as -> _. pose proof (same_selected filters bs bs' Hw) as HF. split.
  - intros inv inv' Hi Hi' acc cur. destruct (C87_inventory _ _ _ _ _ _ Hco Hs Hi) as [H _], (C87_inventory _ _ _ _ _ _ Hco' Hs' Hi') as [H' _].
    rewrite H, H'. by rewrite (same_units cur _ _ (same_to_account acc _ _ HF)).
  - intros l l' Hj Hj'. destruct (C87_journal _ _ _ _ _ _ Hco Hs Hj) as [Hl H], (C87_journal _ _ _ _ _ _ Hco' Hs' Hj') as [Hl' H'].
    split; [rewrite Hl, Hl'; by eapply Forall2_length|]. intros n row bal Hr.
    destruct (lookup_lt_is_Some_2 (entries_selected filters bs) n) as [e He]; [rewrite <- Hl; by eapply lookup_lt_Some|].
    destruct (Forall2_lookup_l _ _ _ _ _ HF He) as (e'&He'&E1&E2&_).
    destruct (H n e He) as (row0&bal0&Hr0&I&U&B). rewrite Hr in Hr0. injection Hr0 as <- <-.
    destruct (H' n e' He') as (row'&bal'&Hr'&I'&U'&B'). exists row', bal'. split; [done|]. split; [congruence|]. split.
    + destruct U as [U _], U' as [U' _]. by rewrite U, U', E2.
    + intros cur. rewrite B, B'. by rewrite (same_units cur _ _ (Forall2_take _ _ _ (S n) HF)).
Qed.

(** * A library which settles *)

(** It completes missing units, from what the other postings weigh, and has one lot for a
    posting at cost. *)
Definition weight (ps : posting_spec) : option dec :=
  (λ u, match ps_cost ps with Some c => dec_mul u (default dec_zero (cs_per_unit c)) | None => u end) <$> ps_units ps.
Definition one_lot (dt : date) (u : dec) (cs : cost_spec) : list (string * posting_cost) :=
  [(default "USD" (cs_cur cs), PostingCost (default dt (cs_date cs)) u (default dec_zero (cs_per_unit cs))
      (dec_mul u (default dec_zero (cs_per_unit cs))) (cs_label cs) (cs_merge cs))].
Definition fill (dt : date) (others : dec) (ps : posting_spec) : interpolated :=
  let u := default (dec_neg others) (ps_units ps) in
  Interpolated u (default "USD" (ps_cur ps)) (one_lot dt u <$> ps_cost ps)
    ((λ p, Price (default dec_zero (prs_per_unit p)) (prs_total p) (default "USD" (prs_cur p))) <$> ps_price ps).
Definition filling_book (dt : date) (l : list posting_spec) (inv : string → option SampleLib.holding) (_ : string → lbooking) : lib_result SampleLib.holding :=
  match l with
  | [] => LibErrTransaction "empty transaction"
  | _ =>
      let ips := fill dt (dec_sum (omap weight l)) <$> l in
      LibOk ips ((λ n, (n, sample_apply n (zip ips l) (default ∅ (inv n)))) <$> remove_dups (ps_acc <$> l))
  end.
Definition filling_lib : booking_lib SampleLib.holding := BookingLib SampleLib.holding
  (lib_empty sample_lib) (lib_units sample_lib) (lib_accumulate sample_lib) filling_book
  (lib_supported sample_lib) (lib_default_booking sample_lib) (lib_multiplier sample_lib) (lib_show_booking sample_lib).

Definition complete (dt : date) (r : dec) (ps : posting_spec) : posting_spec :=
  let u := default (dec_neg r) (ps_units ps) in
  PostingSpec None (ps_flag ps) (ps_acc ps) (Some u) (Some (default "USD" (ps_cur ps)))
    ((λ c, CostSpec (Some (default dec_zero (cs_per_unit c))) None (Some (default "USD" (cs_cur c))) (Some (default dt (cs_date c))) (cs_label c) (cs_merge c)) <$> ps_cost ps)
    (match ps_cost ps with Some _ => None | None => (λ p, PriceSpec (Some (default dec_zero (prs_per_unit p))) None (Some (default "USD" (prs_cur p)))) <$> ps_price ps end)
    (ps_tags ps) (ps_links ps) (ps_metadata ps).
Lemma completed_fill dt r l : all_completed (fill dt r <$> l) l = complete dt r <$> l.
Proof.
  unfold all_completed. induction l as [|ps l IH]; [done|]. rewrite !fmap_cons. cbn [zip_with concat]. rewrite IH.
  unfold completed, fill at 1, complete at 2. cbn [in_cost]. destruct (ps_cost ps) as [c|]; cbn; [done|]. by destruct (ps_price ps).
Qed.
Lemma fill_repeats dt r r' ps : repeats (complete dt r ps) (fill dt r' (complete dt r ps)).
Proof. unfold repeats, completed, fill, complete. cbn. destruct (ps_cost ps) as [c|]; cbn; [done|]. by destruct (ps_price ps). Qed.
Lemma completed_apply n dt r r' l h : sample_apply n (zip (fill dt r' <$> (complete dt r <$> l)) (complete dt r <$> l)) h = sample_apply n (zip (fill dt r <$> l) l) h.
Proof. revert h. induction l as [|ps l IH]; intros h; [done|]. cbn. by rewrite IH. Qed.
Lemma filling_settles : settles filling_lib eq.
Proof.
  split.
  - done.
  - by intros p p' cur ->.
  - intros dt ps inv inv' bk bk' ips upd Hinv Hbk H. cbn in H. unfold filling_book in H. destruct ps as [|ps0 ps]; [done|]. remember (ps0 :: ps) as l. cbn zeta in H.
    set (r := dec_sum (omap weight l)) in *. injection H as <- <-. rewrite completed_fill.
    exists (fill dt (dec_sum (omap weight (complete dt r <$> l))) <$> (complete dt r <$> l)),
      ((λ n, (n, sample_apply n (zip (fill dt r <$> l) l) (default ∅ (inv n)))) <$> remove_dups (ps_acc <$> l)).
    assert (Hn : ∀ g : string → SampleLib.holding, NoDup ((λ n, (n, g n)) <$> remove_dups (ps_acc <$> l)).*1).
    { intros g. rewrite <- list_fmap_compose. cbn. rewrite list_fmap_id. apply NoDup_remove_dups. }
    split_and!.
    + cbn. unfold filling_book. rewrite Heql at 1. cbn [fmap list_fmap]. cbn zeta. f_equal.
      replace (ps_acc <$> (complete dt r <$> l)) with (ps_acc <$> l) by by rewrite <- list_fmap_compose. apply list_fmap_ext. intros i n _. rewrite completed_apply.
      specialize (Hinv n). by inversion Hinv; subst.
    + apply Forall2_fmap_r. apply Forall_Forall2_diag. apply Forall_fmap, Forall_forall. intros ps' _. apply fill_repeats.
    + apply Hn.
    + apply Hn.
    + intros n. destruct (_ !! n); by constructor.
Qed.

(** A missing amount, a cost without a date, a price and balances. *)
Definition r_ledger : list directive :=
  [ dir 1 (DOpen (Open "Assets:Bank" (Some {["USD"; "HOOL"]}) (Some BAverage))); dir 1 (dopen "Equity:Opening"); dir 1 (dopen "Expenses:Food");
    dir 2 (txn [ PostingSpec None (Some "!") "Assets:Bank" (Some (Dec 10 0)) (Some "HOOL") (Some (CostSpec (Some (Dec 5 0)) None None None (Some "lot") false)) None None None None;
                 PostingSpec None None "Equity:Opening" None None None None (Some {["trip"]}) None None ]);
    dir 3 (dbal "Assets:Bank" 10 0 "HOOL");
    dir 4 (txn [ PostingSpec None None "Expenses:Food" (Some (Dec 75 1)) (Some "USD") None (Some (PriceSpec (Some (Dec 2 0)) None (Some "EUR"))) None None None;
                 PostingSpec None None "Assets:Bank" None None None None None None None ]);
    dir 5 (dbal "Equity:Opening" (-500) 1 "USD") ].
Definition r_run := book filling_lib sample_ord None.
Example C102_example : ∃ bs ws bs' b p, r_run r_ledger = BookSuccess bs ws ∧ Forall (λ d, ¬ is_pad d) r_ledger ∧
  length ws = 2 ∧ r_run (as_written <$> bs) = BookSuccess bs' ws ∧ as_written <$> bs' = as_written <$> bs ∧
  (** the ledger is not the one which was booked, and something was completed *)
  as_written <$> bs ≠ r_ledger ∧ bs !! 3 = Some b ∧ postings_of b !! 1 = Some p ∧ p_units p = Dec (-50) 0.
Proof.
  destruct (r_run r_ledger) as [bs ws|es|w] eqn:E; [|by vm_compute in E..].
  assert (Hp : Forall (λ d, ¬ is_pad d) r_ledger). { repeat (apply Forall_cons; split; [by intros [p ?]|]). by apply Forall_nil. }
  destruct (C102_again_partial filling_lib eq sample_ord sample_ord None None _ bs ws filling_settles sample_ord_perm sample_ord_perm eq_refl Hp E) as (bs'&Hb&Hw&_&_).
  exists bs, ws, bs'. vm_compute in E. injection E as <- <-. eexists _, _. split; [done|]. split; [done|]. split; [done|]. split; [done|]. split; [done|]. split; [by vm_compute|].
  split; [reflexivity|]. split; [reflexivity|done].
Qed.

(** The rows of the journal of this ledger before its last day: units and balances. *)
Definition r_booked : list bdirective := booked_or_nil (r_run r_ledger).
Definition r_rows (bs : list bdirective) : option (list (Q * list Q)) :=
  match journal plain_orders (Beans (seen_directive <$> bs) (client_options None)) [date_lt (day 5)] with
  | Some l => Some (map (λ r, (Qred (cn_value (cp_units r.1)), map (λ cur, Qred (InventorySpec.held cur r.2)) ["USD"; "HOOL"])) l)
  | None => None
  end.
Example C102_reports_example :
  let again := booked_or_nil (r_run (as_written <$> r_booked)) in
  again ≠ [] ∧ Forall2 directive_seen (seen_directive <$> r_booked) r_booked ∧ Forall2 directive_seen (seen_directive <$> again) again ∧
  r_rows r_booked = r_rows again ∧
  r_rows r_booked = Some [(10, [0; 10]); (-50, [-50; 10]); (15 # 2, [-85 # 2; 10]); (-15 # 2, [-50; 10])]%Q.
Proof.
  split_and!; [by vm_compute|apply seen_all|apply seen_all|by vm_compute|by vm_compute].
Qed.

(** With a pad it is not so: the directive is there and so is what came of it, and then
    there is nothing to pad. *)
#[local] Existing Instance writable_dec.
#[local] Existing Instance common_dec.
Definition p_ledger : list directive :=
  [ dir 1 (dopen "Assets:Bank"); dir 1 (dopen "Equity:Opening"); dir 2 (DPad (Pad "Assets:Bank" "Equity:Opening")); dir 3 (dbal "Assets:Bank" 100 0 "USD") ].
Theorem C102_pads_refuted : ∃ bs, settles filling_lib eq ∧ r_run p_ledger = BookSuccess bs [] ∧
  Forall writable (as_written <$> bs) ∧ Forall common (as_written <$> bs) ∧
  r_run (as_written <$> bs) = BookFailure [mk_report (eidx_of_nat 2) "unused, no balance adjustment required"].
Proof.
  eexists. split; [apply filling_settles|]. split; [vm_compute; reflexivity|].
  split; [apply (bool_decide_unpack _); by vm_compute|]. split; [apply (bool_decide_unpack _); by vm_compute|]. by vm_compute.
Qed.

Print Assumptions C102_again_partial.
Print Assumptions C102_dumped_partial.
Print Assumptions C102_reports_partial.
Print Assumptions C102_pads_refuted.
