(** Concrete ledgers for the report properties, and the counterexamples. *)
From Coq Require Import Ascii QArith Qabs.
From stdpp Require Import prelude gmap strings.
From Verif Require Import DecModel LedgerTypes BookModel BookSpec BookLib ReportSpec SoFar BookSteps BookLife
  SpanModel SpanSpec SampleLib SampleLedgers.
Local Open Scope nat_scope.

Definition dclose (a : string) : directive_variant := DClose a.
Definition dpad (a s : string) : directive_variant := DPad (Pad a s).

Definition ledger_bad : list directive :=
  [ dir 1 (DOpen (Open "Assets:A" (Some {["USD"]}) None));
    dir 1 (dopen "Assets:B");
    dir 1 (dopen "Assets:A");
    dir 1 (dclose "Assets:B");
    dir 1 (dclose "Assets:C");
    dir 2 (dpad "Assets:B" "Assets:A");
    dir 3 (dbal "Assets:B" 0 0 "USD");
    dir 3 (txn [post "Assets:A" 1 "USD"; post "Assets:B" (-1) "USD"]);
    dir 4 (dbal "Assets:A" 0 0 "EUR");
    dir 4 (txn [post "Assets:A" 1 "EUR"]);
    dir 5 (dopen "Assets:B") ].

(** [ledger2] up to its first balance, which is now out by more than the
    tolerance. *)
Definition ledger_off : list directive := take 4 ledger2 ++ [dir 4 (dbal "Assets:Bank" 702 2 "USD")].

Definition ledger_pads : list directive :=
  [ dir 1 (dopen "Assets:A"); dir 1 (dopen "Assets:B"); dir 1 (dopen "Assets:C");
    dir 2 (dpad "Assets:A" "Assets:C");
    dir 2 (dpad "Assets:A" "Assets:C");
    dir 2 (dpad "Assets:B" "Assets:C");
    dir 3 (dbal "Assets:B" 0 0 "USD");
    dir 4 (dpad "Assets:C" "Assets:A") ].

Definition ledger_two_pads : list directive :=
  [ dir 1 (dopen "Assets:A"); dir 1 (dopen "Assets:B");
    dir 2 (dpad "Assets:A" "Assets:B"); dir 2 (dpad "Assets:B" "Assets:A") ].

Definition ledger_table : list directive :=
  [ dir 1 (dopen "Assets:A"); dir 1 (dopen "Assets:A:Sub"); dir 1 (dopen "Equity");
    dir 2 (txn [post "Assets:A" 7 "USD"; post "Equity" (-7) "USD"]);
    dir 3 (dbal "Assets:A" 7 0 "USD");
    dir 4 (txn [post "Assets:A" 3 "USD"; post "Equity" (-3) "USD"; post "Assets:A:Sub" 4 "USD"]);
    dir 5 (dbal "Assets:A" 1 0 "USD") ].

(** [ledger_bad] as if parsed: directive [k] at 10k, posting [j] at 100k+j. *)
Definition spanned (k : nat) (d : directive) : directive :=
  Directive (Some (Span 0 (10 * k) (10 * k + 9))) (d_date d) (d_tags d) (d_links d) (d_metadata d)
    (match d_variant d with
     | DTransaction t => DTransaction (Transaction (tx_flag t) (tx_payee t) (tx_narration t)
         (imap (λ j p, PostingSpec (Some (Span 0 (100 * k + j) (100 * k + j + 1))) (ps_flag p) (ps_acc p)
                 (ps_units p) (ps_cur p) (ps_cost p) (ps_price p) (ps_tags p) (ps_links p) (ps_metadata p))
            (tx_postings t)))
     | v => v
     end).
Definition ledger_spanned : list directive := imap spanned ledger_bad.

Lemma ledger_spanned_spans : spans_present ledger_spanned.
Proof.
  intros d Hd. unfold ledger_spanned in Hd. apply elem_of_lookup_imap in Hd as (k & d0 & -> & _).
  split; [by eexists|]. intros t p. cbn. destruct (d_variant d0); try done. intros [= <-]. cbn.
  intros (j & p0 & -> & _)%elem_of_lookup_imap. by eexists.
Qed.

Lemma ledger1_fills :
  ∃ b bb p m, booked1 !! 7 = Some b ∧ b_variant b = BVBalance bb ∧ fills booked1 4 7 p m (bb_raw bb) ∧
    under (bal_acc (bb_raw bb)) (pad_source p) = false ∧ (dec_value m == 15 # 2)%Q.
Proof.
  eexists _, _, (Pad "Assets:Bank" "Equity:Opening"), (Dec 750 2).
  split; [vm_compute; reflexivity|]. split; [reflexivity|]. split; [|split; vm_compute; reflexivity].
  split; [lia|]. split; [reflexivity|].
  split; [eexists; split; vm_compute; reflexivity|].
  split; [eexists _, _; split; [vm_compute; reflexivity|split; reflexivity]|].
  split; [|eexists; split; vm_compute; reflexivity].
  intros n b H1 H2 Hn. do 7 (destruct n as [|n]; [try lia; vm_compute in Hn; by injection Hn as <-|]). lia.
Qed.

Lemma ledger1_sources : pad_sources_opened ledger1.
Proof.
  intros k d p j dj b Hk Hv Hkj Hj Hvj Hb.
  assert (p = Pad "Assets:Bank" "Equity:Opening" ∧ k = 4) as [-> ->].
  { do 12 (destruct k as [|k]; [injection Hk as <-; try done; injection Hv as <-; done|]). done. }
  exists 3. eexists. split; [lia|]. eexists. split; [reflexivity|]. split; reflexivity.
Qed.

(** ** Counterexamples *)

Definition ledger_late : list directive :=
  [ dir 1 (dopen "Assets:Bank"); dir 1 (dopen "Assets:Bank:Sub"); dir 1 (dopen "Equity");
    dir 2 (dpad "Assets:Bank:Sub" "Equity");
    dir 3 (dbal "Assets:Bank" 0 0 "USD");
    dir 4 (dbal "Assets:Bank:Sub" 10 0 "USD") ].

Lemma late_pad_breaks_balance :
  ∃ P (L : booking_lib P) ord opt ds bs ws n b bb,
    lib_ok L ∧ (∀ m, ord m ≡ₚ map_to_list m) ∧
    book L ord opt ds = BookSuccess bs ws ∧ bs !! n = Some b ∧ b_variant b = BVBalance bb ∧
    (balance_tolerance (lib_multiplier L) (bb_raw bb) <
     Qabs (dec_value (bal_units (bb_raw bb)) -
           posted (in_subtree (bal_acc (bb_raw bb)) (bal_cur (bb_raw bb))) (take n bs)))%Q.
Proof.
  exists _, sample_lib, sample_ord, None, ledger_late. eexists _, _, 5, _, _.
  split; [exact sample_lib_ok|]. split; [exact sample_ord_perm|].
  split; [vm_compute; reflexivity|]. split; [vm_compute; reflexivity|]. split; [vm_compute; reflexivity|].
  vm_compute. reflexivity.
Qed.

Lemma unopened_source_panics :
  ∃ P (L : booking_lib P) ord opt ds w,
    lib_ok L ∧ (∀ m, ord m ≡ₚ map_to_list m) ∧ book L ord opt ds = BookPanic w.
Proof.
  exists _, sample_lib, sample_ord, None,
    [dir 1 (dopen "Assets:A"); dir 2 (dpad "Assets:A" "Equity"); dir 3 (dbal "Assets:A" 10 0 "USD")].
  eexists. split; [exact sample_lib_ok|]. split; [exact sample_ord_perm|]. vm_compute. reflexivity.
Qed.

Definition ledger_closed_source : list directive :=
  [ dir 1 (dopen "Assets:A"); dir 1 (DOpen (Open "Equity" (Some {["EUR"]}) None));
    dir 2 (dclose "Equity"); dir 3 (dpad "Assets:A" "Equity"); dir 4 (dbal "Assets:A" 10 0 "USD") ].

Lemma closed_source_accepted :
  ∃ P (L : booking_lib P) ord opt ds bs ws b p,
    lib_ok L ∧ (∀ m, ord m ≡ₚ map_to_list m) ∧
    book L ord opt ds = BookSuccess bs ws ∧ b ∈ bs ∧ p ∈ postings_of b ∧
    (∃ d, ds !! b_idx b = Some d ∧ is_pad d) ∧
    (∀ i o, ¬ open_before ds (b_idx b) (p_acc p) i o) ∧
    ∀ i o, opens_at ds i (p_acc p) o → ¬ allows o (p_cur p).
Proof.
  exists _, sample_lib, sample_ord, None, ledger_closed_source.
  destruct (sample_run ledger_closed_source) as [bs ws|errs|w] eqn:E; [|vm_compute in E; discriminate..].
  exists bs, ws. vm_compute in E. injection E as <- <-.
  eexists _, _. split; [exact sample_lib_ok|]. split; [exact sample_ord_perm|].
  split; [vm_compute; reflexivity|]. split; [do 4 right; left|]. split; [right; left|]. cbn [p_acc b_idx p_cur].
  split; [eexists; split; [reflexivity|by eexists]|]. split.
  - intros i o (Hi & (d & Hd & Hv & Ha) & Hno).
    cbn in Hi. destruct i as [|[|[|i]]]; [| | |lia]; injection Hd as <-; cbn in Hv; try done;
      injection Hv as <-; try done.
    apply (Hno 2); [lia|cbn; lia|]. by eexists.
  - intros i o (d & Hd & Hv & Ha).
    destruct i as [|[|[|[|[|i]]]]]; [| | | | |done]; injection Hd as <-; cbn in Hv; try done;
      injection Hv as <-; try done.
    unfold allows. cbn. set_solver.
Qed.

Definition ledger_mixed : list directive :=
  [ dir 1 (dopen "Assets:A");
    dir 2 (txn [post "Assets:A" 5 "USD"; post "Assets:A" 100 "EUR"]);
    dir 3 (dbal "Assets:A" 6 0 "USD") ].

Lemma mixed_currencies_added :
  ∃ P (L : booking_lib P) ord opt ds k b r total m,
    lib_ok L ∧ (∀ m, ord m ≡ₚ map_to_list m) ∧
    d_variant <$> ds !! k = Some (DBalance b) ∧
    reports_at k (errors_of (book L ord opt ds)) = [r] ∧
    r_reason r = "accumulated " +:+ dec_to_string total +:+ ", error " +:+
                 dec_to_string m +:+ " " +:+ bal_cur b ∧
    (∀ d b', d ∈ take k ds → d_variant d ≠ DBalance b') ∧
    ¬ (dec_value total ==
       posted (in_subtree (bal_acc b) (bal_cur b)) (booked_so_far L ord opt (take k ds)))%Q.
Proof.
  exists _, sample_lib, sample_ord, None, ledger_mixed, 2. eexists _, _, (Dec 105 0), (Dec 1 0).
  split; [exact sample_lib_ok|]. split; [exact sample_ord_perm|].
  split; [reflexivity|]. split; [vm_compute; reflexivity|]. split; [vm_compute; reflexivity|]. split.
  - intros d b' Hd. cbn in Hd. repeat (apply elem_of_cons in Hd as [->|Hd]; [done|]). by apply elem_of_nil in Hd.
  - vm_compute. discriminate.
Qed.
