(** Properties of booking: reports, pads, balances, transactions.  Each theorem
    is closed by a lemma proved elsewhere; each is followed by a concrete case
    meeting its hypotheses. *)
From Coq Require Import Ascii QArith Qabs.
From stdpp Require Import prelude gmap strings.
From Verif Require Import DecModel LedgerTypes BookModel BookSpec BookLib ReportSpec SoFar SpanModel SpanSpec
  BookUnits BookPads BookFacts BookReports ReportFacts SimFacts BookTotal BookExtend BookWindow BookOutput
  LedgerMeaning ReportMore SpanFacts PadFacts SampleLib SampleLedgers ReportSamples.
Local Open Scope nat_scope.

(** ** C06: lifecycle violations are reported where they happen *)

(** The life of an account in terms of the positions of directives. *)
Theorem C06_lifecycle_meaning :
  ∀ ds a st, life ds a = st ↔ life_means ds a st.
Proof. exact life_iff. Qed.
Print Assumptions C06_lifecycle_meaning.

Theorem C06_opens_reported :
  ∀ P (L : booking_lib P) ord, (∀ m, ord m ≡ₚ map_to_list m) → ∀ opt ds k d o,
    (∀ w, book L ord opt ds ≠ BookPanic w) → ds !! k = Some d → d_variant d = DOpen o →
    reports_at k (errors_of (book L ord opt ds)) = open_reports k (life (take k ds) (op_acc o)).
Proof. exact @open_reported. Qed.
Print Assumptions C06_opens_reported.

Theorem C06_closes_reported :
  ∀ P (L : booking_lib P) ord, (∀ m, ord m ≡ₚ map_to_list m) → ∀ opt ds k d a,
    (∀ w, book L ord opt ds ≠ BookPanic w) → ds !! k = Some d → d_variant d = DClose a →
    reports_at k (errors_of (book L ord opt ds)) = close_reports k (life (take k ds) a).
Proof. exact @close_reported. Qed.
Print Assumptions C06_closes_reported.

Theorem C06_pads_reported :
  ∀ P (L : booking_lib P) ord, (∀ m, ord m ≡ₚ map_to_list m) → ∀ opt ds k d p r,
    (∀ w, book L ord opt ds ≠ BookPanic w) → ds !! k = Some d → d_variant d = DPad p →
    unusable_report (at_directive k) (life (take k ds) (pad_acc p)) = Some r →
    reports_at k (errors_of (book L ord opt ds)) = [r].
Proof. exact @pad_unusable_reported. Qed.
Print Assumptions C06_pads_reported.

Theorem C06_balances_reported :
  ∀ P (L : booking_lib P) ord, (∀ m, ord m ≡ₚ map_to_list m) → lib_ok L → ∀ opt ds k d b r,
    (∀ w, book L ord opt ds ≠ BookPanic w) → ds !! k = Some d → d_variant d = DBalance b →
    use_report (at_directive k) (take k ds) (bal_acc b) (bal_cur b) = Some r →
    reports_at k (errors_of (book L ord opt ds)) = [r].
Proof. exact @balance_use_reported. Qed.
Print Assumptions C06_balances_reported.

(** [method_for] is the subject of C24. *)
Theorem C06_transactions_reported :
  ∀ P (L : booking_lib P) ord, (∀ m, ord m ≡ₚ map_to_list m) → lib_ok L → ∀ opt ds k d t,
    (∀ w, book L ord opt ds ≠ BookPanic w) → ds !! k = Some d → d_variant d = DTransaction t →
    ∃ inv meth, (∀ a, meth a = method_for L opt (take k ds) a) ∧
      (∀ a, is_Some (inv a) ↔ ∃ i o, opens_at (take k ds) i a o) ∧
      reports_at k (errors_of (book L ord opt ds)) =
        txn_answer_reports k (take k ds) t (lib_book L (d_date d) (tx_postings t) inv meth).
Proof. exact @txn_reported. Qed.
Print Assumptions C06_transactions_reported.

(** Prices, commodities, documents, notes, events, queries and customs. *)
Theorem C06_others_not_reported :
  ∀ P (L : booking_lib P) ord, (∀ m, ord m ≡ₚ map_to_list m) → ∀ opt ds k d,
    (∀ w, book L ord opt ds ≠ BookPanic w) → ds !! k = Some d →
    (∀ t, d_variant d ≠ DTransaction t) → (∀ b, d_variant d ≠ DBalance b) →
    (∀ o, d_variant d ≠ DOpen o) → (∀ a, d_variant d ≠ DClose a) → (∀ p, d_variant d ≠ DPad p) →
    reports_at k (errors_of (book L ord opt ds)) = [].
Proof. exact @others_not_reported. Qed.
Print Assumptions C06_others_not_reported.

(** A ledger with an open of an open account, an open of a closed one, a close of
    an account never opened, a pad, a balance and a transaction on a closed
    account, and a balance and a transaction in a currency not allowed. *)
Example C06_example :
  (∀ w, sample_run ledger_bad ≠ BookPanic w) ∧
  reports_at 2 (errors_of (sample_run ledger_bad)) =
    [Report "account already opened" (at_directive 2) (Some [at_directive 0]) None] ∧
  reports_at 4 (errors_of (sample_run ledger_bad)) =
    [Report "account not open" (at_directive 4) None None] ∧
  reports_at 5 (errors_of (sample_run ledger_bad)) =
    [Report "account was closed" (at_directive 5) (Some [at_directive 3]) None] ∧
  reports_at 6 (errors_of (sample_run ledger_bad)) =
    [Report "account was closed" (at_directive 6) (Some [at_directive 3]) None] ∧
  reports_at 7 (errors_of (sample_run ledger_bad)) =
    [Report "account was closed" (EIdx 7 (Some 1)) (Some [at_directive 3]) None] ∧
  reports_at 8 (errors_of (sample_run ledger_bad)) =
    [Report "currency incompatible with account" (at_directive 8) (Some [at_directive 0]) None] ∧
  reports_at 9 (errors_of (sample_run ledger_bad)) =
    [Report "currency incompatible with account" (EIdx 9 (Some 0)) (Some [at_directive 0]) None] ∧
  reports_at 10 (errors_of (sample_run ledger_bad)) =
    [Report "account was closed" (at_directive 10) (Some [at_directive 3]) None] ∧
  life (take 10 ledger_bad) "Assets:B" = ClosedAt 3.
Proof. vm_compute. repeat split; try reflexivity; discriminate. Qed.

(** ** C07: booked postings trace back to ledger postings *)
Theorem C07_postings_traced :
  ∀ P (L : booking_lib P) ord, (∀ m, ord m ≡ₚ map_to_list m) → lib_ok L → ∀ opt ds bs ws b d t,
    book L ord opt ds = BookSuccess bs ws → b ∈ bs → ds !! b_idx b = Some d → d_variant d = DTransaction t →
    ∃ inv meth ips upd groups,
      lib_book L (d_date d) (tx_postings t) inv meth = LibOk ips upd ∧
      (∀ a, meth a = method_for L opt (take (b_idx b) ds) a) ∧
      (∀ a, is_Some (inv a) ↔ ∃ i o, opens_at (take (b_idx b) ds) i a o) ∧
      (∀ a p cur, inv a = Some p →
         held L p cur == posted (to_account a cur) (booked_so_far L ord opt (take (b_idx b) ds)))%Q ∧
      postings_of b = concat groups ∧
      length ips = length (tx_postings t) ∧ length groups = length (tx_postings t) ∧
      ∀ i ps ip g, tx_postings t !! i = Some ps → ips !! i = Some ip → groups !! i = Some g →
        expansion i ps ip g.
Proof. exact @transaction_booked'. Qed.
Print Assumptions C07_postings_traced.

(** The transaction at index 5 of [ledger1] has a posting which the library
    splits in two lots. *)
Example C07_example :
  ∃ b d t, b ∈ booked1 ∧ b_idx b = 5 ∧ ledger1 !! b_idx b = Some d ∧ d_variant d = DTransaction t ∧
    p_idx <$> postings_of b = [Some 0; Some 1; Some 1; Some 2] ∧
    (λ p, match p_cost p with Some _ => true | None => false end) <$> postings_of b = [false; true; true; false].
Proof.
  exists (nth 6 booked1 (BDirective 0 (day 1) None None None (BVClose ""))). eexists _, _.
  split; [apply (elem_of_list_lookup_2 _ 6); vm_compute; reflexivity|].
  repeat (split; [vm_compute; reflexivity|]). vm_compute. reflexivity.
Qed.

(** ** C09: balance assertions are decided exactly at the tolerance *)
Theorem C09_balance_decided :
  ∀ P (L : booking_lib P) ord, (∀ m, ord m ≡ₚ map_to_list m) → lib_ok L → ∀ opt ds k d b,
    (∀ w, book L ord opt ds ≠ BookPanic w) → ds !! k = Some d → d_variant d = DBalance b →
    use_report (at_directive k) (take k ds) (bal_acc b) (bal_cur b) = None →
    pending (take k ds) (bal_acc b) = None →
    let diff := (dec_value (bal_units b) - accumulated L ord opt (take k ds) (bal_acc b) (bal_cur b))%Q in
    let tol := balance_tolerance (lib_multiplier L) b in
    ((Qabs diff <= tol)%Q ∧ reports_at k (errors_of (book L ord opt ds)) = []) ∨
    ((tol < Qabs diff)%Q ∧
       ∃ m r, reports_at k (errors_of (book L ord opt ds)) = [r] ∧ balance_failure k m (bal_cur b) r ∧
         (dec_value m == diff)%Q).
Proof. exact @balance_decided'. Qed.
Print Assumptions C09_balance_decided.

(** Appended to a ledger which books, in terms of its output only. *)
Theorem C09_balance_appended :
  ∀ P (L : booking_lib P) ord, (∀ m, ord m ≡ₚ map_to_list m) → lib_ok L → ∀ opt ds bs ws d b,
    book L ord opt ds = BookSuccess bs ws → d_variant d = DBalance b →
    use_report (at_directive (length ds)) ds (bal_acc b) (bal_cur b) = None →
    let diff := (dec_value (bal_units b) - posted (in_subtree (bal_acc b) (bal_cur b)) bs)%Q in
    let tol := balance_tolerance (lib_multiplier L) b in
    ((Qabs diff <= tol)%Q ∧ ∃ b', book L ord opt (ds ++ [d]) = BookSuccess (bs ++ [b']) ws ∧
        same_header (length ds) d b' ∧ same_content (d_variant d) (b_variant b')) ∨
    ((tol < Qabs diff)%Q ∧ ∃ m r, book L ord opt (ds ++ [d]) = BookFailure [r] ∧
        balance_failure (length ds) m (bal_cur b) r ∧ (dec_value m == diff)%Q).
Proof. exact @balance_appended. Qed.
Print Assumptions C09_balance_appended.

(** The two accounts of the accumulated amount agree on success. *)
Theorem C09_accumulated_on_success :
  ∀ P (L : booking_lib P) ord opt ds bs ws base cur,
    book L ord opt ds = BookSuccess bs ws →
    (accumulated L ord opt ds base cur == posted (in_subtree base cur) bs)%Q.
Proof. exact @accumulated_success. Qed.
Print Assumptions C09_accumulated_on_success.

(** 7.02 fails where 7.01 passed (C08). *)
Example C09_example :
  (∀ w, sample_run ledger_off ≠ BookPanic w) ∧
  (∃ b, d_variant <$> ledger_off !! 4 = Some (DBalance b) ∧
    use_report (at_directive 4) (take 4 ledger_off) (bal_acc b) (bal_cur b) = None ∧
    pending (take 4 ledger_off) (bal_acc b) = None ∧
    (accumulated sample_lib sample_ord None (take 4 ledger_off) (bal_acc b) (bal_cur b) == 7)%Q) ∧
  length (reports_at 4 (errors_of (sample_run ledger_off))) = 1 ∧
  (∃ bs, sample_run (take 4 ledger_off) = BookSuccess bs []).
Proof.
  split; [vm_compute; discriminate|]. split.
  { eexists. split; [vm_compute; reflexivity|]. repeat split; vm_compute; reflexivity. }
  split; [vm_compute; reflexivity|]. eexists. vm_compute. reflexivity.
Qed.

(** ** C11: roll-up respects account boundaries *)
Theorem C11_account_boundaries :
  ∀ base name, under base name = true ↔ name = base ∨ ∃ rest, name = base +:+ ":" +:+ rest.
Proof. exact under_meaning. Qed.
Print Assumptions C11_account_boundaries.

(** The code's own test for sub-accounts is the same. *)
Theorem C11_code_test :
  ∀ base name, is_nonstrict_subaccount base name = true ↔ name = base ∨ ∃ rest, name = base +:+ ":" +:+ rest.
Proof. exact nonstrict_meaning. Qed.
Print Assumptions C11_code_test.

Example C11_example :
  under "Assets:Bank" "Assets:Bank" = true ∧ under "Assets:Bank" "Assets:Bank:Sub" = true ∧
  under "Assets:Bank" "Assets:Bank2" = false ∧ under "Assets:Bank:Sub" "Assets:Bank" = false.
Proof. by vm_compute. Qed.

(** ** C13: a pad makes its balance exact *)
Theorem C13_pad_makes_exact :
  ∀ P (L : booking_lib P) ord, (∀ m, ord m ≡ₚ map_to_list m) → lib_ok L →
  ∀ opt ds bs ws n k p m b bb,
    book L ord opt ds = BookSuccess bs ws → bs !! n = Some b → b_variant b = BVBalance bb →
    fills bs k n p m (bb_raw bb) → under (bal_acc (bb_raw bb)) (pad_source p) = false →
    (posted (in_subtree (bal_acc (bb_raw bb)) (bal_cur (bb_raw bb))) (visible bs n) ==
     dec_value (bal_units (bb_raw bb)))%Q.
Proof. exact @pad_exact. Qed.
Print Assumptions C13_pad_makes_exact.

(** In any run, also after errors: the next balance on the account is judged
    against the amount just asserted. *)
Theorem C13_next_balance_exact :
  ∀ P (L : booking_lib P) ord, (∀ m, ord m ≡ₚ map_to_list m) → lib_ok L → ∀ opt ds d1 d2 b1 b2,
    (∀ w, book L ord opt (ds ++ [d1; d2]) ≠ BookPanic w) →
    d_variant d1 = DBalance b1 → d_variant d2 = DBalance b2 →
    bal_acc b2 = bal_acc b1 → bal_cur b2 = bal_cur b1 →
    use_report (at_directive (length ds)) ds (bal_acc b1) (bal_cur b1) = None →
    let total := accumulated L ord opt ds (bal_acc b1) (bal_cur b1) in
    (balance_tolerance (lib_multiplier L) b1 < Qabs (dec_value (bal_units b1) - total))%Q →
    (∀ k dk p, pending ds (bal_acc b1) = Some k → ds !! k = Some dk → d_variant dk = DPad p →
       under (bal_acc b1) (pad_source p) = false) →
    let gap := (dec_value (bal_units b2) - dec_value (bal_units b1))%Q in
    let tol := balance_tolerance (lib_multiplier L) b2 in
    ((Qabs gap <= tol)%Q ∧
       reports_at (S (length ds)) (errors_of (book L ord opt (ds ++ [d1; d2]))) = []) ∨
    ((tol < Qabs gap)%Q ∧
       ∃ m r, reports_at (S (length ds)) (errors_of (book L ord opt (ds ++ [d1; d2]))) = [r] ∧
         balance_failure (S (length ds)) m (bal_cur b1) r ∧ (dec_value m == gap)%Q).
Proof. exact @balance_exact_after'. Qed.
Print Assumptions C13_next_balance_exact.

(** The balance at position 7 of the output of [ledger1] fills the pad at 4. *)
Example C13_example :
  ∃ b bb p m, booked1 !! 7 = Some b ∧ b_variant b = BVBalance bb ∧ fills booked1 4 7 p m (bb_raw bb) ∧
    under (bal_acc (bb_raw bb)) (pad_source p) = false ∧ (dec_value m == 15 # 2)%Q.
Proof. exact ledger1_fills. Qed.

(** ** C14: unused pads are errors *)
Theorem C14_pad_never_used :
  ∀ P (L : booking_lib P) ord, (∀ m, ord m ≡ₚ map_to_list m) → ∀ opt ds k d p,
    (∀ w, book L ord opt ds ≠ BookPanic w) → ds !! k = Some d → d_variant d = DPad p →
    usable (life (take k ds) (pad_acc p)) = true → pending (take k ds) (pad_acc p) = None →
    (∀ j, k < j → ¬ ends_wait ds (pad_acc p) j) →
    reports_at k (errors_of (book L ord opt ds)) =
      [Report "unused, no balance directive" (at_directive k) None None].
Proof. exact @pad_never_used'. Qed.
Print Assumptions C14_pad_never_used.

Theorem C14_second_pad :
  ∀ P (L : booking_lib P) ord, (∀ m, ord m ≡ₚ map_to_list m) → ∀ opt ds k d p j dj q,
    (∀ w, book L ord opt ds ≠ BookPanic w) → ds !! k = Some d → d_variant d = DPad p →
    usable (life (take k ds) (pad_acc p)) = true → pending (take k ds) (pad_acc p) = None →
    k < j → ends_wait ds (pad_acc p) j → (∀ i, k < i → i < j → ¬ ends_wait ds (pad_acc p) i) →
    ds !! j = Some dj → d_variant dj = DPad q →
    reports_at k (errors_of (book L ord opt ds)) =
      [Report "unused, second pad encountered" (at_directive k) (Some [at_directive j]) None] ∧
    reports_at j (errors_of (book L ord opt ds)) = [].
Proof. exact @pad_second'. Qed.
Print Assumptions C14_second_pad.

Theorem C14_pad_at_balance :
  ∀ P (L : booking_lib P) ord, (∀ m, ord m ≡ₚ map_to_list m) → lib_ok L → ∀ opt ds k d p j dj b,
    (∀ w, book L ord opt ds ≠ BookPanic w) → ds !! k = Some d → d_variant d = DPad p →
    usable (life (take k ds) (pad_acc p)) = true → pending (take k ds) (pad_acc p) = None →
    k < j → ends_wait ds (pad_acc p) j → (∀ i, k < i → i < j → ¬ ends_wait ds (pad_acc p) i) →
    ds !! j = Some dj → d_variant dj = DBalance b →
    let diff := (dec_value (bal_units b) - accumulated L ord opt (take j ds) (bal_acc b) (bal_cur b))%Q in
    let tol := balance_tolerance (lib_multiplier L) b in
    ((Qabs diff <= tol)%Q ∧ reports_at k (errors_of (book L ord opt ds)) = [unneeded_pad k]) ∨
    ((tol < Qabs diff)%Q ∧
       reports_at k (errors_of (book L ord opt ds)) = [] ∧
       reports_at j (errors_of (book L ord opt ds)) = []).
Proof. exact @pad_at_balance'. Qed.
Print Assumptions C14_pad_at_balance.

Theorem C14_no_unused_pad_on_success :
  ∀ P (L : booking_lib P) ord, (∀ m, ord m ≡ₚ map_to_list m) → ∀ opt ds bs ws k b p,
    book L ord opt ds = BookSuccess bs ws → bs !! k = Some b → b_variant b = BVPad p →
    ∃ j m bal, fills bs k j p m bal.
Proof. exact @success_pads_filled. Qed.
Print Assumptions C14_no_unused_pad_on_success.

(** What it means for a pad to be pending. *)
Theorem C14_pending_meaning :
  ∀ ds a k, pending ds a = Some k ↔ pad_accepted_at ds a k ∧ ∀ j, k < j → ¬ ends_wait ds a j.
Proof. exact pending_iff. Qed.
Print Assumptions C14_pending_meaning.

(** Pads at 3 and 4 on one account, a pad at 5 followed by a balance at 6 which
    needs no adjustment, and a pad at 7 which nothing follows. *)
Example C14_example :
  sample_run ledger_pads = BookFailure
    [Report "unused, second pad encountered" (at_directive 3) (Some [at_directive 4]) None;
     unneeded_pad 5; Report "unused, no balance directive" (at_directive 7) None None] ∧
  ends_wait ledger_pads "Assets:A" 4 ∧ ends_wait ledger_pads "Assets:B" 6 ∧
  usable (life (take 7 ledger_pads) "Assets:C") = true.
Proof.
  split; [vm_compute; reflexivity|]. split.
  { eexists. split; [reflexivity|]. split; [vm_compute; reflexivity|]. left. by eexists. }
  split; [|vm_compute; reflexivity].
  eexists. split; [reflexivity|]. split; [vm_compute; reflexivity|]. right. eexists.
  split; [reflexivity|]. split; [reflexivity|]. vm_compute. reflexivity.
Qed.

(** ** C15: every balance assertion holds of the final booked output

    Refuted: a pad on a sub-account is filled after a balance on the account. *)
Theorem C15_refuted :
  ∃ P (L : booking_lib P) ord opt ds bs ws n b bb,
    lib_ok L ∧ (∀ m, ord m ≡ₚ map_to_list m) ∧
    book L ord opt ds = BookSuccess bs ws ∧ bs !! n = Some b ∧ b_variant b = BVBalance bb ∧
    (balance_tolerance (lib_multiplier L) (bb_raw bb) <
     Qabs (dec_value (bal_units (bb_raw bb)) -
           posted (in_subtree (bal_acc (bb_raw bb)) (bal_cur (bb_raw bb))) (take n bs)))%Q.
Proof. exact late_pad_breaks_balance. Qed.
Print Assumptions C15_refuted.

(** Missing from the full statement: postings of pads filled after the balance
    are not counted. *)
Theorem C15_balances_hold_partial :
  ∀ P (L : booking_lib P) ord, (∀ m, ord m ≡ₚ map_to_list m) → lib_ok L → ∀ opt ds bs ws n b bb,
    book L ord opt ds = BookSuccess bs ws → bs !! n = Some b → b_variant b = BVBalance bb →
    assertion_met (lib_multiplier L) bs n (bb_raw bb).
Proof. exact @success_holds_at. Qed.
Print Assumptions C15_balances_hold_partial.

Example C15_example : ∃ b bb, booked1 !! 10 = Some b ∧ b_variant b = BVBalance bb ∧
  assertion_met None booked1 10 (bb_raw bb).
Proof.
  eexists _, _. split; [vm_compute; reflexivity|]. split; [reflexivity|].
  eapply (C15_balances_hold_partial _ sample_lib sample_ord sample_ord_perm sample_lib_ok _ _ _ _ 10 _ _ ledger1_books);
    vm_compute; reflexivity.
Qed.

(** ** C16: booking never panics

    Refuted: a balance consuming a pad whose source was never opened. *)
Theorem C16_refuted :
  ∃ P (L : booking_lib P) ord opt ds w,
    lib_ok L ∧ (∀ m, ord m ≡ₚ map_to_list m) ∧ book L ord opt ds = BookPanic w.
Proof. exact unopened_source_panics. Qed.
Print Assumptions C16_refuted.

(** Missing: ledgers in which the source of a pad has no open directive before a
    balance on the padded account. *)
Theorem C16_no_panic_partial :
  ∀ P (L : booking_lib P) ord opt ds, pad_sources_opened ds → ∀ w, book L ord opt ds ≠ BookPanic w.
Proof. exact @book_total. Qed.
Print Assumptions C16_no_panic_partial.

Theorem C16_panic_cause :
  ∀ P (L : booking_lib P) ord opt ds w,
    book L ord opt ds = BookPanic w →
    ∃ j dj b k dk p, ds !! j = Some dj ∧ d_variant dj = DBalance b ∧
      k < j ∧ ds !! k = Some dk ∧ d_variant dk = DPad p ∧ pad_acc p = bal_acc b ∧
      ∀ i o, i < j → ¬ opens_at ds i (pad_source p) o.
Proof. exact @book_panic. Qed.
Print Assumptions C16_panic_cause.

Example C16_example : pad_sources_opened ledger1.
Proof. exact ledger1_sources. Qed.

(** ** C17: pad postings go only to open accounts in allowed currencies

    Refuted: the source is closed before the pad, or does not allow the
    currency. *)
Theorem C17_refuted :
  ∃ P (L : booking_lib P) ord opt ds bs ws b p,
    lib_ok L ∧ (∀ m, ord m ≡ₚ map_to_list m) ∧
    book L ord opt ds = BookSuccess bs ws ∧ b ∈ bs ∧ p ∈ postings_of b ∧
    (∃ d, ds !! b_idx b = Some d ∧ is_pad d) ∧
    (∀ i o, ¬ open_before ds (b_idx b) (p_acc p) i o) ∧
    ∀ i o, opens_at ds i (p_acc p) o → ¬ allows o (p_cur p).
Proof. exact closed_source_accepted. Qed.
Print Assumptions C17_refuted.

(** Missing: the source need not be open at the pad, nor allow the currency. *)
Theorem C17_padded_account_open_partial :
  ∀ P (L : booking_lib P) ord opt ds bs ws k b p,
    (∀ m, ord m ≡ₚ map_to_list m) → lib_ok L →
    book L ord opt ds = BookSuccess bs ws → bs !! k = Some b → b_variant b = BVPad p →
    ∃ m cur b' i o, bs !! S k = Some b' ∧
      postings_of b' =
        [Posting None (Some "'P") (pad_acc p) m cur None None None None None;
         Posting None (Some "'P") (pad_source p) (dec_neg m) cur None None None None None] ∧
      open_before ds (b_idx b) (pad_acc p) i o ∧ allows o cur ∧
      ∃ i' o', opens_at ds i' (pad_source p) o'.
Proof. exact @pad_output. Qed.
Print Assumptions C17_padded_account_open_partial.

Example C17_example : ∃ b p, booked1 !! 4 = Some b ∧ b_variant b = BVPad p.
Proof. eexists _, _. split; vm_compute; reflexivity. Qed.

(** ** C18: balance failures are localised *)
Theorem C18_repeated_balance :
  ∀ P (L : booking_lib P) ord, (∀ m, ord m ≡ₚ map_to_list m) → lib_ok L → ∀ opt ds d1 d2 b,
    (∀ w, book L ord opt (ds ++ [d1; d2]) ≠ BookPanic w) →
    d_variant d1 = DBalance b → d_variant d2 = DBalance b →
    use_report (at_directive (length ds)) ds (bal_acc b) (bal_cur b) = None →
    pending ds (bal_acc b) = None → (0 <= balance_tolerance (lib_multiplier L) b)%Q →
    reports_at (S (length ds)) (errors_of (book L ord opt (ds ++ [d1; d2]))) = [].
Proof. exact @balance_repeated. Qed.
Print Assumptions C18_repeated_balance.

Example C18_example :
  let ds := take 4 ledger_off in let d := dir 4 (dbal "Assets:Bank" 702 2 "USD") in
  use_report (at_directive (length ds)) ds "Assets:Bank" "USD" = None ∧ pending ds "Assets:Bank" = None ∧
  ∃ r, sample_run (ds ++ [d; d]) = BookFailure [r] ∧ r_idx r = at_directive 4.
Proof.
  split; [vm_compute; reflexivity|]. split; [vm_compute; reflexivity|]. eexists.
  split; vm_compute; reflexivity.
Qed.

(** ** C19: a rejected transaction has no effect

    Also for refused opens, closes, pads and balances (see [refused]). *)
Theorem C19_rejected_without_effect :
  ∀ P (L : booking_lib P), lib_ext L → ∀ ord, (∀ m, ord m ≡ₚ map_to_list m) → ∀ opt ds d ds',
    lib_ok L →
    (∃ t, d_variant d = DTransaction t) ∨ refused ds (d_variant d) →
    reports_at (length ds) (errors_of (book L ord opt (ds ++ [d]))) ≠ [] →
    ∃ r, reports_at (length ds) (errors_of (book L ord opt (ds ++ [d]))) = [r] ∧
    match book L ord opt (ds ++ ds') with
    | BookPanic w => book L ord opt (ds ++ d :: ds') = BookPanic w
    | res => ∃ errs, book L ord opt (ds ++ d :: ds') = BookFailure errs ∧
               errs ≡ₚ r :: (shift_report (length ds) <$> errors_of res)
    end.
Proof. exact @rejected_no_effect. Qed.
Print Assumptions C19_rejected_without_effect.

(** A transaction on an account never opened, in the middle of [ledger2]. *)
Example C19_example :
  let d := dir 3 (txn [post "Assets:Nowhere" 5 "USD"; post "Assets:Bank" (-5) "USD"]) in
  lib_ext sample_lib ∧
  reports_at 3 (errors_of (sample_run (take 3 ledger2 ++ [d]))) ≠ [] ∧
  ∃ r, sample_run (take 3 ledger2 ++ d :: drop 3 ledger2) = BookFailure [r].
Proof.
  split; [exact sample_lib_ext|]. split; [vm_compute; discriminate|]. eexists. vm_compute. reflexivity.
Qed.

(** ** C20: hash iteration order is not observable *)
Theorem C20_order_independent :
  ∀ P (L : booking_lib P), lib_ext L → ∀ ord1 ord2 opt ds,
    (∀ m, ord1 m ≡ₚ map_to_list m) → (∀ m, ord2 m ≡ₚ map_to_list m) →
    match book L ord1 opt ds, book L ord2 opt ds with
    | BookSuccess bs ws, BookSuccess bs' ws' => bs = bs' ∧ ws = ws'
    | BookFailure e, BookFailure e' => ∃ es t t', e = es ++ t ∧ e' = es ++ t' ∧ t ≡ₚ t' ∧
        ∀ r, r ∈ t → r_reason r = "unused, no balance directive"
    | BookPanic w, BookPanic w' => w = w'
    | _, _ => False
    end.
Proof. exact @order_independent. Qed.
Print Assumptions C20_order_independent.

(** Two pads left over are reported in different orders. *)
Example C20_example :
  (∀ m, reverse_ord m ≡ₚ map_to_list m) ∧
  ∃ r1 r2, book sample_lib sample_ord None ledger_two_pads = BookFailure [r1; r2] ∧
    book sample_lib reverse_ord None ledger_two_pads = BookFailure [r2; r1] ∧ r_idx r1 ≠ r_idx r2.
Proof.
  split; [exact reverse_ord_perm|]. eexists _, _. split; [vm_compute; reflexivity|].
  split; [vm_compute; reflexivity|]. vm_compute. discriminate.
Qed.

(** ** C21: error locations are always resolvable *)
Theorem C21_errors_located :
  ∀ P (L : booking_lib P) ord opt ds errs,
    (∀ m, ord m ≡ₚ map_to_list m) → book L ord opt ds = BookFailure errs →
    Forall (λ r, element_of ds (r_idx r) ∧ ∀ l e, r_related r = Some l → e ∈ l → element_of ds e) errs ∧
    (spans_present ds →
     ∃ ss, create_reports_from_booking_errors errs ds = Some ss ∧ Forall2 (spans_report ds) errs ss).
Proof. exact @errors_located. Qed.
Print Assumptions C21_errors_located.

(** [ledger_bad] with spans. *)
Example C21_example :
  spans_present ledger_spanned ∧
  ∃ errs ss, sample_run ledger_spanned = BookFailure errs ∧
    create_reports_from_booking_errors errs ledger_spanned = Some ss ∧
    length ss = 8 ∧
    sr_span <$> ss !! 4 = Some (Span 0 701 702) ∧
    sr_contexts <$> ss !! 4 = Some (Some [("transaction", Span 0 70 79)]) ∧
    sr_related <$> ss !! 4 = Some (Some [("close", Span 0 30 39)]).
Proof.
  split; [exact ledger_spanned_spans|]. eexists _, _. split; [vm_compute; reflexivity|].
  split; [vm_compute; reflexivity|]. vm_compute. repeat split; reflexivity.
Qed.

(** ** C22: balance error diagnostics *)
Theorem C22_failure_table :
  ∀ P (L : booking_lib P) ord, (∀ m, ord m ≡ₚ map_to_list m) → ∀ opt ds k d b,
    (∀ w, book L ord opt ds ≠ BookPanic w) → ds !! k = Some d → d_variant d = DBalance b →
    use_report (at_directive k) (take k ds) (bal_acc b) (bal_cur b) = None →
    ∀ r, r ∈ reports_at k (errors_of (book L ord opt ds)) →
    failure_table b (booked_so_far L ord opt (take k ds)) r.
Proof. exact @balance_table'. Qed.
Print Assumptions C22_failure_table.

(** The table of the second balance of [ledger_table] starts at the first. *)
Example C22_example :
  ∃ r rows, reports_at 6 (errors_of (sample_run ledger_table)) = [r] ∧ r_annotation r = Some rows ∧
    (dr_acc <$> rows) = [Some ""; Some ":Sub"] ∧
    (dr_total <$> rows) = [Dec 10 0; Dec 14 0].
Proof. eexists _, _. split; [vm_compute; reflexivity|]. split; [reflexivity|]. by vm_compute. Qed.

(** ** C23: the accumulated total in a balance error is in the asserted currency

    Refuted: units of all currencies are added up. *)
Theorem C23_refuted :
  ∃ P (L : booking_lib P) ord opt ds k b r total m,
    lib_ok L ∧ (∀ m, ord m ≡ₚ map_to_list m) ∧
    d_variant <$> ds !! k = Some (DBalance b) ∧
    reports_at k (errors_of (book L ord opt ds)) = [r] ∧
    r_reason r = "accumulated " +:+ dec_to_string total +:+ ", error " +:+
                 dec_to_string m +:+ " " +:+ bal_cur b ∧
    (∀ d b', d ∈ take k ds → d_variant d ≠ DBalance b') ∧
    ¬ (dec_value total ==
       posted (in_subtree (bal_acc b) (bal_cur b)) (booked_so_far L ord opt (take k ds)))%Q.
Proof. exact mixed_currencies_added. Qed.
Print Assumptions C23_refuted.

(** Missing: postings in other currencies since the last assertion. *)
Theorem C23_one_currency_partial :
  ∀ P (L : booking_lib P) ord, (∀ m, ord m ≡ₚ map_to_list m) → ∀ opt ds k d b,
    (∀ w, book L ord opt ds ≠ BookPanic w) → ds !! k = Some d → d_variant d = DBalance b →
    use_report (at_directive k) (take k ds) (bal_acc b) (bal_cur b) = None →
    ∀ r, r ∈ reports_at k (errors_of (book L ord opt ds)) →
    ∃ prev w total m, since_balance (bal_acc b) (booked_so_far L ord opt (take k ds)) prev w ∧
      r_reason r = "accumulated " +:+ dec_to_string total +:+ ", error " +:+
                   dec_to_string m +:+ " " +:+ bal_cur b ∧
      ((∀ x, x ∈ touching (bal_acc b) w → p_cur x.1.2 = bal_cur b) →
       (dec_value total == start_total prev (bal_cur b) +
                           posted (in_subtree (bal_acc b) (bal_cur b)) w)%Q).
Proof. exact @failure_total'. Qed.
Print Assumptions C23_one_currency_partial.
(** The second balance of [ledger_table]: 14 on the account and its sub-account. *)
Example C23_example :
  (∀ w, sample_run ledger_table ≠ BookPanic w) ∧ (∃ b, d_variant <$> ledger_table !! 6 = Some (DBalance b) ∧
    use_report (at_directive 6) (take 6 ledger_table) (bal_acc b) (bal_cur b) = None ∧
    forallb (λ x, String.eqb (p_cur x.1.2) (bal_cur b)) (touching (bal_acc b) (booked_so_far sample_lib sample_ord None (take 6 ledger_table))) = true) ∧
  r_reason <$> reports_at 6 (errors_of (sample_run ledger_table)) = ["accumulated 14, error -13 USD"].
Proof. split; [by vm_compute|]. split; [eexists; split; [vm_compute; reflexivity|]; by vm_compute|]. by vm_compute. Qed.

(** ** C24: booking method resolution *)

(** The method with which the library is called for a transaction is in
    [C07_postings_traced] and [C06_transactions_reported].  The cases of
    [method_for]: *)
Theorem C24_method_resolution :
  ∀ P (L : booking_lib P) opt ds a,
    (∀ i o b, first_open ds a i o → op_booking o = Some b → lib_supported L (same_method b) = true →
       method_for L opt ds a = same_method b) ∧
    (∀ i o b, first_open ds a i o → op_booking o = Some b → lib_supported L (same_method b) = false →
       method_for L opt ds a = lib_default_booking L) ∧
    ((∀ i o, first_open ds a i o → op_booking o = None) →
       (∀ b, opt = Some b → lib_supported L (same_method b) = true →
          method_for L opt ds a = same_method b) ∧
       ((∀ b, opt = Some b → lib_supported L (same_method b) = false) →
          method_for L opt ds a = lib_default_booking L)).
Proof. exact @method_cases. Qed.
Print Assumptions C24_method_resolution.

Theorem C24_warnings :
  ∀ P (L : booking_lib P) ord opt ds bs ws,
    lib_supported L (lib_default_booking L) = true →
    book L ord opt ds = BookSuccess bs ws → ws = concat (imap (warnings_at L) ds).
Proof. exact @success_warnings. Qed.
Print Assumptions C24_warnings.

Example C24_example :
  ∃ bs ws, sample_run [dir 1 (DOpen (Open "Assets:A" None (Some BAverage)))] = BookSuccess bs ws ∧
    length ws = 2 ∧ lib_supported sample_lib (lib_default_booking sample_lib) = true ∧
    method_for sample_lib (Some BFifo) [dir 1 (DOpen (Open "Assets:A" None (Some BAverage)))] "Assets:A" = LStrict ∧
    method_for sample_lib (Some BFifo) [dir 1 (DOpen (Open "Assets:A" None (Some BLifo)))] "Assets:A" = LLifo ∧
    method_for sample_lib (Some BFifo) [dir 1 (DOpen (Open "Assets:A" None None))] "Assets:A" = LFifo.
Proof. eexists _, _. split; [vm_compute; reflexivity|]. by vm_compute. Qed.
