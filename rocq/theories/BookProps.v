(** Properties of booking.  Each theorem is closed by a lemma proved elsewhere;
    each is followed by a concrete case meeting its hypotheses. *)
From Coq Require Import Ascii QArith Qabs.
From stdpp Require Import prelude gmap strings.
From Verif Require Import DecModel LedgerTypes BookModel BookSpec BookLib BookUnits BookPads BookFacts
  SampleLib SampleLedgers.
Local Open Scope nat_scope.

(** ** C01: booked output mirrors the ledger *)
Theorem C01_output_mirrors_ledger :
  ∀ P (L : booking_lib P) ord opt ds bs ws,
    book L ord opt ds = BookSuccess bs ws → mirrors 0 ds bs.
Proof. exact @success_mirrors. Qed.
Print Assumptions C01_output_mirrors_ledger.

Example C01_example : mirrors 0 ledger1 booked1 ∧ length ledger1 = 12 ∧ length booked1 = 13.
Proof. split; [exact (C01_output_mirrors_ledger _ _ _ _ _ _ _ ledger1_books)|done]. Qed.

(** ** C02: booking is all-or-nothing

    Each directive contributes its own errors [es !! k], whatever follows it.
    Booking the first [k] directives fails, with the errors of these and a report
    for each pad then pending, unless there are none. *)
Theorem C02_all_or_nothing :
  ∀ P (L : booking_lib P) ord, (∀ m, ord m ≡ₚ map_to_list m) → ∀ opt ds,
    (∀ w, book L ord opt ds ≠ BookPanic w) →
    ∃ es : list (list report), length es = length ds ∧
      ∀ k, k <= length ds → ∃ trail, trail ≡ₚ unused_reports (take k ds) ∧
        ((concat (take k es) ++ trail = [] ∧ ∃ bs ws, book L ord opt (take k ds) = BookSuccess bs ws) ∨
         (concat (take k es) ++ trail ≠ [] ∧
            book L ord opt (take k ds) = BookFailure (concat (take k es) ++ trail))).
Proof. exact @book_outcome. Qed.
Print Assumptions C02_all_or_nothing.

Example C02_example :
  (∀ w, sample_run ledger1 ≠ BookPanic w) ∧
  (∃ e, sample_run (take 5 ledger1) = BookFailure [e]) ∧
  sample_run ledger1 = BookSuccess booked1 [].
Proof.
  split; [by rewrite ledger1_books|]. split; [|exact ledger1_books].
  eexists. vm_compute. reflexivity.
Qed.

(** ** C03, C04: postings of user transactions *)
Theorem C03_postings_to_open_accounts :
  ∀ P (L : booking_lib P) ord opt ds bs ws b d t p,
    book L ord opt ds = BookSuccess bs ws →
    b ∈ bs → ds !! b_idx b = Some d → d_variant d = DTransaction t → p ∈ postings_of b →
    ∃ i o, open_before ds (b_idx b) (p_acc p) i o ∧ allows o (p_cur p).
Proof. exact @success_posting_open. Qed.
Print Assumptions C03_postings_to_open_accounts.

Theorem C04_balances_in_allowed_currencies :
  ∀ P (L : booking_lib P) ord opt ds bs ws k d b,
    book L ord opt ds = BookSuccess bs ws → ds !! k = Some d → d_variant d = DBalance b →
    ∃ i o, open_before ds k (bal_acc b) i o ∧ allows o (bal_cur b).
Proof. exact @success_balance_open. Qed.
Print Assumptions C04_balances_in_allowed_currencies.

Example C03_example :
  ∃ b d t p, b ∈ booked1 ∧ ledger1 !! b_idx b = Some d ∧ d_variant d = DTransaction t ∧
    p ∈ postings_of b ∧ p_acc p = "Assets:Bank" ∧ p_cur p = "USD".
Proof.
  exists (nth 9 booked1 (BDirective 0 (day 1) None None None (BVClose ""))). eexists _, _, _.
  split; [apply (elem_of_list_lookup_2 _ 9); vm_compute; reflexivity|].
  split; [vm_compute; reflexivity|]. split; [vm_compute; reflexivity|].
  split; [vm_compute; left|]. done.
Qed.

Example C04_example : ∃ d b, ledger1 !! 6 = Some d ∧ d_variant d = DBalance b ∧ bal_cur b = "USD" ∧
  ∃ o, opens_at ledger1 0 (bal_acc b) o ∧ ¬ allows o "GBP".
Proof.
  eexists _, _. split; [reflexivity|]. split; [reflexivity|]. split; [reflexivity|].
  eexists. split; [by eexists|]. cbn. set_solver.
Qed.

(** ** C05: lifecycle discipline *)
Theorem C05_opened_at_most_once :
  ∀ P (L : booking_lib P) ord opt ds bs ws a i j o o',
    book L ord opt ds = BookSuccess bs ws → opens_at ds i a o → opens_at ds j a o' → i = j.
Proof. exact @success_opens_once. Qed.
Print Assumptions C05_opened_at_most_once.

Theorem C05_closed_at_most_once :
  ∀ P (L : booking_lib P) ord opt ds bs ws a i j,
    book L ord opt ds = BookSuccess bs ws → closes_at ds i a → closes_at ds j a → i = j.
Proof. exact @success_closes_once. Qed.
Print Assumptions C05_closed_at_most_once.

Theorem C05_closed_while_open :
  ∀ P (L : booking_lib P) ord opt ds bs ws a k,
    book L ord opt ds = BookSuccess bs ws → closes_at ds k a → ∃ i o, open_before ds k a i o.
Proof. exact @success_close_open. Qed.
Print Assumptions C05_closed_while_open.

Theorem C05_pads_on_open_accounts :
  ∀ P (L : booking_lib P) ord opt ds bs ws k d p,
    book L ord opt ds = BookSuccess bs ws → ds !! k = Some d → d_variant d = DPad p →
    ∃ i o, open_before ds k (pad_acc p) i o.
Proof. exact @success_pad_open. Qed.
Print Assumptions C05_pads_on_open_accounts.

Example C05_example :
  closes_at ledger1 10 "Assets:Bank2" ∧ (∃ o, open_before ledger1 10 "Assets:Bank2" 2 o) ∧
  (∃ d p, ledger1 !! 4 = Some d ∧ d_variant d = DPad p).
Proof.
  split; [by eexists|]. split.
  - eexists. split; [lia|]. split; [by eexists|]. intros j H1 H2 (d & Hd & Hv).
    do 10 (destruct j as [|j]; [by inversion Hd; subst|]). lia.
  - by eexists _, _.
Qed.

(** ** C08: balance assertions hold of the booked output, without pads *)
Theorem C08_balances_hold_without_pads :
  ∀ P (L : booking_lib P) ord, (∀ m, ord m ≡ₚ map_to_list m) → lib_ok L →
  ∀ opt ds bs ws n b bb,
    book L ord opt ds = BookSuccess bs ws → (∀ d, d ∈ ds → ¬ is_pad d) →
    bs !! n = Some b → b_variant b = BVBalance bb →
    (Qabs (dec_value (bal_units (bb_raw bb)) -
           posted (in_subtree (bal_acc (bb_raw bb)) (bal_cur (bb_raw bb))) (take n bs))
     <= balance_tolerance (lib_multiplier L) (bb_raw bb))%Q.
Proof. exact @success_balance_no_pads. Qed.
Print Assumptions C08_balances_hold_without_pads.

(** 7.01 is asserted of 7, which is within the tolerance of 0.01. *)
Example C08_example :
  lib_ok sample_lib ∧ (∀ m, sample_ord m ≡ₚ map_to_list m) ∧
  book sample_lib sample_ord None ledger2 = BookSuccess booked2 [] ∧
  (∀ d, d ∈ ledger2 → ¬ is_pad d) ∧
  ∃ b bb, booked2 !! 4 = Some b ∧ b_variant b = BVBalance bb ∧
    (Qabs (dec_value (bal_units (bb_raw bb)) -
           posted (in_subtree (bal_acc (bb_raw bb)) (bal_cur (bb_raw bb))) (take 4 booked2)) == 1 # 100)%Q.
Proof.
  split; [exact sample_lib_ok|]. split; [exact sample_ord_perm|]. split; [exact ledger2_books|].
  split; [by unfold ledger2; intros d Hd [p Hp]; repeat (apply elem_of_cons in Hd as [->|Hd]; [done|]); apply elem_of_nil in Hd|].
  eexists _, _. split; [vm_compute; reflexivity|]. split; [vm_compute; reflexivity|]. vm_compute. reflexivity.
Qed.

(** ** C10: tolerance *)
Theorem C10_tolerance :
  ∀ P (L : booking_lib P) b,
    (dec_value (effective_tolerance L b) == balance_tolerance (lib_multiplier L) b)%Q.
Proof. exact @effective_tolerance_value. Qed.
Print Assumptions C10_tolerance.

Example C10_example :
  (balance_tolerance None (Balance "A" (Dec 701 2) "USD" None) == 1 # 100)%Q ∧
  (balance_tolerance (Some (Dec 12 1)) (Balance "A" (Dec 701 2) "USD" None) == 24 # 1000)%Q ∧
  (balance_tolerance None (Balance "A" (Dec 7 0) "USD" None) == 0)%Q ∧
  (balance_tolerance None (Balance "A" (Dec 7 0) "USD" (Some (Dec 3 1))) == 3 # 10)%Q.
Proof. by vm_compute. Qed.

(** ** C12, C13: pads *)
Theorem C12_pads_are_filled :
  ∀ P (L : booking_lib P) ord opt ds bs ws k b p,
    (∀ m, ord m ≡ₚ map_to_list m) →
    book L ord opt ds = BookSuccess bs ws → bs !! k = Some b → b_variant b = BVPad p →
    ∃ m cur b', bs !! S k = Some b' ∧ b_idx b' = b_idx b ∧
      b_variant b' = BVTransaction (BTransaction "'P" None None
        [Posting None (Some "'P") (pad_acc p) m cur None None None None None;
         Posting None (Some "'P") (pad_source p) (dec_neg m) cur None None None None None]).
Proof. exact @success_pad_filled. Qed.
Print Assumptions C12_pads_are_filled.

Example C12_example : ∃ b p, booked1 !! 4 = Some b ∧ b_variant b = BVPad p ∧ pad_acc p = "Assets:Bank".
Proof. eexists _, _. split; [vm_compute; reflexivity|]. split; vm_compute; reflexivity. Qed.
