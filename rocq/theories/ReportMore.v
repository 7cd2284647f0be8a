(** Restatements of the report lemmas without accumulator states. *)
From Coq Require Import Ascii QArith Qabs.
From stdpp Require Import prelude gmap strings.
From Verif Require Import DecModel LedgerTypes BookModel BookSpec BookLib ReportSpec SoFar
  BookSteps BookInv BookWf BookLife BookUnits BookPend BookSuccess BookPads BookFacts BookReports BookLocate
  ReportFacts BookTotal BookExtend BookWindow BookOutput LedgerMeaning.
Local Open Scope nat_scope.

Section More.
Context {P : Type} (L : booking_lib P).
Context (ord : gmap string (account P) → list (string * account P)).
Notation book := (book L ord).

Lemma booked_so_far_run opt ds c : run L ord opt ds = CRun c → booked_so_far L ord opt ds = c_booked c.
Proof. unfold booked_so_far. by intros ->. Qed.

Lemma booked_so_far_success opt ds bs ws :
  book opt ds = BookSuccess bs ws → booked_so_far L ord opt ds = bs.
Proof.
  intros (c & Hr & _ & <- & _)%book_success_run. by apply booked_so_far_run.
Qed.

Context (Hord : ∀ m, ord m ≡ₚ map_to_list m) (Hlib : lib_ok L).

Lemma balance_decided' opt ds k d b :
  (∀ w, book opt ds ≠ BookPanic w) → ds !! k = Some d → d_variant d = DBalance b →
  use_report (at_directive k) (take k ds) (bal_acc b) (bal_cur b) = None →
  pending (take k ds) (bal_acc b) = None →
  let diff := (dec_value (bal_units b) - accumulated L ord opt (take k ds) (bal_acc b) (bal_cur b))%Q in
  let tol := balance_tolerance (lib_multiplier L) b in
  ((Qabs diff <= tol)%Q ∧ reports_at k (errors_of (book opt ds)) = []) ∨
  ((tol < Qabs diff)%Q ∧
     ∃ m r, reports_at k (errors_of (book opt ds)) = [r] ∧ balance_failure k m (bal_cur b) r ∧
       (dec_value m == diff)%Q).
Proof.
  intros Hnp Hd Hv Hu Hp. destruct (balance_decided L ord Hord Hlib opt ds k d b) as (c1 & Hr & H); try done.
  unfold accumulated. by rewrite (booked_so_far_run _ _ _ Hr).
Qed.

Lemma pad_at_balance' opt ds k d p j dj b :
  (∀ w, book opt ds ≠ BookPanic w) → ds !! k = Some d → d_variant d = DPad p →
  usable (life (take k ds) (pad_acc p)) = true → pending (take k ds) (pad_acc p) = None →
  k < j → ends_wait ds (pad_acc p) j → (∀ i, k < i → i < j → ¬ ends_wait ds (pad_acc p) i) →
  ds !! j = Some dj → d_variant dj = DBalance b →
  let diff := (dec_value (bal_units b) - accumulated L ord opt (take j ds) (bal_acc b) (bal_cur b))%Q in
  let tol := balance_tolerance (lib_multiplier L) b in
  ((Qabs diff <= tol)%Q ∧ reports_at k (errors_of (book opt ds)) = [unneeded_pad k]) ∨
  ((tol < Qabs diff)%Q ∧
     reports_at k (errors_of (book opt ds)) = [] ∧ reports_at j (errors_of (book opt ds)) = []).
Proof.
  intros H1 H2 H3 H4 H5 H6 H7 H8 H9 H10.
  destruct (pad_at_balance L ord Hord Hlib opt ds k d p j dj b) as (c1 & Hr & H'); try done.
  unfold accumulated. by rewrite (booked_so_far_run _ _ _ Hr).
Qed.

Lemma balance_table' opt ds k d b :
  (∀ w, book opt ds ≠ BookPanic w) → ds !! k = Some d → d_variant d = DBalance b →
  use_report (at_directive k) (take k ds) (bal_acc b) (bal_cur b) = None →
  ∀ r, r ∈ reports_at k (errors_of (book opt ds)) →
  failure_table b (booked_so_far L ord opt (take k ds)) r.
Proof.
  intros Hnp Hd Hv Hu r Hr. destruct (balance_table L ord Hord opt ds k d b) with (r := r) as (c1 & H1 & H); try done.
  by rewrite (booked_so_far_run _ _ _ H1).
Qed.

Lemma transaction_booked' opt ds bs ws b d t :
  book opt ds = BookSuccess bs ws → b ∈ bs → ds !! b_idx b = Some d → d_variant d = DTransaction t →
  ∃ inv meth ips upd groups,
    lib_book L (d_date d) (tx_postings t) inv meth = LibOk ips upd ∧
    (∀ a, meth a = method_for L opt (take (b_idx b) ds) a) ∧
    (∀ a, is_Some (inv a) ↔ ∃ i o, opens_at (take (b_idx b) ds) i a o) ∧
    (∀ a p cur, inv a = Some p →
       held L p cur == posted (to_account a cur) (booked_so_far L ord opt (take (b_idx b) ds)))%Q ∧
    postings_of b = concat groups ∧
    length ips = length (tx_postings t) ∧ length groups = length (tx_postings t) ∧
    ∀ i ps ip g, tx_postings t !! i = Some ps → ips !! i = Some ip → groups !! i = Some g →
      expansion i ps ip g.
Proof.
  intros H1 H2 H3 H4.
  destruct (transaction_booked L ord opt ds bs ws b d t) as (inv & meth & ips & upd & groups & c1 & Hr & H); try done.
  exists inv, meth, ips, upd, groups. by rewrite (booked_so_far_run _ _ _ Hr).
Qed.

Lemma balance_exact_after' opt ds d1 d2 b1 b2 :
  (∀ w, book opt (ds ++ [d1; d2]) ≠ BookPanic w) →
  d_variant d1 = DBalance b1 → d_variant d2 = DBalance b2 →
  bal_acc b2 = bal_acc b1 → bal_cur b2 = bal_cur b1 →
  use_report (at_directive (length ds)) ds (bal_acc b1) (bal_cur b1) = None →
  let total := accumulated L ord opt ds (bal_acc b1) (bal_cur b1) in
  (balance_tolerance (lib_multiplier L) b1 < Qabs (dec_value (bal_units b1) - total))%Q →
  (∀ k dk p, pending ds (bal_acc b1) = Some k → ds !! k = Some dk → d_variant dk = DPad p →
     under (bal_acc b1) (pad_source p) = false) →
  let gap := (dec_value (bal_units b2) - dec_value (bal_units b1))%Q in
  let tol := balance_tolerance (lib_multiplier L) b2 in
  ((Qabs gap <= tol)%Q ∧ reports_at (S (length ds)) (errors_of (book opt (ds ++ [d1; d2]))) = []) ∨
  ((tol < Qabs gap)%Q ∧
     ∃ m r, reports_at (S (length ds)) (errors_of (book opt (ds ++ [d1; d2]))) = [r] ∧
       balance_failure (S (length ds)) m (bal_cur b1) r ∧ (dec_value m == gap)%Q).
Proof.
  intros H1 H2 H3 H4 H5 H6. 
  destruct (balance_exact_after L ord Hord Hlib opt ds d1 d2 b1 b2) as (c & Hr & H & _); try done.
  unfold accumulated. rewrite (booked_so_far_run _ _ _ Hr). by apply H.
Qed.

Lemma accumulated_success opt ds bs ws base cur :
  book opt ds = BookSuccess bs ws → (accumulated L ord opt ds base cur == posted (in_subtree base cur) bs)%Q.
Proof.
  intros Hb. unfold accumulated. rewrite (booked_so_far_success _ _ _ _ Hb).
  destruct (book_success_run _ _ _ _ _ _ Hb) as (c & Hr & He & <- & _).
  rewrite corrections_none; [ring|]. by eapply success_no_margin.
Qed.

(** Totals are in the asserted currency when all postings since the last
    assertion are. *)
Lemma failure_total b bs r :
  failure_table b bs r →
  ∃ prev w total m, since_balance (bal_acc b) bs prev w ∧
    r_reason r = "accumulated " +:+ dec_to_string total +:+ ", error " +:+
                 dec_to_string m +:+ " " +:+ bal_cur b ∧
    ((∀ x, x ∈ touching (bal_acc b) w → p_cur x.1.2 = bal_cur b) →
     (dec_value total == start_total prev (bal_cur b) +
                         posted (in_subtree (bal_acc b) (bal_cur b)) w)%Q).
Proof.
  intros (prev & w & total & m & rows & Hs & Hre & _ & _ & Ht).
  exists prev, w, total, m. split; [done|]. split; [done|]. intros Hc. rewrite Ht.
  apply Qplus_inj_l. clear -Hc. unfold posted, units_in.
  induction w as [|x w IH]; [done|].
  rewrite touching_cons in *. rewrite fmap_app. cbn [mbind list_bind].
  rewrite filter_app, fmap_app.
  rewrite !Qsum_app. rewrite IH by (intros; apply Hc, elem_of_app; by right).
  assert (Hx : ∀ y, y ∈ touching (bal_acc b) [x] → p_cur y.1.2 = bal_cur b)
    by (intros; apply Hc, elem_of_app; by left).
  clear -Hx. apply Qplus_inj_r. revert Hx. unfold touching, postings_of. cbn. rewrite app_nil_r.
  destruct (b_variant x) as [t| | | | | | | | | | |]; try done. cbn.
  induction (bt_postings t) as [|p l IH]; [done|]. intros Hx.
  destruct (under (bal_acc b) (p_acc p)) eqn:Hu.
  - rewrite filter_cons_True in Hx by done. 
    assert (Hp : p_cur p = bal_cur b).
    { apply (Hx (b_date x, p, match bt_payee t with Some x0 => Some x0 | None => bt_narration t end)). left. }
    rewrite (filter_cons_True _ _ l Hu).
    rewrite (filter_cons_True (λ p0, in_subtree (bal_acc b) (bal_cur b) p0 = true))
      by (unfold in_subtree; by rewrite Hu, Hp, String.eqb_refl).
    rewrite !fmap_cons, !Qsum_cons. rewrite IH; [done|]. intros y Hy. apply Hx. by right.
  - rewrite filter_cons_False in Hx by congruence.
    rewrite (filter_cons_False _ _ l) by congruence.
    rewrite (filter_cons_False (λ p0, in_subtree (bal_acc b) (bal_cur b) p0 = true))
      by (unfold in_subtree; by rewrite Hu).
    by apply IH.
Qed.

Lemma others_not_reported opt ds k d :
  (∀ w, book opt ds ≠ BookPanic w) → ds !! k = Some d →
  (∀ t, d_variant d ≠ DTransaction t) → (∀ b, d_variant d ≠ DBalance b) →
  (∀ o, d_variant d ≠ DOpen o) → (∀ a, d_variant d ≠ DClose a) → (∀ p, d_variant d ≠ DPad p) →
  reports_at k (errors_of (book opt ds)) = [].
Proof.
  intros Hnp Hd H1 H2 H3 H4 H5.
  assert (∃ bv, passive_copy (d_variant d) = Some bv) as [bv Hbv].
  { destruct (d_variant d) as [t|pr|b|o|a|cu|p|a pa|a co|ty de|n co|cu]; eauto; exfalso.
    - by apply (H1 t).
    - by apply (H2 b).
    - by apply (H3 o).
    - by apply (H4 a).
    - by apply (H5 p). }
  by eapply passive_reported.
Qed.

Lemma pad_never_used' opt ds k d p :
  (∀ w, book opt ds ≠ BookPanic w) → ds !! k = Some d → d_variant d = DPad p →
  usable (life (take k ds) (pad_acc p)) = true → pending (take k ds) (pad_acc p) = None →
  (∀ j, k < j → ¬ ends_wait ds (pad_acc p) j) →
  reports_at k (errors_of (book opt ds)) =
    [Report "unused, no balance directive" (at_directive k) None None].
Proof. intros. by eapply pad_never_used. Qed.

Lemma pad_second' opt ds k d p j dj q :
  (∀ w, book opt ds ≠ BookPanic w) → ds !! k = Some d → d_variant d = DPad p →
  usable (life (take k ds) (pad_acc p)) = true → pending (take k ds) (pad_acc p) = None →
  k < j → ends_wait ds (pad_acc p) j → (∀ i, k < i → i < j → ¬ ends_wait ds (pad_acc p) i) →
  ds !! j = Some dj → d_variant dj = DPad q →
  reports_at k (errors_of (book opt ds)) =
    [Report "unused, second pad encountered" (at_directive k) (Some [at_directive j]) None] ∧
  reports_at j (errors_of (book opt ds)) = [].
Proof. intros. by eapply pad_second. Qed.

Lemma failure_total' opt ds k d b :
  (∀ w, book opt ds ≠ BookPanic w) → ds !! k = Some d → d_variant d = DBalance b →
  use_report (at_directive k) (take k ds) (bal_acc b) (bal_cur b) = None →
  ∀ r, r ∈ reports_at k (errors_of (book opt ds)) →
  ∃ prev w total m, since_balance (bal_acc b) (booked_so_far L ord opt (take k ds)) prev w ∧
    r_reason r = "accumulated " +:+ dec_to_string total +:+ ", error " +:+
                 dec_to_string m +:+ " " +:+ bal_cur b ∧
    ((∀ x, x ∈ touching (bal_acc b) w → p_cur x.1.2 = bal_cur b) →
     (dec_value total == start_total prev (bal_cur b) +
                         posted (in_subtree (bal_acc b) (bal_cur b)) w)%Q).
Proof. intros. apply failure_total. by eapply balance_table'. Qed.

End More.

Lemma method_cases {P} (L : booking_lib P) opt ds a :
  (∀ i o b, first_open ds a i o → op_booking o = Some b → lib_supported L (same_method b) = true →
     method_for L opt ds a = same_method b) ∧
  (∀ i o b, first_open ds a i o → op_booking o = Some b → lib_supported L (same_method b) = false →
     method_for L opt ds a = lib_default_booking L) ∧
  ((∀ i o, first_open ds a i o → op_booking o = None) →
     (∀ b, opt = Some b → lib_supported L (same_method b) = true →
        method_for L opt ds a = same_method b) ∧
     ((∀ b, opt = Some b → lib_supported L (same_method b) = false) →
        method_for L opt ds a = lib_default_booking L)).
Proof.
  unfold method_for. split; [|split].
  - intros i o b Ho Hb Hs. apply opening_iff in Ho. by rewrite Ho, Hb, Hs.
  - intros i o b Ho Hb Hs. apply opening_iff in Ho. by rewrite Ho, Hb, Hs.
  - intros Hn. destruct (opening ds a) as [[i o]|] eqn:Ho.
    + apply opening_iff in Ho. rewrite (Hn _ _ Ho). split; [by intros b -> ->|].
      intros Hb. destruct opt as [b|]; [|done]. by rewrite (Hb b).
    + split; [by intros b -> ->|]. intros Hb. destruct opt as [b|]; [|done]. by rewrite (Hb b).
Qed.

Lemma nonstrict_meaning base name :
  is_nonstrict_subaccount base name = true ↔ name = base ∨ ∃ rest, name = base +:+ ":" +:+ rest.
Proof. rewrite <- under_meaning. by rewrite is_nonstrict_subaccount_under. Qed.
