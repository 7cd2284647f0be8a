(** Reports of whole ledgers. *)
From Coq Require Import Ascii QArith Qabs.
From stdpp Require Import prelude gmap strings pretty.
From Verif Require Import DecModel DecProofs LedgerTypes BookModel BookSpec ReportSpec BookLib
  BookSteps BookInv BookWf BookLife BookUnits BookPend BookSuccess BookPads BookFacts BookReports BookLocate.
Local Open Scope nat_scope.

Section ReportFacts.
Context {P : Type} (L : booking_lib P).
Context (ord : gmap string (account P) → list (string * account P)).
Notation run := (run L ord).
Notation book := (book L ord).
Notation step := (step_rel L ord).
Context (Hord : ∀ m, ord m ≡ₚ map_to_list m).

Lemma result_parts opt ds : (∀ w, book opt ds ≠ BookPanic w) →
  ∃ c, run opt ds = CRun c ∧
    errors_of (book opt ds) = c_errors c ++ unused_pad_reports ord (s_accounts (c_acc c)).
Proof.
  rewrite book_run. destruct (run opt ds) as [c|w]; [|by intros H; destruct (H w)].
  intros _. exists c. split; [done|]. unfold validate.
  by destruct (c_errors c ++ unused_pad_reports ord _).
Qed.

Lemma reports_at_perm k l l' : l ≡ₚ l' → reports_at k l ≡ₚ reports_at k l'.
Proof. intros H. unfold reports_at. by rewrite H. Qed.

Lemma reports_at_cons k x l : reports_at k (x :: l) = reports_at k [x] ++ reports_at k l.
Proof. apply (reports_at_app k [x]). Qed.

Lemma omap_cons_eq {A B} (f : A → option B) x l :
  omap f (x :: l) = match f x with Some y => y :: omap f l | None => omap f l end.
Proof. done. Qed.

Lemma take_snoc {A} (l : list A) k x : l !! k = Some x → take (S k) l = take k l ++ [x].
Proof. apply take_S_r. Qed.

Lemma not_pad_not_pending ds k d a :
  ds !! k = Some d → (∀ p, d_variant d ≠ DPad p) → pending (take (S k) ds) a ≠ Some k.
Proof.
  intros Hd Hnp Hp. apply pending_is_pad in Hp as (d' & p & Hd' & Hv & _).
  rewrite lookup_take in Hd' by lia. rewrite Hd in Hd'. injection Hd' as <-. by apply (Hnp p).
Qed.

Lemma result_at opt ds k d :
  (∀ w, book opt ds ≠ BookPanic w) → ds !! k = Some d →
  ∃ c1 c2 new, run opt (take k ds) = CRun c1 ∧ step k d c1 c2 ∧ run opt (take (S k) ds) = CRun c2 ∧
    c_errors c2 = c_errors c1 ++ new ∧
    ((∀ a, pending (take (S k) ds) a ≠ Some k) →
       reports_at k (errors_of (book opt ds)) = reports_at k new).
Proof.
  intros Hnp Hd. destruct (result_parts opt ds Hnp) as (c & Hrun & Herr).
  destruct (run_split _ _ _ _ _ _ _ Hrun Hd) as (c1 & c2 & H1 & Hs & H2 & [new Hnew] & _).
  exists c1, c2, new. split_and!; try done. intros Hpend.
  assert (S k <= length ds) as Hk by (apply lookup_lt_Some in Hd; lia).
  rewrite Herr, reports_at_app.
  rewrite <- (take_drop (S k) ds) in Hrun.
  destruct (reports_at_later L ord _ _ _ _ _ k H2 Hrun) as [-> Hp2]; [rewrite take_length; lia|done|].
  rewrite take_drop in Hp2, Hrun.
  assert (reports_at k (unused_pad_reports ord (s_accounts (c_acc c))) = []) as ->.
  { apply Permutation_nil. rewrite <- (reports_at_trail k ds Hp2). symmetry.
    apply reports_at_perm. by eapply unused_pad_reports_spec. }
  rewrite app_nil_r, Hnew, reports_at_app.
  rewrite (reports_at_none k (c_errors c1)); [done|].
  eapply Forall_impl; [by eapply errors_before|]. cbn. rewrite take_length. lia.
Qed.

Lemma result_step opt ds k d new c1 c2 :
  (∀ w, book opt ds ≠ BookPanic w) → ds !! k = Some d → (∀ p, d_variant d ≠ DPad p) →
  run opt (take k ds) = CRun c1 → run opt (take (S k) ds) = CRun c2 → c_errors c2 = c_errors c1 ++ new →
  reports_at k (errors_of (book opt ds)) = reports_at k new.
Proof.
  intros Hnp Hd Hp H1 H2 Hn. destruct (result_at opt ds k d Hnp Hd) as (c1' & c2' & new' & H1' & _ & H2' & Hn' & Hr).
  rewrite H1 in H1'. injection H1' as <-. rewrite H2 in H2'. injection H2' as <-.
  rewrite Hn in Hn'. apply app_inv_head in Hn' as <-. apply Hr. intros a. by eapply not_pad_not_pending.
Qed.

Ltac at_step Hnp Hd :=
  destruct (result_at _ _ _ _ Hnp Hd) as (c1 & c2 & new & H1 & Hs & H2 & Hn & Hr);
  rewrite <- (take_len _ _ _ Hd) in Hs at 1.

Lemma open_reported opt ds k d o :
  (∀ w, book opt ds ≠ BookPanic w) → ds !! k = Some d → d_variant d = DOpen o →
  reports_at k (errors_of (book opt ds)) = open_reports k (life (take k ds) (op_acc o)).
Proof.
  intros Hnp Hd Hv. at_step Hnp Hd.
  rewrite Hr by (intros; eapply not_pad_not_pending; [done|by rewrite Hv]).
  rewrite (open_errors _ _ _ _ _ _ _ _ H1 Hs Hv) in Hn. apply app_inv_head in Hn as <-.
  rewrite (take_len _ _ _ Hd). apply reports_at_all. unfold open_reports.
  destruct (life _ _); repeat constructor.
Qed.

Lemma close_reported opt ds k d a :
  (∀ w, book opt ds ≠ BookPanic w) → ds !! k = Some d → d_variant d = DClose a →
  reports_at k (errors_of (book opt ds)) = close_reports k (life (take k ds) a).
Proof.
  intros Hnp Hd Hv. at_step Hnp Hd.
  rewrite Hr by (intros; eapply not_pad_not_pending; [done|by rewrite Hv]).
  rewrite (close_errors _ _ _ _ _ _ _ _ H1 Hs Hv) in Hn. apply app_inv_head in Hn as <-.
  rewrite (take_len _ _ _ Hd). apply reports_at_all. unfold close_reports.
  destruct (life _ _); repeat constructor.
Qed.

Lemma passive_reported opt ds k d bv :
  (∀ w, book opt ds ≠ BookPanic w) → ds !! k = Some d → passive_copy (d_variant d) = Some bv →
  reports_at k (errors_of (book opt ds)) = [].
Proof.
  intros Hnp Hd Hv. at_step Hnp Hd.
  rewrite Hr by (intros; eapply not_pad_not_pending; [done|]; intros ? Hx; by rewrite Hx in Hv).
  rewrite (passive_errors _ _ _ _ _ _ _ _ H1 Hs Hv) in Hn.
  rewrite <- (app_nil_r (c_errors c1)) in Hn at 1. by apply app_inv_head in Hn as <-.
Qed.

(** A pad on an account which is not usable. *)
Lemma pad_unusable_reported opt ds k d p r :
  (∀ w, book opt ds ≠ BookPanic w) → ds !! k = Some d → d_variant d = DPad p →
  unusable_report (at_directive k) (life (take k ds) (pad_acc p)) = Some r →
  reports_at k (errors_of (book opt ds)) = [r].
Proof.
  intros Hnp Hd Hv Hu. at_step Hnp Hd. rewrite Hr.
  - rewrite (pad_errors _ _ _ _ _ _ _ _ H1 Hs Hv) in Hn. apply app_inv_head in Hn as <-.
    rewrite (take_len _ _ _ Hd). unfold pad_reports. rewrite Hu. apply reports_at_all.
    constructor; [|constructor]. unfold unusable_report in Hu. destruct (life _ _); by simplify_eq/=.
  - intros a Hpe. apply pending_is_pad in Hpe as (d' & p' & Hd' & Hv' & Ha & Hus & _).
    rewrite lookup_take in Hd' by lia. rewrite Hd in Hd'. injection Hd' as <-.
    rewrite Hv in Hv'. injection Hv' as <-. rewrite take_take, Nat.min_l in Hus by lia. subst a.
    unfold unusable_report in Hu. by destruct (life _ _).
Qed.

(** A second pad is reported at the first. *)
Lemma usable_report e st : unusable_report e st = None ↔ usable st = true.
Proof. by destruct st. Qed.

Section WithLib.
Context (Hlib : lib_ok L).

Lemma use_report_idx e ds a cur r : use_report e ds a cur = Some r → r_idx r = e.
Proof.
  unfold use_report, unusable_report. destruct (life ds a); cbn;
    try (by intros [= <-]); destruct (opening ds a) as [[i1 o1]|]; try done; destruct (allowsb o1 cur); try done; by intros [= <-].
Qed.

Lemma first_use_report_idx ds k i l r : first_use_report ds k i l = Some r → ei_directive (r_idx r) = k.
Proof.
  revert i. induction l as [|[a cur] l IH]; intros i; cbn; [done|].
  destruct (use_report _ _ _ _) as [r'|] eqn:E; [|apply IH].
  intros [= <-]. by rewrite (use_report_idx _ _ _ _ _ E).
Qed.

Lemma balance_reported opt ds k d b :
  (∀ w, book opt ds ≠ BookPanic w) → ds !! k = Some d → d_variant d = DBalance b →
  ∃ c1 new, run opt (take k ds) = CRun c1 ∧
    balance_reports k (take k ds) b
      (posted (in_subtree (bal_acc b) (bal_cur b)) (c_booked c1) +
       corrections (bal_acc b) (bal_cur b) (c_booked c1))
      (balance_tolerance (lib_multiplier L) b) new ∧
    reports_at k (errors_of (book opt ds)) = reports_at k new.
Proof.
  intros Hnp Hd Hv. at_step Hnp Hd.
  destruct (balance_errors L ord Hord Hlib _ _ _ _ _ _ H1 Hs Hv) as (new' & Hn' & Hb).
  rewrite Hn' in Hn. apply app_inv_head in Hn as ->.
  rewrite (take_len _ _ _ Hd) in Hb. exists c1, new. split_and!; try done.
  apply Hr. intros. eapply not_pad_not_pending; [done|by rewrite Hv].
Qed.

Lemma balance_use_reported opt ds k d b r :
  (∀ w, book opt ds ≠ BookPanic w) → ds !! k = Some d → d_variant d = DBalance b →
  use_report (at_directive k) (take k ds) (bal_acc b) (bal_cur b) = Some r →
  reports_at k (errors_of (book opt ds)) = [r].
Proof.
  intros Hnp Hd Hv Hu. destruct (balance_reported _ _ _ _ _ Hnp Hd Hv) as (c1 & new & _ & Hb & ->).
  inversion Hb; subst; try congruence. rewrite Hu in H. injection H as ->.
  apply reports_at_all. constructor; [|constructor]. by rewrite (use_report_idx _ _ _ _ _ Hu).
Qed.

(** At a balance without a pending pad. *)
Lemma balance_decided opt ds k d b :
  (∀ w, book opt ds ≠ BookPanic w) → ds !! k = Some d → d_variant d = DBalance b →
  use_report (at_directive k) (take k ds) (bal_acc b) (bal_cur b) = None →
  pending (take k ds) (bal_acc b) = None →
  ∃ c1, run opt (take k ds) = CRun c1 ∧
    let total := (posted (in_subtree (bal_acc b) (bal_cur b)) (c_booked c1) +
                  corrections (bal_acc b) (bal_cur b) (c_booked c1))%Q in
    let tol := balance_tolerance (lib_multiplier L) b in
    ((Qabs (dec_value (bal_units b) - total) <= tol)%Q ∧ reports_at k (errors_of (book opt ds)) = []) ∨
    ((tol < Qabs (dec_value (bal_units b) - total))%Q ∧
       ∃ m r, reports_at k (errors_of (book opt ds)) = [r] ∧ balance_failure k m (bal_cur b) r ∧
         (dec_value m == dec_value (bal_units b) - total)%Q).
Proof.
  intros Hnp Hd Hv Hu Hp. destruct (balance_reported _ _ _ _ _ Hnp Hd Hv) as (c1 & new & H1 & Hb & Hr).
  exists c1. split; [done|]. cbn zeta. inversion Hb; subst; try congruence.
  - left. by rewrite Hr.
  - right. split; [done|]. exists m, r. split_and!; try done. rewrite Hr.
    apply reports_at_all. constructor; [|constructor].
    match goal with H : balance_failure _ _ _ _ |- _ => destruct H as [-> _] end. done.
Qed.

(** The account method. *)
Lemma method_known opt ds c a :
  run opt ds = CRun c →
  match s_accounts (c_acc c) !! a with
  | Some x => a_booking x
  | None => s_default_booking (c_acc c)
  end = method_for L opt ds a.
Proof.
  intros Hrun. pose proof (life_run _ _ _ _ _ Hrun) as Hl. unfold method_for. change same_method with booking_into.
  pose proof (lf_default _ _ _ _ Hl) as Hdef.
  destruct (s_accounts (c_acc c) !! a) as [x|] eqn:Hx.
  - apply (lf_account _ _ _ _ Hl) in Hx as (i & o & Hf & _ & _ & ->).
    apply opening_first in Hf as ->. unfold resolve_method. rewrite Hdef.
    destruct (op_booking o) as [bk|]; [done|]. unfold default_booking_option. destruct opt as [b'|]; [|by destruct (lib_supported L (lib_default_booking L))].
    destruct (lib_supported L (booking_into b')) eqn:E; [by rewrite E|]. by destruct (lib_supported L (lib_default_booking L)).
  - rewrite Hdef. destruct (opening ds a) as [[i o]|] eqn:Eo; [|done].
    apply opening_first in Eo as [Ho _].
    assert (is_Some (s_accounts (c_acc c) !! a)) as [? ?]; [|congruence].
    apply (account_exists_iff _ _ _ _ _ _ Hrun). eauto.
Qed.

Lemma txn_reported opt ds k d t :
  (∀ w, book opt ds ≠ BookPanic w) → ds !! k = Some d → d_variant d = DTransaction t →
  ∃ inv meth, (∀ a, meth a = method_for L opt (take k ds) a) ∧
    (∀ a, is_Some (inv a) ↔ ∃ i o, opens_at (take k ds) i a o) ∧
    reports_at k (errors_of (book opt ds)) =
      txn_answer_reports k (take k ds) t (lib_book L (d_date d) (tx_postings t) inv meth).
Proof.
  intros Hnp Hd Hv. at_step Hnp Hd.
  destruct (txn_errors L ord _ _ _ _ _ _ Hlib H1 Hs Hv) as [Hn' _].
  rewrite Hn' in Hn. apply app_inv_head in Hn as <-. unfold txn_reports, lib_call in Hr.
  exists (λ name, a_positions <$> s_accounts (c_acc c1) !! name), (λ name, match s_accounts (c_acc c1) !! name with
      | Some a => a_booking a | None => s_default_booking (c_acc c1) end).
  split_and!; [intros a; by apply method_known| |].
  - intros a. cbn. rewrite fmap_is_Some. by eapply account_exists_iff.
  - rewrite Hr by (intros; eapply not_pad_not_pending; [done|by rewrite Hv]).
    rewrite (take_len _ _ _ Hd). apply reports_at_all. unfold txn_answer_reports.
    destruct (lib_book _ _ _ _ _) as [ips upd|msg|i msg]; [|repeat constructor..].
    destruct (first_use_report _ _ _ _) as [r|] eqn:E; [|constructor].
    constructor; [|constructor]. by eapply first_use_report_idx.
Qed.

(** ** Fates of pads *)

Lemma pending_ends ds d a k :
  pending ds a = Some k →
  pending (ds ++ [d]) a = Some k ∨ (ends_wait (ds ++ [d]) a (length ds) ∧ pending (ds ++ [d]) a = None).
Proof.
  intros Hp. rewrite pending_snoc. unfold pend_step, ends_wait. rewrite Hp.
  rewrite take_app. destruct (d_variant d) as [| |b| | | |p| | | | |] eqn:Ev; try by left.
  - destruct (_ && _) eqn:E; [|by left]. right. split; [|done].
    apply andb_true_iff in E as [[Ha%String.eqb_eq Hu]%andb_true_iff Hc].
    exists d. rewrite lookup_app_r, Nat.sub_diag by lia. split_and!; try done. right. by exists b.
  - destruct (_ && _) eqn:E; [|by left]. right. split; [|done].
    apply andb_true_iff in E as [Ha%String.eqb_eq Hu].
    exists d. rewrite lookup_app_r, Nat.sub_diag by lia. split_and!; try done. left. by exists p.
Qed.

Lemma ends_wait_take ds a j n : j < n → ends_wait (take n ds) a j ↔ ends_wait ds a j.
Proof.
  intros Hj. unfold ends_wait. rewrite lookup_take, take_take, Nat.min_l by lia. done.
Qed.

Lemma pending_stays ds a k n m :
  n <= m → m <= length ds → pending (take n ds) a = Some k →
  (∀ j, n <= j → j < m → ¬ ends_wait ds a j) → pending (take m ds) a = Some k.
Proof.
  intros Hnm. induction Hnm as [|m Hnm IH]; intros Hm Hp Hne; [done|].
  destruct (lookup_lt_is_Some_2 ds m) as [d Hd]; [lia|].
  rewrite (take_snoc _ _ _ Hd).
  destruct (pending_ends (take m ds) d a k) as [|[He _]]; [|done|].
  - apply IH; [lia|done|]. intros j ? ?. apply Hne; lia.
  - exfalso. rewrite (take_len _ _ _ Hd), <- (take_snoc _ _ _ Hd) in He.
    rewrite ends_wait_take in He by lia. apply (Hne m); [lia|lia|done].
Qed.

Lemma reports_stay opt ds a k n m c1 c2 :
  n <= m → m <= length ds → k < n → pending (take n ds) a = Some k →
  (∀ j, n <= j → j < m → ¬ ends_wait ds a j) →
  run opt (take n ds) = CRun c1 → run opt (take m ds) = CRun c2 →
  reports_at k (c_errors c2) = reports_at k (c_errors c1).
Proof.
  intros Hnm. revert c2. induction Hnm as [|m Hnm IH]; intros c2 Hm Hk Hp Hne H1 H2.
  { rewrite H1 in H2. by injection H2 as ->. }
  destruct (lookup_lt_is_Some_2 ds m) as [d Hd]; [lia|].
  rewrite (take_snoc _ _ _ Hd), run_snoc in H2.
  destruct (run opt (take m ds)) as [c'|] eqn:E; [|done].
  apply collect_step_rel in H2. rewrite <- (IH c') by (try done; try lia; intros; apply Hne; lia).
  assert (pending (take m ds) a = Some k) as Hpm.
  { eapply pending_stays; [exact Hnm|lia|done|]. intros; apply Hne; lia. }
  destruct (step_new_errors _ _ _ _ _ _ _ E H2) as (new & -> & Hnew).
  rewrite reports_at_app, (reports_at_none k new), app_nil_r; [done|].
  assert (¬ ends_wait ds a m) as Hnm' by (apply Hne; lia).
  assert (∀ a' k', pending (take m ds) a' = Some k' → k' = k → a' = a) as Huniq.
  { intros a' k' Ha' ->. apply pending_is_pad in Ha' as (x & p & Hx & Hxv & <- & _).
    apply pending_is_pad in Hpm as (y & q & Hy & Hyv & <- & _). rewrite Hx in Hy. injection Hy as <-.
    rewrite Hxv in Hyv. by injection Hyv as ->. }
  destruct Hnew as [Hall|(a' & k' & Hp' & Hor)].
  - eapply Forall_impl; [exact Hall|]. cbn. rewrite (take_len _ _ _ Hd). lia.
  - destruct (decide (k' = k)) as [->|Hne'].
    + exfalso. apply Hnm'. specialize (Huniq _ _ Hp' eq_refl) as ->. exists d. split; [done|].
      destruct Hor as [(p & ? & ? & ? & _)|(b & ? & ? & ? & ? & _)]; split; try done; [left|right]; eauto.
    + destruct Hor as [(p & _ & _ & _ & ->)|(b & _ & _ & _ & _ & ->)]; constructor; done.
Qed.

(** A pad which is accepted is not reported by its own step. *)
Lemma pad_accepted opt ds k d p c2 :
  ds !! k = Some d → d_variant d = DPad p → run opt (take (S k) ds) = CRun c2 →
  usable (life (take k ds) (pad_acc p)) = true → pending (take k ds) (pad_acc p) = None →
  reports_at k (c_errors c2) = [] ∧ pending (take (S k) ds) (pad_acc p) = Some k.
Proof.
  intros Hd Hv H2 Hu Hp. rewrite (take_snoc _ _ _ Hd) in *. split.
  - rewrite run_snoc in H2. destruct (run opt (take k ds)) as [c1|] eqn:E; [|done].
    apply collect_step_rel in H2. rewrite (pad_errors _ _ _ _ _ _ _ _ E H2 Hv).
    unfold pad_reports. rewrite (proj2 (usable_report _ _) Hu), Hp, app_nil_r.
    apply reports_at_none. eapply Forall_impl; [by eapply errors_before|]. cbn. rewrite take_length. lia.
  - rewrite pending_snoc. unfold pend_step. rewrite Hv, String.eqb_refl, Hu, Hp. cbn.
    by rewrite (take_len _ _ _ Hd).
Qed.

(** Never reached by a pad or balance: reported at the end of the ledger. *)
Lemma pad_never_used opt ds k d p :
  (∀ w, book opt ds ≠ BookPanic w) → ds !! k = Some d → d_variant d = DPad p →
  usable (life (take k ds) (pad_acc p)) = true → pending (take k ds) (pad_acc p) = None →
  (∀ j, k < j → ¬ ends_wait ds (pad_acc p) j) →
  reports_at k (errors_of (book opt ds)) =
    [Report "unused, no balance directive" (at_directive k) None None].
Proof.
  intros Hnp Hd Hv Hu Hp Hne. destruct (result_parts opt ds Hnp) as (c & Hrun & ->).
  destruct (run_split _ _ _ _ _ _ _ Hrun Hd) as (c1 & c2 & H1 & Hs & H2 & _ & _).
  destruct (pad_accepted _ _ _ _ _ _ Hd Hv H2 Hu Hp) as [Hr Hpe].
  assert (S k <= length ds) as Hk by (apply lookup_lt_Some in Hd; lia).
  rewrite reports_at_app. rewrite <- (firstn_all ds) in Hrun.
  rewrite (reports_stay opt ds (pad_acc p) k (S k) (length ds) c2 c Hk (le_n _) (Nat.lt_succ_diag_r k) Hpe) by
    (try done; intros; apply Hne; lia).
  rewrite Hr. cbn.
  assert (pending ds (pad_acc p) = Some k) as Hpend.
  { rewrite <- (firstn_all ds) at 1. eapply (pending_stays ds _ k (S k)); [done|done|done|]. intros; apply Hne; lia. }
  rewrite firstn_all in Hrun.
  assert (reports_at k (unused_pad_reports ord (s_accounts (c_acc c))) ≡ₚ reports_at k (unused_reports ds)) as Hperm.
  { apply reports_at_perm. by eapply unused_pad_reports_spec. }
  assert (reports_at k (unused_reports ds) = [Report "unused, no balance directive" (at_directive k) None None]) as Hone.
  { clear -Hpend Hk Hu Hv Hd. unfold unused_reports.
    assert (pad_acc p ∈ opened_accounts ds) as Hin.
    { apply opened_accounts_elem. apply life_usable_open_before in Hu as (i & o & Ho).
      exists i, o. by apply opens_at_take in Ho as [? _]. }
    assert (∀ a, pending ds a = Some k → a = pad_acc p) as Huniq.
    { intros a (x & q & Hx & Hxv & <- & _)%pending_is_pad. rewrite Hd in Hx. injection Hx as <-.
      rewrite Hv in Hxv. by injection Hxv as ->. }
    assert (NoDup (opened_accounts ds)) as Hnd by apply NoDup_remove_dups.
    revert Hin Hnd. generalize (opened_accounts ds) as l. 
    assert (∀ l, pad_acc p ∉ l → reports_at k (omap (λ a, (λ k0, Report "unused, no balance directive" (at_directive k0) None None) <$> pending ds a) l) = []) as Hno.
    { intros l Hl. apply reports_at_none, Forall_forall. intros r (a & Ha & Hr)%elem_of_list_omap Heq.
      destruct (pending ds a) as [k'|] eqn:Epk; [|done]. injection Hr as <-. cbn in Heq. subst k'.
      apply Huniq in Epk as ->. done. }
    induction l as [|a l IH]; intros Hin Hnd; [by apply elem_of_nil in Hin|].
    apply NoDup_cons in Hnd as [Hna Hnd]. rewrite omap_cons_eq.
    destruct (decide (a = pad_acc p)) as [->|Hne].
    + rewrite Hpend. cbn [fmap option_fmap option_map].
      rewrite reports_at_cons, Hno by done. rewrite app_nil_r.
      apply reports_at_all. by repeat constructor.
    + destruct (pending ds a) as [k'|] eqn:Epk; [|apply IH; set_solver].
      cbn [fmap option_fmap option_map]. rewrite reports_at_cons, IH by set_solver.
      rewrite reports_at_none; [done|]. constructor; [|constructor]. cbn. intros ->. by apply Huniq in Epk. }
  rewrite Hone in Hperm. by apply Permutation_singleton_r in Hperm.
Qed.

(** The first directive which ends the wait. *)
Lemma pad_end_state opt ds k d p j :
  (∀ w, book opt ds ≠ BookPanic w) → ds !! k = Some d → d_variant d = DPad p →
  usable (life (take k ds) (pad_acc p)) = true → pending (take k ds) (pad_acc p) = None →
  k < j → ends_wait ds (pad_acc p) j → (∀ i, k < i → i < j → ¬ ends_wait ds (pad_acc p) i) →
  ∃ dj c1 c2 new, ds !! j = Some dj ∧ run opt (take j ds) = CRun c1 ∧ step j dj c1 c2 ∧
    run opt (take (S j) ds) = CRun c2 ∧
    c_errors c2 = c_errors c1 ++ new ∧ pending (take j ds) (pad_acc p) = Some k ∧
    reports_at k (errors_of (book opt ds)) = reports_at k new.
Proof.
  intros Hnp Hd Hv Hu Hp Hkj He Hfirst. destruct (result_parts opt ds Hnp) as (c & Hrun & ->).
  destruct He as (dj & Hdj & Huj & Hor).
  destruct (run_split _ _ _ _ _ _ _ Hrun Hdj) as (c1 & c2 & H1 & Hs & H2 & [new Hnew] & _).
  destruct (run_split _ _ _ _ _ _ _ Hrun Hd) as (c3 & c4 & _ & _ & H4 & _ & _).
  destruct (pad_accepted _ _ _ _ _ _ Hd Hv H4 Hu Hp) as [Hr Hpe].
  assert (S j <= length ds) as Hk by (apply lookup_lt_Some in Hdj; lia).
  assert (pending (take j ds) (pad_acc p) = Some k) as Hpend.
  { eapply (pending_stays ds _ k (S k)); [lia|lia|done|]. intros; apply Hfirst; lia. }
  exists dj, c1, c2, new. split_and!; try done.
  assert (∀ a, pending (take (S j) ds) a ≠ Some k) as Hno.
  { intros a Ha. assert (a = pad_acc p) as ->.
    { apply pending_is_pad in Ha as (x & q & Hx & Hxv & <- & _). rewrite lookup_take in Hx by lia.
      rewrite Hd in Hx. injection Hx as <-. rewrite Hv in Hxv. by injection Hxv as ->. }
    rewrite (take_snoc _ _ _ Hdj), pending_snoc, Hpend in Ha. unfold pend_step in Ha.
    destruct Hor as [(q & Hq & Hqa)|(b & Hb & Hba & Hc)].
    - rewrite Hq, Hqa, String.eqb_refl, Huj in Ha. done.
    - rewrite Hb, Hba, String.eqb_refl, Huj, Hc in Ha. done. }
  rewrite reports_at_app. rewrite <- (take_drop (S j) ds) in Hrun.
  destruct (reports_at_later L ord _ _ _ _ _ k H2 Hrun) as [-> Hp2]; [rewrite take_length; lia|done|].
  rewrite take_drop in Hp2, Hrun.
  assert (reports_at k (unused_pad_reports ord (s_accounts (c_acc c))) = []) as ->.
  { apply Permutation_nil. rewrite <- (reports_at_trail k ds Hp2). symmetry.
    apply reports_at_perm. by eapply unused_pad_reports_spec. }
  rewrite app_nil_r, Hnew, reports_at_app.
  rewrite (reports_stay opt ds (pad_acc p) k (S k) j c4 c1 Hkj ltac:(lia) (Nat.lt_succ_diag_r k) Hpe) by
    (try done; intros; apply Hfirst; lia).
  by rewrite Hr.
Qed.

Lemma pad_second opt ds k d p j dj q :
  (∀ w, book opt ds ≠ BookPanic w) → ds !! k = Some d → d_variant d = DPad p →
  usable (life (take k ds) (pad_acc p)) = true → pending (take k ds) (pad_acc p) = None →
  k < j → ends_wait ds (pad_acc p) j → (∀ i, k < i → i < j → ¬ ends_wait ds (pad_acc p) i) →
  ds !! j = Some dj → d_variant dj = DPad q →
  reports_at k (errors_of (book opt ds)) =
    [Report "unused, second pad encountered" (at_directive k) (Some [at_directive j]) None] ∧
  reports_at j (errors_of (book opt ds)) = [].
Proof.
  intros Hnp Hd Hv Hu Hp Hkj He Hfirst Hdj Hq.
  destruct (pad_end_state opt ds k d p j Hnp Hd Hv Hu Hp Hkj He Hfirst)
    as (dj' & c1 & c2 & new & Hdj' & H1 & Hs & H2 & Hn & Hpe & ->).
  rewrite Hdj in Hdj'. injection Hdj' as <-.
  destruct He as (dj' & Hdj' & Huj & Hor). rewrite Hdj in Hdj'. injection Hdj' as <-.
  destruct Hor as [(q' & Hq' & Hqa)|(b & Hb & _)]; [|congruence].
  rewrite Hq in Hq'. injection Hq' as <-.
  rewrite <- (take_len _ _ _ Hdj) in Hs at 1.
  rewrite (pad_errors _ _ _ _ _ _ _ _ H1 Hs Hq) in Hn. apply app_inv_head in Hn as <-.
  unfold pad_reports. rewrite Hqa, (proj2 (usable_report _ _) Huj), Hpe, (take_len _ _ _ Hdj). split.
  - apply reports_at_all. by repeat constructor.
  - destruct (result_at _ _ _ _ Hnp Hdj) as (c1' & c2' & new' & H1' & Hs' & H2' & Hn' & Hr').
    rewrite H1 in H1'. injection H1' as <-. rewrite <- (take_len _ _ _ Hdj) in Hs' at 1.
    rewrite (pad_errors _ _ _ _ _ _ _ _ H1 Hs' Hq) in Hn'. apply app_inv_head in Hn' as <-.
    rewrite Hr'.
    + unfold pad_reports. rewrite Hqa, (proj2 (usable_report _ _) Huj), Hpe, (take_len _ _ _ Hdj).
      apply reports_at_none. constructor; [|constructor]. cbn. lia.
    + intros a Ha. apply pending_is_pad in Ha as (x & q' & Hx & Hxv & <- & _ & Hno).
      rewrite lookup_take in Hx by lia. rewrite Hdj in Hx. injection Hx as <-.
      rewrite Hq in Hxv. injection Hxv as <-. rewrite take_take, Nat.min_l, Hqa, Hpe in Hno by lia. done.
Qed.

Lemma pad_at_balance opt ds k d p j dj b :
  (∀ w, book opt ds ≠ BookPanic w) → ds !! k = Some d → d_variant d = DPad p →
  usable (life (take k ds) (pad_acc p)) = true → pending (take k ds) (pad_acc p) = None →
  k < j → ends_wait ds (pad_acc p) j → (∀ i, k < i → i < j → ¬ ends_wait ds (pad_acc p) i) →
  ds !! j = Some dj → d_variant dj = DBalance b →
  ∃ c1, run opt (take j ds) = CRun c1 ∧
    let total := (posted (in_subtree (bal_acc b) (bal_cur b)) (c_booked c1) +
                  corrections (bal_acc b) (bal_cur b) (c_booked c1))%Q in
    let tol := balance_tolerance (lib_multiplier L) b in
    ((Qabs (dec_value (bal_units b) - total) <= tol)%Q ∧
       reports_at k (errors_of (book opt ds)) = [unneeded_pad k]) ∨
    ((tol < Qabs (dec_value (bal_units b) - total))%Q ∧
       reports_at k (errors_of (book opt ds)) = [] ∧ reports_at j (errors_of (book opt ds)) = []).
Proof.
  intros Hnp Hd Hv Hu Hp Hkj He Hfirst Hdj Hb.
  destruct (pad_end_state opt ds k d p j Hnp Hd Hv Hu Hp Hkj He Hfirst)
    as (dj' & c1 & c2 & new & Hdj' & H1 & Hs & H2 & Hn & Hpe & ->).
  rewrite Hdj in Hdj'. injection Hdj' as <-.
  destruct (balance_reported _ _ _ _ _ Hnp Hdj Hb) as (c1' & new' & H1' & Hbr & Hr).
  rewrite H1 in H1'. injection H1' as <-.
  assert (reports_at j (errors_of (book opt ds)) = reports_at j new) as Hrj.
  { eapply result_step; try done. by rewrite Hb. }
  rewrite <- (take_len _ _ _ Hdj) in Hs at 1.
  destruct (balance_errors L ord Hord Hlib _ _ _ _ _ _ H1 Hs Hb) as (new2 & Hn2 & Hbr2).
  rewrite Hn2 in Hn. apply app_inv_head in Hn as ->. rewrite (take_len _ _ _ Hdj) in Hbr2.
  destruct He as (dj' & Hdj' & Huj & Hor). rewrite Hdj in Hdj'. injection Hdj' as <-.
  destruct Hor as [(q' & Hq' & Hqa)|(b' & Hb' & Hba & Hc)]; [congruence|].
  rewrite Hb in Hb'. injection Hb' as <-.
  assert (use_report (at_directive j) (take j ds) (bal_acc b) (bal_cur b) = None) as Huse.
  { unfold use_report. rewrite Hba, (proj2 (usable_report _ _) Huj). unfold currency_ok in Hc.
    destruct (opening _ _) as [[? ?]|]; [|done]. by rewrite Hc. }
  rewrite <- Hba in Hpe. exists c1. split; [done|]. cbn zeta.
  inversion Hbr2; subst; try congruence.
  - left. split; [done|]. rewrite Hpe in H3. injection H3 as ->. apply reports_at_all. by repeat constructor.
  - right. split_and!; try done.
Qed.

(** A transaction, balance or other directive is reported only at itself, and a
    successful ledger reports nothing. *)
End WithLib.
End ReportFacts.
