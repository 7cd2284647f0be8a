(** More about the output of booking: postings, warnings, error locations. *)
From Coq Require Import Ascii QArith Qabs.
From stdpp Require Import prelude gmap strings pretty.
From Verif Require Import DecModel DecProofs LedgerTypes BookModel BookSpec ReportSpec BookLib
  BookSteps BookInv BookWf BookLife BookUnits BookPend BookSuccess BookPads BookFacts BookReports BookLocate
  ReportFacts.
Local Open Scope nat_scope.
Local Arguments Qeq : simpl never.
Local Arguments Qplus : simpl never.
Local Arguments dec_value : simpl never.
Local Arguments posted : simpl never.

Lemma booked_postings_expand i ip ps : expansion i ps ip (booked_postings_of i ip ps).
Proof.
  unfold booked_postings_of. destruct (in_cost ip) as [costs|] eqn:E.
  - apply (Exp_lots _ _ _ costs); [done|]. apply Forall2_fmap_r. apply Forall_Forall2_diag.
    apply Forall_true. by intros [cur c].
  - by apply Exp_whole.
Qed.

Lemma booked_postings_from_concat i l :
  ∃ groups, booked_postings_from i l = concat groups ∧ length groups = length l ∧
    ∀ j ip ps g, l !! j = Some (ip, ps) → groups !! j = Some g → expansion (i + j) ps ip g.
Proof.
  revert i. induction l as [|[ip ps] l IH]; intros i.
  - by exists [].
  - destruct (IH (S i)) as (groups & Heq & Hl & Hg).
    exists (booked_postings_of i ip ps :: groups). cbn. rewrite Heq, Hl. split_and!; try done.
    intros [|j] ip' ps' g; cbn.
    + intros [= <- <-] [= <-]. rewrite Nat.add_0_r. apply booked_postings_expand.
    + intros Hj Hgj. specialize (Hg _ _ _ _ Hj Hgj). by replace (i + S j) with (S i + j) by lia.
Qed.

Lemma esum_no_margin sel cur bs :
  (∀ b r u m, b ∈ bs → b_variant b ≠ BVBalance (BBalance r u (Some m))) →
  (esum sel cur (entries bs) == posted (λ p, sel (p_acc p) && String.eqb (p_cur p) cur) bs)%Q.
Proof.
  induction bs as [|b bs IH]; intros Hn; [done|].
  change (b :: bs) with ([b] ++ bs). rewrite entries_app, esum_app, posted_app, IH.
  2: { intros b' r u m Hb'. apply Hn. by right. }
  apply Qplus_comp; [|done]. unfold entries, posted. cbn [mbind list_bind]. rewrite !app_nil_r.
  rewrite Qsum_filter. unfold esum, entries_of, postings_of.
  destruct (b_variant b) as [t| |[r u [m|]]| | | | | | | | |] eqn:E; try done.
  - by rewrite <- list_fmap_compose.
  - exfalso. by eapply (Hn b r u m); [left|].
Qed.

Section Output.
Context {P : Type} (L : booking_lib P).
Context (ord : gmap string (account P) → list (string * account P)).
Notation run := (run L ord).
Notation book := (book L ord).
Notation step := (step_rel L ord).

(** *** Transactions *)
Lemma transaction_booked opt ds bs ws b d t :
  (∀ m, ord m ≡ₚ map_to_list m) → lib_ok L →
  book opt ds = BookSuccess bs ws → b ∈ bs → ds !! b_idx b = Some d → d_variant d = DTransaction t →
  ∃ inv meth ips upd groups c1,
    run opt (take (b_idx b) ds) = CRun c1 ∧
    lib_book L (d_date d) (tx_postings t) inv meth = LibOk ips upd ∧
    (∀ a, meth a = method_for L opt (take (b_idx b) ds) a) ∧
    (∀ a, is_Some (inv a) ↔ ∃ i o, opens_at (take (b_idx b) ds) i a o) ∧
    (∀ a p cur, inv a = Some p → held L p cur == posted (to_account a cur) (c_booked c1))%Q ∧
    postings_of b = concat groups ∧
    length ips = length (tx_postings t) ∧ length groups = length (tx_postings t) ∧
    ∀ i ps ip g, tx_postings t !! i = Some ps → ips !! i = Some ip → groups !! i = Some g →
      expansion i ps ip g.
Proof.
  intros Hord Hlib Hbook Hin Hd Hv.
  destruct (book_success_run _ _ _ _ _ _ Hbook) as (c & Hrun & He & <- & _).
  destruct (txn_inv_run _ _ _ _ _ Hrun _ Hin) as [Hlt Hcall].
  destruct (Hcall _ _ Hd Hv) as (c1 & ips & upd & u & Hrun1 & Hlibb & Hval & Hbv).
  destruct (booked_postings_from_concat 0 (zip ips (tx_postings t))) as (groups & Hg & Hlg & Hexp).
  pose proof (lk_length _ Hlib _ _ _ _ _ _ Hlibb) as Hlen.
  eexists _, _, ips, upd, groups, c1. split; [done|]. split; [exact Hlibb|]. split_and!.
  - intros a. by apply (method_known _ _ _ _ _ _ Hrun1).
  - intros a. rewrite fmap_is_Some. by apply (account_exists_iff _ _ _ _ _ _ Hrun1).
  - intros a p cur Hp. apply fmap_Some in Hp as (x & Hx & ->).
    rewrite (proj2 (units_run L ord Hlib _ _ _ Hrun1) a x cur Hx).
    rewrite esum_no_margin.
    + unfold posted, to_account. rewrite !Qsum_filter. apply Qsum_ext. intros p _.
      by rewrite (String.eqb_sym a).
    + destruct (success_split _ _ _ _ _ _ _ Hrun He Hd) as (c1' & c2 & H1 & H1e & _).
      rewrite Hrun1 in H1. injection H1 as <-. by eapply (success_no_margin L ord).
  - unfold postings_of. by rewrite Hbv.
  - done.
  - rewrite Hlg, zip_with_length. lia.
  - intros i ps ip g Hps Hip Hgi. apply (Hexp i); [|done]. apply lookup_zip_with_Some. eauto.
Qed.

(** *** Pads *)
Lemma pad_output opt ds bs ws k b p :
  (∀ m, ord m ≡ₚ map_to_list m) → lib_ok L →
  book opt ds = BookSuccess bs ws → bs !! k = Some b → b_variant b = BVPad p →
  ∃ m cur b' i o, bs !! S k = Some b' ∧
    postings_of b' =
      [Posting None (Some "'P") (pad_acc p) m cur None None None None None;
       Posting None (Some "'P") (pad_source p) (dec_neg m) cur None None None None None] ∧
    open_before ds (b_idx b) (pad_acc p) i o ∧ allows o cur ∧
    ∃ i' o', opens_at ds i' (pad_source p) o'.
Proof.
  intros Hord Hlib Hbook Hk Hv.
  destruct (book_success_run _ _ _ _ _ _ Hbook) as (c & Hrun & He & Hbs & _). subst bs.
  destruct (success_pads_filled _ _ Hord _ _ _ _ _ _ _ Hbook Hk Hv)
    as (j & m & bal & Hkj & Hba & _ & (b2 & bb & Hj & Hjv & Hjr) & _ & b' & Hk1 & Hb'v).
  pose proof (inv_mirror_run _ _ _ _ _ Hrun He) as Hmir.
  assert (∀ n x, c_booked c !! n = Some x → ∃ d, ds !! b_idx x = Some d ∧
     (same_content (d_variant d) (b_variant x) ∨ ∃ l, b_variant x = BVTransaction l)) as Hm.
  { assert (∀ i0 ds0 bs0, mirrors i0 ds0 bs0 → ∀ n x, bs0 !! n = Some x → ∃ d, i0 <= b_idx x ∧ ds0 !! (b_idx x - i0) = Some d ∧
     (same_content (d_variant d) (b_variant x) ∨ ∃ l, b_variant x = BVTransaction l)) as Hgen.
    { clear. intros i0 ds0 bs0. induction 1 as [|i d ds b bs _ Hh Hc _ IH|i d ds b b' bs _ Hh Hc Hp _ IH]; intros n x Hx.
      - done.
      - destruct n as [|n]; cbn in Hx.
        + injection Hx as <-. destruct Hh as (-> & _). exists d. rewrite Nat.sub_diag. auto.
        + destruct (IH _ _ Hx) as (d' & Hle & Hd' & ?). exists d'. split; [lia|].
          replace (b_idx x - i) with (S (b_idx x - S i)) by lia. done.
      - destruct n as [|[|n]]; cbn in Hx.
        + injection Hx as <-. destruct Hh as (-> & _). exists d. rewrite Nat.sub_diag. auto.
        + injection Hx as <-. destruct Hp as ((-> & _) & l & Hl). exists d. rewrite Nat.sub_diag. eauto 6.
        + destruct (IH _ _ Hx) as (d' & Hle & Hd' & ?). exists d'. split; [lia|].
          replace (b_idx x - i) with (S (b_idx x - S i)) by lia. done. }
    intros n x Hx. destruct (Hgen _ _ _ Hmir _ _ Hx) as (d & _ & Hd & ?). rewrite Nat.sub_0_r in Hd. eauto. }
  destruct (Hm _ _ Hk) as (d & Hd & [Hc|[l Hl]]); [|congruence].
  rewrite Hv in Hc. inversion Hc as [| | | | | |p' Hdv| | | | |]; subst.
  destruct (success_pad_open _ _ _ _ _ _ _ _ _ Hbook Hd (eq_sym Hdv)) as (i & o & Ho).
  destruct (Hm _ _ Hj) as (dj & Hdj & [Hc'|[l Hl]]); [|congruence].
  rewrite Hjv in Hc'. inversion Hc' as [| |bal' u mm Hdjv| | | | | | | | |]; subst. cbn in *.
  destruct (success_balance_open _ _ _ _ _ _ _ _ _ Hbook Hdj (eq_sym Hdjv)) as (i2 & o2 & Ho2 & Hallow).
  assert (o2 = o) as ->.
  { rewrite Hba in Ho2. destruct Ho as (_ & Ho & _). destruct Ho2 as (_ & Ho2 & _).
    pose proof (success_opens_once _ _ _ _ _ _ _ _ _ _ _ Hbook Ho Ho2) as <-.
    destruct Ho as (? & H1 & H2 & _). destruct Ho2 as (? & H3 & H4 & _). congruence. }
  exists m, (bal_cur bal'), b', i, o. split_and!; try done.
  - unfold postings_of. by rewrite Hb'v.
  - apply (account_exists_iff _ _ _ _ _ _ Hrun).
    apply (proj1 (units_run L ord Hlib _ _ _ Hrun)
      (pad_source p, bal_cur bal', dec_value (dec_neg m))).
    unfold entries. apply elem_of_list_bind. exists b'. split; [|by eapply elem_of_list_lookup_2].
    unfold entries_of. rewrite Hb'v. cbn. right. left.
Qed.

(** *** Warnings *)
Lemma concat_imap_snoc {A B} (f : nat → A → list B) l x :
  concat (imap f (l ++ [x])) = concat (imap f l) ++ f (length l) x.
Proof. rewrite imap_app, concat_app. cbn. by rewrite app_nil_r, Nat.add_0_r. Qed.

Lemma success_warnings opt ds bs ws :
  lib_supported L (lib_default_booking L) = true →
  book opt ds = BookSuccess bs ws → ws = concat (imap (warnings_at L) ds).
Proof.
  intros Hdef Hbook. destruct (book_success_run _ _ _ _ _ _ Hbook) as (c & Hrun & He & _ & <- & _).
  clear Hbook. revert He. revert ds c Hrun.
  apply (run_ind L ord opt (λ ds c, c_errors c = [] → s_warnings (c_acc c) = concat (imap (warnings_at L) ds))); [done|].
  intros ds d c c' Hrun IH Hstep He.
  pose proof (collect_step_rel _ _ _ _ _ _ Hstep) as Hs.
  assert (c_errors c = []) as Hec.
  { apply step_errors_prefix in Hs as [l Hl]. rewrite He in Hl. by destruct (c_errors c). }
  specialize (IH Hec). rewrite concat_imap_snoc, <- IH.
  destruct (d_variant d) as [t| |b|o| | | | | | | |] eqn:Ev.
  4: { unfold warnings_at. change same_method with booking_into. rewrite Ev. unfold collect_step, directive_dct in Hstep. rewrite Ev in Hstep.
    pose proof (life_run _ _ _ _ _ Hrun) as Hlife.
    unfold open_dct in Hstep. destruct (s_open (c_acc c) !! op_acc o).
    { cbn in Hstep. injection Hstep as <-. cbn in He. by rewrite Hec in He. }
    change (s_closed (set_open ?s ?m)) with (s_closed s) in Hstep.
    destruct (s_closed (c_acc c) !! op_acc o).
    { cbn in Hstep. injection Hstep as <-. cbn in He. by rewrite Hec in He. }
    change (s_default_booking (set_open ?s ?m)) with (s_default_booking s) in Hstep.
    destruct (op_booking o) as [bk|].
    - destruct (lib_supported L (booking_into bk)); cbn in Hstep; injection Hstep as <-; cbn.
      + by rewrite app_nil_r.
      + by rewrite <- app_assoc.
    - rewrite (lf_default _ _ _ _ Hlife) in Hstep. unfold default_booking_option in Hstep.
      assert (lib_supported L match opt with
         | Some b => if lib_supported L (booking_into b) then booking_into b else lib_default_booking L
         | None => lib_default_booking L end = true) as Hsup.
      { destruct opt as [b|]; [|done]. destruct (lib_supported L (booking_into b)) eqn:E; done. }
      rewrite Hsup in Hstep. cbn in Hstep. injection Hstep as <-. cbn. by rewrite app_nil_r. }
  all: unfold warnings_at; rewrite Ev, app_nil_r; clear Hstep;
    step_cases Hs; rewrite Ev in Hv; try done; cbn [c_acc]; try (subst s0; done).
  - by apply book_txn_only in Hb as (_ & _ & _ & -> & _).
  - by apply book_txn_only in Hb as (_ & _ & _ & -> & _).
Qed.

(** *** Locations *)
Lemma errors_valid opt ds errs r :
  (∀ m, ord m ≡ₚ map_to_list m) →
  book opt ds = BookFailure errs → r ∈ errs →
  element_of ds (r_idx r) ∧ ∀ l e, r_related r = Some l → e ∈ l → element_of ds e.
Proof.
  intros Hord Hbook Hr. destruct (book_failure_run _ _ _ _ _ Hbook) as (c & Hrun & -> & _).
  apply elem_of_app in Hr as [Hr|Hr].
  - pose proof (wf_errors _ _ (wf_run _ _ _ _ _ Hrun)) as Hv. rewrite Forall_forall in Hv.
    destruct (Hv _ Hr) as [H1 H2]. split; [exact H1|]. intros l e Hl He. rewrite Hl in H2.
    rewrite Forall_forall in H2. by apply H2.
  - rewrite (unused_pad_reports_spec L ord Hord opt ds c Hrun) in Hr. unfold unused_reports in Hr.
    apply elem_of_list_omap in Hr as (a & _ & Ha). apply fmap_Some in Ha as (k & Hk & ->).
    apply pending_is_pad in Hk as (d & p & Hd & _). cbn. split; [|done].
    exists d. done.
Qed.

Lemma warnings_valid opt ds bs ws r :
  book opt ds = BookSuccess bs ws → lib_supported L (lib_default_booking L) = true → r ∈ ws →
  element_of ds (r_idx r) ∧ r_related r = None.
Proof.
  intros Hbook Hdef Hr. rewrite (success_warnings _ _ _ _ Hdef Hbook) in Hr.
  apply elem_of_list_In, in_concat in Hr as (l & Hl%elem_of_list_In & Hr%elem_of_list_In). apply elem_of_lookup_imap in Hl as (k & d & -> & Hd).
  unfold warnings_at in Hr. destruct (d_variant d); try by apply elem_of_nil in Hr.
  destruct (op_booking o); [|by apply elem_of_nil in Hr].
  destruct (lib_supported L (same_method b)); [by apply elem_of_nil in Hr|].
  apply elem_of_cons in Hr as [->|Hr]; [|apply elem_of_list_singleton in Hr as ->]; (split; [|done]); by exists d.
Qed.
End Output.
