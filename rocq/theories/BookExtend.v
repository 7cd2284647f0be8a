(** What one more balance directive does to a ledger. *)
From Coq Require Import Ascii QArith Qabs.
From stdpp Require Import prelude gmap strings pretty.
From Verif Require Import DecModel DecProofs LedgerTypes BookModel BookSpec ReportSpec BookLib
  BookSteps BookInv BookWf BookLife BookUnits BookPend BookSuccess BookPads BookFacts BookReports BookLocate
  ReportFacts BookTotal.
Local Open Scope nat_scope.
Local Arguments Qeq : simpl never.
Local Arguments Qplus : simpl never.
Local Arguments Qopp : simpl never.
Local Arguments dec_value : simpl never.
Local Arguments posted : simpl never.
Local Arguments corrections : simpl never.

Lemma under_refl a : under a a = true.
Proof. unfold under. by rewrite String.eqb_refl. Qed.

Lemma posted_bal sel i d bb : posted sel [booked_of i d (BVBalance bb)] = 0%Q.
Proof. done. Qed.

Lemma esum_two sel cur a1 c1 q1 a2 c2 q2 :
  (esum sel cur [(a1, c1, q1); (a2, c2, q2)] ==
   (if sel a1 && String.eqb c1 cur then q1 else 0) + (if sel a2 && String.eqb c2 cur then q2 else 0))%Q.
Proof. unfold esum. cbn [fmap list_fmap fst snd]. rewrite !Qsum_cons. unfold Qsum. cbn [foldr]. ring. Qed.

Section Extend.
Context {P : Type} (L : booking_lib P).
Context (ord : gmap string (account P) → list (string * account P)).
Notation run := (run L ord).
Notation book := (book L ord).
Notation step := (step_rel L ord).
Context (Hord : ∀ m, ord m ≡ₚ map_to_list m) (Hlib : lib_ok L).

(** What has accumulated in a subtree. *)
Definition total_in (base cur : string) (bs : list bdirective) : Q :=
  (posted (in_subtree base cur) bs + corrections base cur bs)%Q.

Lemma use_none_usable e ds a cur :
  use_report e ds a cur = None → usable (life ds a) = true ∧ currency_ok ds a cur = true.
Proof.
  unfold use_report. destruct (unusable_report e (life ds a)) eqn:E; [done|].
  apply usable_report in E. unfold currency_ok. destruct (opening ds a) as [[i o]|] eqn:Eo.
  - destruct (allowsb o cur); done.
  - intros _. apply life_usable_open_before in E as (i & o & Ho). exfalso.
    unfold opening in Eo. pose proof (find_open_spec 0 ds a) as Hf. rewrite Eo in Hf. by eapply Hf.
Qed.

(** The total after a balance which is decided. *)
Lemma balance_total opt ds c d c' b :
  run opt ds = CRun c → step (length ds) d c c' → d_variant d = DBalance b →
  use_report (at_directive (length ds)) ds (bal_acc b) (bal_cur b) = None →
  let base := bal_acc b in let cur := bal_cur b in
  let diff := (dec_value (bal_units b) - total_in base cur (c_booked c))%Q in
  let tol := balance_tolerance (lib_multiplier L) b in
  (Qabs diff <= tol ∧ total_in base cur (c_booked c') == total_in base cur (c_booked c))%Q ∨
  (tol < Qabs diff ∧ pending ds base = None ∧
     total_in base cur (c_booked c') == dec_value (bal_units b))%Q ∨
  (tol < Qabs diff ∧ ∃ k dk p, pending ds base = Some k ∧ ds !! k = Some dk ∧ d_variant dk = DPad p ∧
     total_in base cur (c_booked c') ==
       if under base (pad_source p) then total_in base cur (c_booked c) else dec_value (bal_units b))%Q.
Proof.
  intros Hrun Hs Hvb Hu. cbn zeta.
  pose proof (rollup_run L ord Hord Hlib opt ds c (bal_acc b) (bal_cur b) Hrun) as Hroll.
  pose proof (pend_run L ord opt ds c Hrun) as Hpend.
  pose proof (wf_run L ord opt ds c Hrun) as Hwf.
  pose proof (effective_tolerance_value L b) as Htol.
  apply use_none_usable in Hu as [Hus Hcur].
  step_cases Hs; rewrite Hvb in Hv; try done;
    try (injection Hv as <-).
  - exfalso. eapply (proj2 (validate_none_usable L ord opt ds c (bal_acc b) (eidx_of_nat (length ds)) Hrun)) in Hus.
    by rewrite Hus in Hva.
  - exfalso. unfold validate_currency in Hvc.
    rewrite (currency_valid_ok L ord opt ds c _ _ (bal_cur b) Hrun Ha) in Hvc. by rewrite Hcur in Hvc.
  - left. unfold bal_margin in Hm. rewrite margin_none in Hm. rewrite Htol, Hroll in Hm. split; [done|].
    cbn [c_booked]. unfold total_in.
    rewrite posted_app, corrections_app, posted_bal.
    unfold corrections at 2. cbn [omap list_omap b_variant booked_of]. unfold Qsum. cbn [foldr]. ring.
  - right. left. unfold bal_margin in Hm. apply margin_some in Hm as [-> Hm]. rewrite Htol, Hroll in Hm.
    split; [done|]. pose proof (Hpend _ _ Ha) as Hpe. rewrite Hp in Hpe. cbn in Hpe.
    split; [by destruct (pending ds (bal_acc b))|].
    cbn [c_booked]. unfold total_in.
    rewrite posted_app, corrections_app, posted_bal.
    unfold corrections at 2. cbn [omap list_omap b_variant booked_of].
    rewrite under_refl, String.eqb_refl. cbn [andb]. unfold Qsum. cbn [foldr].
    rewrite dec_sub_value, Hroll. ring.
  - right. right. unfold bal_margin in Hm. apply margin_some in Hm as [-> Hm]. rewrite Htol, Hroll in Hm.
    split; [done|]. pose proof (Hpend _ _ Ha) as Hpe. rewrite Hp in Hpe. cbn in Hpe.
    destruct (wf_account _ _ Hwf _ _ Ha) as (_ & Hpad & _). specialize (Hpad _ _ Hp).
    destruct Hpad as (i & dk & p & -> & Hdk & Hpv & Hpa' & Hk' & Hk1').
    destruct (pending ds (bal_acc b)) as [k|] eqn:Epe; [|done]. cbn in Hpe. injection Hpe as <-.
    exists i, dk, p. split_and!; try done.
    rewrite Hk in Hk'. injection Hk' as ->. cbn in Hkv. injection Hkv as <-.
    rewrite Hk1 in Hk1'. injection Hk1' as ->. cbn in Hk1v. injection Hk1v as <-.
    cbn [c_booked]. unfold total_in.
    rewrite <- !esum_posted, entries_app, esum_app, (esum_insert _ _ _ _ _ _ Hk1) by done.
    unfold entries at 2. cbn [mbind list_bind entries_of b_variant booked_of app].
    rewrite esum_nil. cbn [set_variant entries_of b_variant set_postings bt_postings].
    change (posting_entry <$> calculate_balance_pad_postings (bal_cur b) _ (bal_acc b) (pad_source p)) with
      [(bal_acc b, bal_cur b, dec_value (dec_sub (bal_units b)
          (total_rollup_units_for_currency L ord (c_acc c) (bal_acc b) (bal_cur b))));
       (pad_source p, bal_cur b, dec_value (dec_neg (dec_sub (bal_units b)
          (total_rollup_units_for_currency L ord (c_acc c) (bal_acc b) (bal_cur b)))))].
    rewrite esum_two, under_refl, String.eqb_refl. cbn [andb]. rewrite andb_true_r.
    destruct (under (bal_acc b) (pad_source p)).
    + rewrite !dec_neg_value, dec_sub_value, Hroll, esum_posted. ring.
    + rewrite dec_sub_value, Hroll, esum_posted. ring.
Qed.

(** A balance appended to a ledger which books. *)
Lemma balance_appended opt ds bs ws d b :
  book opt ds = BookSuccess bs ws → d_variant d = DBalance b →
  use_report (at_directive (length ds)) ds (bal_acc b) (bal_cur b) = None →
  let diff := (dec_value (bal_units b) - posted (in_subtree (bal_acc b) (bal_cur b)) bs)%Q in
  let tol := balance_tolerance (lib_multiplier L) b in
  ((Qabs diff <= tol)%Q ∧ ∃ b', book opt (ds ++ [d]) = BookSuccess (bs ++ [b']) ws ∧
      same_header (length ds) d b' ∧ same_content (d_variant d) (b_variant b')) ∨
  ((tol < Qabs diff)%Q ∧ ∃ m r, book opt (ds ++ [d]) = BookFailure [r] ∧
      balance_failure (length ds) m (bal_cur b) r ∧ (dec_value m == diff)%Q).
Proof.
  intros Hbook Hvb Hu. cbn zeta.
  destruct (book_success_run _ _ _ _ _ _ Hbook) as (c & Hrun & He & Hbs & Hws & Hup). subst bs ws.
  pose proof (wf_run L ord opt ds c Hrun) as Hwf.
  pose proof (pend_run L ord opt ds c Hrun) as Hpend.
  rewrite !book_run, run_snoc, Hrun.
  assert (∀ a, pending ds a = None) as Hnone.
  { intros a. destruct (pending ds a) as [k|] eqn:E; [|done]. exfalso.
    destruct (s_accounts (c_acc c) !! a) as [x|] eqn:Ex.
    - pose proof (Hpend _ _ Ex) as H. rewrite (no_unused_pads ord Hord _ _ _ Hup Ex), E in H. done.
    - apply pending_is_pad in E as (d' & p & Hd' & _ & _ & Hus & _).
      apply life_usable_open_before in Hus as (i & o & Ho).
      apply opens_at_take in Ho as [Ho _].
      assert (is_Some (s_accounts (c_acc c) !! a)) as [x Hx] by (apply (account_exists_iff _ _ _ _ _ _ Hrun); eauto).
      by rewrite Ex in Hx. }
  destruct (collect_step L ord (length ds) d c) as [c'|w] eqn:Es.
  2: { exfalso. destruct (step_panic _ _ _ _ _ _ _ Hrun Es) as (b' & k & dk & p & _ & Hp & _). by rewrite Hnone in Hp. }
  pose proof (collect_step_rel _ _ _ _ _ _ Es) as Hs.
  destruct (balance_errors L ord Hord Hlib _ _ _ _ _ _ Hrun Hs Hvb) as (new & Hnew & Hr).
  assert (corrections (bal_acc b) (bal_cur b) (c_booked c) = 0%Q) as Hcor.
  { apply corrections_none. by eapply (success_no_margin L ord). }
  rewrite Hcor in Hr. set (tot := posted (in_subtree (bal_acc b) (bal_cur b)) (c_booked c)) in *.
  assert (tot + 0 == tot)%Q as Ht by ring.
  assert (unused_pad_reports ord (s_accounts (c_acc c')) = []) as Hup'.
  { assert (run opt (ds ++ [d]) = CRun c') as Hrun' by (by rewrite run_snoc, Hrun).
    apply Permutation_nil. rewrite (unused_pad_reports_spec L ord Hord opt (ds ++ [d]) c' Hrun').
    unfold unused_reports. induction (opened_accounts (ds ++ [d])) as [|a l IH]; [done|].
    rewrite omap_cons_eq. rewrite pending_snoc. unfold pend_step. rewrite Hvb, Hnone.
    by destruct (_ && _). }
  unfold validate. rewrite Hnew, He, Hup', app_nil_r. cbn [app].
  destruct Hr as [r Hr|_ Hq _|k0 _ _ Hp|k0 _ _ Hp|m r _ Hq _ Hm Hf]; [congruence| |by rewrite Hnone in Hp|by rewrite Hnone in Hp|].
  - rewrite Ht in Hq. left. split; [done|]. clear Ht.
    rewrite app_nil_r in Hnew. 
    step_cases Hs; rewrite Hvb in Hv; try done; try (injection Hv as <-);
      cbn [c_errors] in Hnew; try (exfalso; by apply (snoc_not_nil [] err); rewrite He in Hnew).
    + eexists. cbn [c_booked c_acc s_warnings put_account set_accounts]. split; [reflexivity|]. split; [done|]. rewrite Hvb; constructor.
    + exfalso. rewrite He in Hnew. done.
    + exfalso. pose proof (Hpend _ _ Ha) as H. rewrite Hp, Hnone in H. done.
  - rewrite Ht in Hq, Hm. right. split; [done|]. exists m, r. done.
Qed.

(** A second balance on the same account and currency directly after. *)
Lemma balance_again opt ds d1 d2 b1 b2 :
  (∀ w, book opt (ds ++ [d1; d2]) ≠ BookPanic w) →
  d_variant d1 = DBalance b1 → d_variant d2 = DBalance b2 →
  bal_acc b2 = bal_acc b1 → bal_cur b2 = bal_cur b1 →
  use_report (at_directive (length ds)) ds (bal_acc b1) (bal_cur b1) = None →
  ∃ c1 c2, run opt ds = CRun c1 ∧ run opt (ds ++ [d1]) = CRun c2 ∧ step (length ds) d1 c1 c2 ∧
  let total := total_in (bal_acc b1) (bal_cur b1) (c_booked c2) in
  let tol := balance_tolerance (lib_multiplier L) b2 in
    ((Qabs (dec_value (bal_units b2) - total) <= tol)%Q ∧
       reports_at (S (length ds)) (errors_of (book opt (ds ++ [d1; d2]))) = []) ∨
    ((tol < Qabs (dec_value (bal_units b2) - total))%Q ∧
       ∃ m r, reports_at (S (length ds)) (errors_of (book opt (ds ++ [d1; d2]))) = [r] ∧
         balance_failure (S (length ds)) m (bal_cur b1) r ∧
         (dec_value m == dec_value (bal_units b2) - total)%Q).
Proof.
  intros Hnp Hb1 Hb2 Ha Hc Hu.
  assert ((ds ++ [d1; d2]) !! S (length ds) = Some d2) as Hd2.
  { rewrite lookup_app_r by lia. by replace (S (length ds) - length ds) with 1 by lia. }
  assert (take (S (length ds)) (ds ++ [d1; d2]) = ds ++ [d1]) as Ht.
  { rewrite take_app_ge by lia. by replace (S (length ds) - length ds) with 1 by lia. }
  pose proof Hu as Hu'. apply use_none_usable in Hu' as [Hus Hcur].
  assert (use_report (at_directive (S (length ds))) (ds ++ [d1]) (bal_acc b2) (bal_cur b2) = None) as Hu2.
  { rewrite Ha, Hc. unfold use_report.
    rewrite (life_step_other ds d1) by (rewrite Hb1; done).
    rewrite (proj2 (usable_report _ _) Hus).
    unfold currency_ok in Hcur. destruct (opening ds (bal_acc b1)) as [[i o]|] eqn:Eo; [|done].
    apply opening_first in Eo. apply (first_open_app _ [d1]), opening_first in Eo. by rewrite Eo, Hcur. }
  assert (pending (ds ++ [d1]) (bal_acc b2) = None) as Hp2.
  { rewrite Ha, pending_snoc. unfold pend_step. by rewrite Hb1, String.eqb_refl, Hus, Hcur. }
  pose proof (balance_decided L ord Hord Hlib opt _ _ d2 b2 Hnp Hd2 Hb2) as H.
  rewrite Ht in H. destruct (H Hu2 Hp2) as (c2 & Hrun2 & Hdec).
  rewrite run_snoc in Hrun2. destruct (run opt ds) as [c1|] eqn:E1; [|done].
  exists c1, c2. split; [done|]. rewrite run_snoc, E1. split; [done|].
  split; [by apply collect_step_rel|]. cbn zeta in *. unfold total_in. rewrite <- Ha, <- Hc. exact Hdec.
Qed.

(** The total after a failed balance, or one which used a pad from outside, is
    the asserted one. *)
Lemma balance_exact_after opt ds d1 d2 b1 b2 :
  (∀ w, book opt (ds ++ [d1; d2]) ≠ BookPanic w) →
  d_variant d1 = DBalance b1 → d_variant d2 = DBalance b2 →
  bal_acc b2 = bal_acc b1 → bal_cur b2 = bal_cur b1 →
  use_report (at_directive (length ds)) ds (bal_acc b1) (bal_cur b1) = None →
  ∃ c, run opt ds = CRun c ∧
  let total := total_in (bal_acc b1) (bal_cur b1) (c_booked c) in
  ((balance_tolerance (lib_multiplier L) b1 < Qabs (dec_value (bal_units b1) - total))%Q →
   (∀ k dk p, pending ds (bal_acc b1) = Some k → ds !! k = Some dk → d_variant dk = DPad p →
      under (bal_acc b1) (pad_source p) = false) →
   let gap := (dec_value (bal_units b2) - dec_value (bal_units b1))%Q in
   let tol := balance_tolerance (lib_multiplier L) b2 in
    ((Qabs gap <= tol)%Q ∧ reports_at (S (length ds)) (errors_of (book opt (ds ++ [d1; d2]))) = []) ∨
    ((tol < Qabs gap)%Q ∧
       ∃ m r, reports_at (S (length ds)) (errors_of (book opt (ds ++ [d1; d2]))) = [r] ∧
         balance_failure (S (length ds)) m (bal_cur b1) r ∧ (dec_value m == gap)%Q)) ∧
  ((Qabs (dec_value (bal_units b1) - total) <= balance_tolerance (lib_multiplier L) b1)%Q → 
   let gap := (dec_value (bal_units b2) - total)%Q in
   let tol := balance_tolerance (lib_multiplier L) b2 in
    ((Qabs gap <= tol)%Q ∧ reports_at (S (length ds)) (errors_of (book opt (ds ++ [d1; d2]))) = []) ∨
    ((tol < Qabs gap)%Q ∧
       ∃ m r, reports_at (S (length ds)) (errors_of (book opt (ds ++ [d1; d2]))) = [r] ∧
         balance_failure (S (length ds)) m (bal_cur b1) r ∧ (dec_value m == gap)%Q)).
Proof.
  intros Hnp Hb1 Hb2 Ha Hc Hu.
  destruct (balance_again _ _ _ _ _ _ Hnp Hb1 Hb2 Ha Hc Hu) as (c1 & c2 & H1 & H2 & Hs & Hd).
  exists c1. split; [done|]. cbn zeta in *.
  pose proof (balance_total _ _ _ _ _ _ H1 Hs Hb1 Hu) as Ht. cbn zeta in Ht.
  split.
  - intros Hq Hsrc.
    assert (total_in (bal_acc b1) (bal_cur b1) (c_booked c2) == dec_value (bal_units b1))%Q as He.
    { destruct Ht as [[Hle _]|[(_ & _ & ?)|(_ & k & dk & p & Hp & Hk & Hv & Ht)]].
      - exfalso. by eapply Qlt_not_le.
      - done.
      - by rewrite (Hsrc _ _ _ Hp Hk Hv) in Ht. }
    rewrite He in Hd. destruct Hd as [[? ?]|(? & m & r & ? & ? & Hm)]; [by left|right].
    split; [done|]. exists m, r. rewrite He in Hm. done.
  - intros Hq.
    assert (total_in (bal_acc b1) (bal_cur b1) (c_booked c2) == total_in (bal_acc b1) (bal_cur b1) (c_booked c1))%Q as He.
    { destruct Ht as [[_ ?]|[(Hlt & _)|(Hlt & _)]]; [done|exfalso; by eapply Qlt_not_le..]. }
    rewrite He in Hd. destruct Hd as [[? ?]|(? & m & r & ? & ? & Hm)]; [by left|right].
    split; [done|]. exists m, r. rewrite He in Hm. done.
Qed.

(** The same assertion again is never reported. *)
Lemma balance_repeated opt ds d1 d2 b :
  (∀ w, book opt (ds ++ [d1; d2]) ≠ BookPanic w) →
  d_variant d1 = DBalance b → d_variant d2 = DBalance b →
  use_report (at_directive (length ds)) ds (bal_acc b) (bal_cur b) = None →
  pending ds (bal_acc b) = None → (0 <= balance_tolerance (lib_multiplier L) b)%Q →
  reports_at (S (length ds)) (errors_of (book opt (ds ++ [d1; d2]))) = [].
Proof.
  intros Hnp Hb1 Hb2 Hu Hp Htol.
  destruct (balance_exact_after _ _ _ _ _ _ Hnp Hb1 Hb2 eq_refl eq_refl Hu) as (c & Hc & Hf & Hg).
  cbn zeta in Hf, Hg.
  destruct (Qlt_le_dec (balance_tolerance (lib_multiplier L) b)
              (Qabs (dec_value (bal_units b) - total_in (bal_acc b) (bal_cur b) (c_booked c)))) as [Hlt|Hle].
  - destruct (Hf Hlt) as [[_ ?]|[Hbad _]]; [by rewrite Hp|done|].
    exfalso. assert (dec_value (bal_units b) - dec_value (bal_units b) == 0)%Q as E by ring.
    rewrite E in Hbad. change (Qabs 0) with 0%Q in Hbad. by eapply Qlt_not_le.
  - destruct (Hg Hle) as [[_ ?]|[Hbad _]]; [done|]. exfalso. by eapply Qlt_not_le.
Qed.
End Extend.
