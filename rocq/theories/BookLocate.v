(** Where errors are located: each directive's errors are reported at it, or at a
    pad waiting when it is processed. *)
From Coq Require Import Ascii QArith Qabs.
From stdpp Require Import prelude gmap strings pretty.
From Verif Require Import DecModel DecProofs LedgerTypes BookModel BookSpec ReportSpec BookLib
  BookSteps BookInv BookWf BookLife BookUnits BookPend BookSuccess BookPads BookFacts BookReports.
Local Open Scope nat_scope.

Lemma pending_is_pad ds a k :
  pending ds a = Some k → ∃ d p, ds !! k = Some d ∧ d_variant d = DPad p ∧ pad_acc p = a ∧
    usable (life (take k ds) a) = true ∧ pending (take k ds) a = None.
Proof.
  revert k. induction ds as [|d ds IH] using rev_ind; intros k; [done|].
  rewrite pending_snoc. intros H.
  assert (pending ds a = Some k → ∃ d0 p, (ds ++ [d]) !! k = Some d0 ∧ d_variant d0 = DPad p ∧ pad_acc p = a ∧
    usable (life (take k (ds ++ [d])) a) = true ∧ pending (take k (ds ++ [d])) a = None) as Hold.
  { intros (d0 & p & Hd & Hr)%IH. exists d0, p. rewrite take_app_le by (apply lookup_lt_Some in Hd; lia).
    split; [by apply lookup_app_l_Some|done]. }
  unfold pend_step in H. destruct (d_variant d) as [| |b| | | |p| | | | |] eqn:Ev; try by apply Hold.
  - destruct (_ && _); [done|]. by apply Hold.
  - destruct (String.eqb_spec (pad_acc p) a) as [Ha|]; [|by apply Hold].
    destruct (usable (life ds a)) eqn:Eu; [|by apply Hold]. cbn in H.
    destruct (pending ds a) as [k'|] eqn:Ep; [done|]. injection H as <-.
    exists d, p. rewrite take_app, lookup_app_r, Nat.sub_diag by lia. done.
Qed.

Section Locate.
Context {P : Type} (L : booking_lib P).
Context (ord : gmap string (account P) → list (string * account P)).
Notation run := (run L ord).
Notation book := (book L ord).
Notation step := (step_rel L ord).

Lemma validate_account_err_idx (s : accst P) a e err :
  validate_account s a e = Some err → r_idx err = e.
Proof. unfold validate_account. repeat case_match; naive_solver. Qed.

Lemma validate_postings_err_idx (s : accst P) e i l err :
  validate_postings s e i l = RErr err → ei_directive (r_idx err) = ei_directive e.
Proof.
  revert i. induction l as [|[ip ps] l IH]; intros i; cbn; [done|].
  unfold validate_account_and_currency, get_valid_account.
  destruct (validate_account _ _ _) as [err'|] eqn:Ev.
  - intros [= <-]. by rewrite (validate_account_err_idx _ _ _ _ Ev).
  - destruct (s_accounts s !! ps_acc ps) as [x|]; [|done].
    unfold validate_currency. destruct (is_currency_valid _ _); [apply IH|]. by intros [= <-].
Qed.

Lemma book_txn_err_idx (s s' : accst P) dt ps e err :
  book_txn L s dt ps e = (s', RErr err) → ei_directive (r_idx err) = ei_directive e.
Proof.
  unfold book_txn. destruct (lib_book _ _ _ _ _) as [ips upd|msg|idx msg]; [|by intros [= _ <-]..].
  destruct (validate_postings _ _ _ _) as [u|e'|w] eqn:Ev; [|intros [= _ <-]; by eapply validate_postings_err_idx|done].
  destruct (update_inventory s e upd) as [s1 [u'|e'|w]] eqn:Eu; [done| |done].
  intros [= _ <-]. apply update_inventory_err in Eu as (n & s2 & _ & Hv).
  by rewrite (validate_account_err_idx _ _ _ _ Hv).
Qed.

(** The errors added by a step. *)
Lemma step_new_errors opt ds c d c' :
  run opt ds = CRun c → step (length ds) d c c' →
  ∃ new, c_errors c' = c_errors c ++ new ∧
    (Forall (λ r, ei_directive (r_idx r) = length ds) new ∨
     ∃ a k, pending ds a = Some k ∧
       ((∃ p, d_variant d = DPad p ∧ pad_acc p = a ∧ usable (life ds a) = true ∧
           new = [Report "unused, second pad encountered" (at_directive k) (Some [at_directive (length ds)]) None]) ∨
        (∃ b, d_variant d = DBalance b ∧ bal_acc b = a ∧ usable (life ds a) = true ∧
           currency_ok ds a (bal_cur b) = true ∧ new = [unneeded_pad k]))).
Proof.
  intros Hrun Hs.
  assert (c_errors c = c_errors c ++ []) as Hnil by (by rewrite app_nil_r).
  step_cases Hs; cbn; try (by exists []; rewrite app_nil_r; split; [done|left; constructor]);
    try (by eexists; split; [reflexivity|left; constructor; [done|constructor]]).
  - eexists. split; [reflexivity|left]. constructor; [|constructor]. by apply book_txn_err_idx in Hb.
  - eexists. split; [reflexivity|left]. constructor; [|constructor]. by apply validate_account_err_idx in Hva as ->.
  - eexists. split; [reflexivity|right]. exists (pad_acc p0).
    pose proof (pend_run _ _ _ _ _ Hrun _ _ Ha) as Hpe. rewrite Hp in Hpe.
    destruct (pending ds (pad_acc p0)) as [k1|] eqn:Ep; [|done]. exists k1. split; [done|left].
    exists p0. split_and!; try done.
    + by apply (validate_none_usable _ _ _ _ _ _ _ Hrun) in Hva.
    + cbn in Hpe. injection Hpe as ->. done.
  - eexists. split; [reflexivity|left]. constructor; [|constructor]. by apply validate_account_err_idx in Hva as ->.
  - eexists. split; [reflexivity|left]. constructor; [|constructor].
    unfold validate_currency in Hvc. destruct (is_currency_valid _ _); [done|]. by injection Hvc as <-.
  - eexists. split; [reflexivity|].
    pose proof (pend_run _ _ _ _ _ Hrun _ _ Ha) as Hpe.
    destruct (a_pad a0) as [[k u]|] eqn:Hp; [right|left; constructor].
    cbn in Hpe. destruct (pending ds (bal_acc b0)) as [k1|] eqn:Ep; [|done]. cbn in Hpe. injection Hpe as ->.
    exists (bal_acc b0), k1. split; [done|right]. exists b0. split_and!; try done.
    + by apply (validate_none_usable _ _ _ _ _ _ _ Hrun) in Hva.
    + unfold validate_currency in Hvc. rewrite (currency_valid_ok _ _ _ _ _ _ _ _ Hrun Ha) in Hvc.
      by destruct (currency_ok _ _ _).
  - eexists. split; [reflexivity|left]. constructor; [|constructor].
    by apply balance_report_failure in Hrep as [-> _].
Qed.

Lemma reports_at_app k l l' : reports_at k (l ++ l') = reports_at k l ++ reports_at k l'.
Proof. apply filter_app. Qed.

Lemma reports_at_none k l : Forall (λ r, ei_directive (r_idx r) ≠ k) l → reports_at k l = [].
Proof.
  induction 1 as [|r l Hr _ IH]; [done|]. unfold reports_at. rewrite filter_cons_False by done. exact IH.
Qed.
Lemma reports_at_all k l : Forall (λ r, ei_directive (r_idx r) = k) l → reports_at k l = l.
Proof.
  induction 1 as [|r l Hr _ IH]; [done|]. unfold reports_at. rewrite filter_cons_True by done. f_equal. exact IH.
Qed.

(** Errors so far are at earlier directives. *)
Lemma errors_before opt ds c : run opt ds = CRun c → Forall (λ r, ei_directive (r_idx r) < length ds) (c_errors c).
Proof.
  intros Hrun. eapply Forall_impl; [exact (wf_errors _ _ (wf_run _ _ _ _ _ Hrun))|].
  intros r [(d & Hd & _) _]. by eapply lookup_lt_Some.
Qed.

(** After the step of directive [k], reports at [k] change only while a pad at [k]
    is pending. *)
Lemma reports_at_later opt ds ds' c c' k :
  run opt ds = CRun c → run opt (ds ++ ds') = CRun c' → k < length ds →
  (∀ a, pending ds a ≠ Some k) →
  reports_at k (c_errors c') = reports_at k (c_errors c) ∧ ∀ a, pending (ds ++ ds') a ≠ Some k.
Proof.
  revert c'. induction ds' as [|d ds' IH] using rev_ind; intros c' Hrun Hrun' Hk Hnp.
  - rewrite app_nil_r in *. rewrite Hrun in Hrun'. injection Hrun' as <-. done.
  - rewrite app_assoc in Hrun' |- *. rewrite run_snoc in Hrun'.
    destruct (run opt (ds ++ ds')) as [c1|] eqn:E1; [|done].
    destruct (IH c1 Hrun eq_refl Hk Hnp) as [IH1 IH2]. split.
    + apply collect_step_rel in Hrun'. destruct (step_new_errors _ _ _ _ _ E1 Hrun') as (new & -> & Hnew).
      rewrite reports_at_app, IH1. rewrite (reports_at_none k new); [by rewrite app_nil_r|].
      destruct Hnew as [Hn|(a & k' & Hp & [(p & _ & _ & _ & ->)|(b & _ & _ & _ & _ & ->)])].
      * eapply Forall_impl; [done|]. cbn. intros r ->. rewrite app_length. lia.
      * constructor; [|constructor]. cbn. intros ->. by apply IH2 in Hp.
      * constructor; [|constructor]. cbn. intros ->. by apply IH2 in Hp.
    + intros a. rewrite pending_snoc. unfold pend_step.
      destruct (d_variant d); try apply IH2.
      * destruct (_ && _); [done|apply IH2].
      * destruct (_ && _); [|apply IH2]. destruct (pending (ds ++ ds') a); [done|].
        intros [= Heq]. rewrite app_length in Heq. lia.
Qed.

(** The errors of a result. *)
Lemma reports_at_trail k ds :
  (∀ a, pending ds a ≠ Some k) → reports_at k (unused_reports ds) = [].
Proof.
  intros Hnp. apply reports_at_none. apply Forall_forall. intros r Hr.
  unfold unused_reports in Hr. apply elem_of_list_omap in Hr as (a & _ & Hr).
  destruct (pending ds a) as [k'|] eqn:Ep; [|done]. injection Hr as <-. cbn. intros ->. by apply Hnp in Ep.
Qed.

End Locate.
