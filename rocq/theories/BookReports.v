(** Which errors each step adds. *)
From Coq Require Import Ascii QArith Qabs.
From stdpp Require Import prelude gmap strings pretty.
From Verif Require Import DecModel DecProofs LedgerTypes BookModel BookSpec ReportSpec BookLib
  BookSteps BookInv BookWf BookLife BookUnits BookPend BookSuccess BookPads BookFacts.
Local Open Scope nat_scope.

Ltac step_cases Hs :=
  destruct Hs as [v0 Hv|t0 s0 l0 Hv Hb|t0 s0 err Hv Hb|o0 j0 Hv Ho|o0 j0 Hv Ho Hc|o0 s0 bk0 ws0 Hv Ho Hc Hbk Hs0
    |a0 j0 Hv Ho Hc|a0 j0 k0 Hv Ho Hc|a0 Hv Ho|p0 err Hv Hva|p0 a0 k0 u0 Hv Hva Ha Hp|p0 a0 Hv Hva Ha Hp
    |b0 err Hv Hva|b0 a0 err Hv Hva Ha Hvc|b0 a0 Hv Hva Ha Hvc Hm|b0 a0 m0 s0 rep Hv Hva Ha Hvc Hm Hp Hs0 Hrep
    |b0 a0 m0 k0 u0 padd p0 txnd txn pa s0 Hv Hva Ha Hvc Hm Hp Hk Hkv Hk1 Hk1v Hs0 Hpa].

Section Reports.
Context {P : Type} (L : booking_lib P).
Context (ord : gmap string (account P) → list (string * account P)).
Notation run := (run L ord).
Notation step := (step_rel L ord).

Lemma passive_not v bv : passive_copy v = Some bv →
  (∀ t, v ≠ DTransaction t) ∧ (∀ b, v ≠ DBalance b) ∧ (∀ o, v ≠ DOpen o) ∧ (∀ a, v ≠ DClose a) ∧ (∀ p, v ≠ DPad p).
Proof. by destruct v. Qed.

Ltac other := match goal with
  | H : passive_copy (d_variant ?d) = Some _, H' : d_variant ?d = _ |- _ => by rewrite H' in H
  end.

Lemma passive_errors opt ds c d c' bv :
  run opt ds = CRun c → step (length ds) d c c' → passive_copy (d_variant d) = Some bv →
  c_errors c' = c_errors c.
Proof.
  intros Hrun Hs Hp. apply passive_not in Hp as (? & ? & ? & ? & ?). step_cases Hs; try done; exfalso; naive_solver.
Qed.

Lemma open_errors opt ds c d c' o :
  run opt ds = CRun c → step (length ds) d c c' → d_variant d = DOpen o →
  c_errors c' = c_errors c ++ open_reports (length ds) (life ds (op_acc o)).
Proof.
  intros Hrun Hs Hd. pose proof (life_run _ _ _ _ _ Hrun) as Hl.
  pose proof (lf_open _ _ _ _ Hl) as Hlo. pose proof (lf_closed _ _ _ _ Hl) as Hlc.
  step_cases Hs; rewrite Hd in Hv; try done; injection Hv as <-; rewrite Hlo in *; rewrite ?Hlc in *;
    destruct (life ds (op_acc o)) eqn:El; cbn in *; try done; rewrite ?app_nil_r; try done; try congruence.
  - by injection Ho as <-.
  - by injection Ho as <-.
  - by injection Hc as <-.
Qed.

Lemma close_errors opt ds c d c' a :
  run opt ds = CRun c → step (length ds) d c c' → d_variant d = DClose a →
  c_errors c' = c_errors c ++ close_reports (length ds) (life ds a).
Proof.
  intros Hrun Hs Hd. pose proof (life_run _ _ _ _ _ Hrun) as Hl.
  pose proof (lf_open _ _ _ _ Hl) as Hlo. pose proof (lf_closed _ _ _ _ Hl) as Hlc.
  step_cases Hs; rewrite Hd in Hv; try done; injection Hv as <-; rewrite Hlo in *; rewrite ?Hlc in *;
    destruct (life ds a) eqn:El; cbn in *; try done; rewrite ?app_nil_r; try done.
  - by injection Hc as <-.
Qed.

Lemma pad_errors opt ds c d c' p :
  run opt ds = CRun c → step (length ds) d c c' → d_variant d = DPad p →
  c_errors c' = c_errors c ++ pad_reports (length ds) ds p.
Proof.
  intros Hrun Hs Hd. unfold pad_reports.
  step_cases Hs; rewrite Hd in Hv; try done; injection Hv as <-;
    rewrite (validate_account_life _ _ _ _ _ _ _ Hrun) in Hva; unfold eidx_of_nat, at_directive in *; rewrite Hva; try done.
  - pose proof (pend_run _ _ _ _ _ Hrun _ _ Ha) as Hpe. rewrite Hp in Hpe.
    destruct (pending ds (pad_acc p)) as [k1|]; [|done]. cbn in Hpe. injection Hpe as ->. done.
  - pose proof (pend_run _ _ _ _ _ Hrun _ _ Ha) as Hpe. rewrite Hp in Hpe.
    destruct (pending ds (pad_acc p)) as [k1|]; [done|]. cbn. by rewrite app_nil_r.
Qed.

Lemma currency_report opt ds c a x cur e :
  run opt ds = CRun c → s_accounts (c_acc c) !! a = Some x → validate_account (c_acc c) a e = None →
  validate_currency x cur e = use_report e ds a cur.
Proof.
  intros Hrun Hx Hva. rewrite (validate_account_life _ _ _ _ _ _ _ Hrun) in Hva.
  unfold use_report, validate_currency. rewrite Hva.
  pose proof (currency_valid_ok _ _ _ _ _ _ _ cur Hrun Hx) as Hc.
  apply (lf_account _ _ _ _ (life_run _ _ _ _ _ Hrun)) in Hx as (i & o & Hf & Hop & _).
  rewrite Hc. unfold currency_ok. apply opening_first in Hf as ->. rewrite Hop. done.
Qed.

Lemma balance_report_failure s base m cur k bds rep :
  balance_report (P:=P) s base m cur (eidx_of_nat k) bds = ROk rep → balance_failure k m cur rep.
Proof.
  unfold balance_report. destruct (s_accounts s !! base) as [x|]; [|done].
  destruct (a_window x) as [[ws we]|]; [|done]. destruct (_ && _); [|done].
  destruct (fold_left _ _ _) as [[tot diags] accs]. intros [= <-].
  split; [done|]. split; [done|]. split; [by eexists|by eexists].
Qed.

Section Bal.
Context (Hord : ∀ m, ord m ≡ₚ map_to_list m) (Hlib : lib_ok L).

Lemma balance_errors opt ds c d c' b :
  run opt ds = CRun c → step (length ds) d c c' → d_variant d = DBalance b →
  ∃ new, c_errors c' = c_errors c ++ new ∧
    balance_reports (length ds) ds b
      (posted (in_subtree (bal_acc b) (bal_cur b)) (c_booked c) +
       corrections (bal_acc b) (bal_cur b) (c_booked c))
      (balance_tolerance (lib_multiplier L) b) new.
Proof.
  intros Hrun Hs Hd. pose proof (rollup_run L ord Hord Hlib _ _ _ (bal_acc b) (bal_cur b) Hrun) as Hroll.
  step_cases Hs; rewrite Hd in Hv; try done; injection Hv as <-.
  - exists [err]. split; [done|]. apply BR_use. unfold use_report.
    rewrite (validate_account_life _ _ _ _ _ _ _ Hrun) in Hva. unfold eidx_of_nat, at_directive in *. by rewrite Hva.
  - exists [err]. split; [done|]. apply BR_use. by rewrite (currency_report _ _ _ _ _ _ _ Hrun Ha Hva) in Hvc.
  - rewrite (currency_report _ _ _ _ _ _ _ Hrun Ha Hva) in Hvc. cbn.
    pose proof (pend_run _ _ _ _ _ Hrun _ _ Ha) as Hpe.
    unfold bal_margin in Hm. apply margin_none in Hm.
    rewrite effective_tolerance_value, Hroll in Hm.
    eexists. split; [reflexivity|]. destruct (a_pad a0) as [[k u]|]; cbn in Hpe.
    + destruct (pending ds (bal_acc b)) as [k1|] eqn:Ep; [|done]. cbn in Hpe. injection Hpe as ->.
      by apply BR_unneeded.
    + destruct (pending ds (bal_acc b)) as [k1|] eqn:Ep; [done|]. by apply BR_within.
  - rewrite (currency_report _ _ _ _ _ _ _ Hrun Ha Hva) in Hvc. cbn.
    pose proof (pend_run _ _ _ _ _ Hrun _ _ Ha) as Hpe. rewrite Hp in Hpe.
    destruct (pending ds (bal_acc b)) as [k1|] eqn:Ep; [done|].
    unfold bal_margin in Hm. apply margin_some in Hm as [Hmeq Hm].
    rewrite effective_tolerance_value, Hroll in Hm.
    exists [rep]. split; [done|]. eapply (BR_failed _ _ _ _ _ m0); [done|done|done| |].
    + rewrite Hmeq, dec_sub_value, Hroll. done.
    + by eapply balance_report_failure.
  - rewrite (currency_report _ _ _ _ _ _ _ Hrun Ha Hva) in Hvc. cbn.
    pose proof (pend_run _ _ _ _ _ Hrun _ _ Ha) as Hpe. rewrite Hp in Hpe.
    destruct (pending ds (bal_acc b)) as [k1|] eqn:Ep; [|done].
    unfold bal_margin in Hm. apply margin_some in Hm as [Hmeq Hm].
    rewrite effective_tolerance_value, Hroll in Hm.
    exists []. split; [by rewrite app_nil_r|]. by eapply BR_padded.
Qed.
End Bal.

(** Transactions: the library's inputs, and what its answer leads to. *)
Definition lib_call (c : cst (P:=P)) (dt : date) (ps : list posting_spec) : lib_result P :=
  lib_book L dt ps
    (λ name, a_positions <$> s_accounts (c_acc c) !! name)
    (λ name, match s_accounts (c_acc c) !! name with
             | Some a => a_booking a
             | None => s_default_booking (c_acc c)
             end).

Lemma validate_postings_spec opt ds c i l :
  run opt ds = CRun c →
  validate_postings (c_acc c) (eidx_of_nat (length ds)) i l =
  match first_use_report ds (length ds) i ((λ x, (ps_acc x.2, in_currency x.1)) <$> l) with
  | Some r => RErr r
  | None => ROk tt
  end.
Proof.
  intros Hrun. revert i. induction l as [|[ip ps] l IH]; intros i; [done|]. cbn.
  unfold validate_account_and_currency, get_valid_account.
  change (eidx_with_posting (eidx_of_nat (length ds)) i) with (EIdx (length ds) (Some i)).
  destruct (validate_account (c_acc c) (ps_acc ps) (EIdx (length ds) (Some i))) as [err|] eqn:Hva.
  - rewrite (validate_account_life _ _ _ _ _ _ _ Hrun) in Hva. unfold use_report. by rewrite Hva.
  - destruct (validate_account_open _ _ _ Hva) as [z Hz].
    destruct (proj2 (wf_dom _ _ (wf_run _ _ _ _ _ Hrun) (ps_acc ps))) as [x Hx]; [left; eauto|].
    rewrite Hx, (currency_report _ _ _ _ _ _ _ Hrun Hx Hva).
    destruct (use_report _ ds (ps_acc ps) (in_currency ip)); [done|]. apply IH.
Qed.

(** What booking a transaction means for the errors. *)
Definition txn_reports (c : cst (P:=P)) (ds : list directive) (d : directive) (t : transaction) : list report :=
  txn_answer_reports (length ds) ds t (lib_call c (d_date d) (tx_postings t)).

Lemma wf_open_account opt ds c n x :
  run opt ds = CRun c → s_open (c_acc c) !! n = Some x → is_Some (s_accounts (c_acc c) !! n).
Proof. intros Hrun Hx. apply (wf_dom _ _ (wf_run _ _ _ _ _ Hrun)). left. eauto. Qed.

Lemma update_inventory_total opt ds c e dt ps inv bk ips upd u :
  lib_ok L → run opt ds = CRun c →
  lib_book L dt ps inv bk = LibOk ips upd →
  validate_postings (c_acc c) e 0 (zip ips ps) = ROk u →
  ∃ s2, update_inventory (c_acc c) e upd = (s2, ROk tt).
Proof.
  intros Hlib Hrun El Ev.
  pose proof (λ n x, wf_open_account _ _ _ n x Hrun) as Hdom.
  destruct (lk_names L Hlib _ _ _ _ _ _ El) as [Hnd Hsub].
  pose proof (lk_length L Hlib _ _ _ _ _ _ El) as Hlen. set (s := c_acc c) in *.
  assert (∀ n, n ∈ upd.*1 → is_Some (s_open s !! n)) as Hopen.
  { intros n Hn. apply Hsub in Hn. apply elem_of_list_fmap in Hn as (psp & -> & Hps).
    apply elem_of_list_lookup in Hps as [j Hj].
    destruct (ips !! j) as [ip|] eqn:Eip.
    2: { apply lookup_ge_None in Eip. apply lookup_lt_Some in Hj. lia. }
    eapply (validate_postings_ok_elem _ _ _ _ _ ip psp) in Ev as (x & ? & _); [done|].
    eapply elem_of_list_lookup_2. rewrite lookup_zip_with, Eip. cbn. by rewrite Hj. }
  assert (∀ l s1, only_positions s s1 → (∀ n, n ∈ l.*1 → is_Some (s_open s !! n)) →
     ∃ s2, update_inventory s1 e l = (s2, ROk tt)) as Hupd; [|by apply Hupd; [apply only_positions_refl|]].
  induction l as [|[n p] l IH]; intros s1 Ho Hall; cbn; [eauto|].
  destruct Ho as (Ho & Hr). destruct (Hall n) as [z Hz]; [by left|].
  unfold get_valid_account, validate_account. rewrite Ho, Hz.
  destruct (Hdom n z Hz) as [x Hx]. destruct Hr as (Hr1 & Hr2 & Hr3 & Hr4).
  pose proof (Hr4 n) as Hr4n. rewrite Hx in Hr4n.
  destruct (s_accounts s1 !! n) as [x1|] eqn:Ex1; [|done].
  apply IH; [|intros; apply Hall; by right].
  eapply only_positions_trans; [|by apply only_positions_put]. done.
Qed.

Lemma txn_errors opt ds c d c' t :
  lib_ok L →
  run opt ds = CRun c → step (length ds) d c c' → d_variant d = DTransaction t →
  c_errors c' = c_errors c ++ txn_reports c ds d t ∧
  (txn_reports c ds d t ≠ [] → c_acc c' = c_acc c ∧ c_booked c' = c_booked c).
Proof.
  intros Hlib Hrun Hs Hd. unfold txn_reports, txn_answer_reports, lib_call.
  pose proof (λ n x, wf_open_account _ _ _ n x Hrun) as Hdom.
  step_cases Hs; rewrite Hd in Hv; try done; injection Hv as <-; cbn.
  - apply book_txn_ok_inv in Hb as (ips & upd & u & El & Ev & -> & Eu). rewrite El.
    rewrite (validate_postings_spec _ _ _ _ _ Hrun) in Ev. 
    destruct (first_use_report _ _ _ _); [done|]. by rewrite app_nil_r.
  - pose proof (book_txn_err_state _ Hlib _ _ _ _ _ _ Hdom Hb) as ->.
    unfold book_txn in Hb.
    destruct (lib_book _ _ _ _ _) as [ips upd|msg|idx msg] eqn:El.
    + destruct (validate_postings _ _ _ _) as [u|e|w] eqn:Evp.
      * destruct (update_inventory_total _ _ _ _ _ _ _ _ _ _ _ Hlib Hrun El Evp) as [s2 Hu].
        by rewrite Hu in Hb.
      * injection Hb as ->. rewrite (validate_postings_spec _ _ _ _ _ Hrun) in Evp.
        destruct (first_use_report _ _ _ _); [|done]. by injection Evp as ->.
      * done.
    + by injection Hb as <-.
    + by injection Hb as <-.
Qed.
End Reports.
