(** Facts about ledgers which book successfully, and about transactions. *)
From Coq Require Import Ascii QArith Qabs.
From stdpp Require Import prelude gmap strings pretty.
From Verif Require Import DecModel DecProofs LedgerTypes BookModel BookSpec BookLib
  BookSteps BookInv BookWf BookLife BookUnits BookPend.
Local Open Scope nat_scope.

Section Success.
Context {P : Type} (L : booking_lib P).
Context (ord : gmap string (account P) → list (string * account P)).
Notation run := (run L ord).
Notation book := (book L ord).

Lemma book_run opt ds :
  book opt ds = match run opt ds with CRun c => validate ord c | CPanic w => BookPanic w end.
Proof. done. Qed.

Lemma book_success_run opt ds bs ws :
  book opt ds = BookSuccess bs ws →
  ∃ c, run opt ds = CRun c ∧ c_errors c = [] ∧ c_booked c = bs ∧ s_warnings (c_acc c) = ws ∧
    unused_pad_reports ord (s_accounts (c_acc c)) = [].
Proof.
  rewrite book_run. destruct (run opt ds) as [c|w]; [|done]. unfold validate.
  destruct (c_errors c ++ _) as [|r l] eqn:E; [|done]. apply app_eq_nil in E as [E1 E2].
  intros [= <- <-]. eauto 10.
Qed.

Lemma book_failure_run opt ds errs :
  book opt ds = BookFailure errs →
  ∃ c, run opt ds = CRun c ∧ errs = c_errors c ++ unused_pad_reports ord (s_accounts (c_acc c)) ∧ errs ≠ [].
Proof.
  rewrite book_run. destruct (run opt ds) as [c|w]; [|done]. unfold validate.
  destruct (c_errors c ++ _) as [|r l] eqn:E; [done|]. intros [= <-]. eauto.
Qed.

(** At every directive of a successful run the step added no error. *)
Lemma success_split opt ds c k d :
  run opt ds = CRun c → c_errors c = [] → ds !! k = Some d →
  ∃ c1 c2, run opt (take k ds) = CRun c1 ∧ c_errors c1 = [] ∧
    step_rel L ord k d c1 c2 ∧ c_errors c2 = [] ∧ run opt (take (S k) ds) = CRun c2.
Proof.
  intros Hrun He Hd. destruct (run_split _ _ _ _ _ _ _ Hrun Hd) as (c1 & c2 & H1 & H2 & H3 & H4 & H5).
  rewrite He in H5. apply prefix_nil_inv in H5. rewrite H5 in H4. apply prefix_nil_inv in H4.
  exists c1, c2. done.
Qed.

Lemma take_len {A} (ds : list A) k d : ds !! k = Some d → length (take k ds) = k.
Proof. intros H. apply take_length_le. apply lookup_lt_Some in H. lia. Qed.

Lemma snoc_not_nil {A} (l : list A) x : l ++ [x] ≠ [].
Proof. by destruct l. Qed.

(** A reopened account is an error. *)
Lemma success_not_reopened opt ds c a k i :
  run opt ds = CRun c → c_errors c = [] → life ds a ≠ Reopened k i.
Proof.
  revert ds c. intros ds c Hrun He Hl.
  assert (∀ ds c, run opt ds = CRun c → c_errors c = [] → ∀ k i, life ds a ≠ Reopened k i) as Hgen; [|by eapply Hgen].
  clear ds c k i Hrun He Hl.
  apply (run_ind L ord opt (λ ds c, c_errors c = [] → ∀ k i, life ds a ≠ Reopened k i)).
  - intros _ k i. discriminate.
  - intros ds d c c' Hrun IH Hstep He k i Hl. apply collect_step_rel in Hstep.
    pose proof (step_errors_prefix _ _ _ _ _ _ Hstep) as Hp. rewrite He in Hp. apply prefix_nil_inv in Hp.
    specialize (IH Hp). rewrite life_snoc in Hl. unfold life_step in Hl.
    destruct (d_variant d) as [t|pr|b|o|b|cu|p|b pa|b co|ty de|n co|cu] eqn:Ev; try by eapply IH.
    + destruct (String.eqb_spec (op_acc o) a) as [Ha|]; [|by eapply IH].
      destruct (life ds a) as [|i'|k'|k' i'] eqn:El; try done; [|by eapply IH].
      pose proof (life_run _ _ _ _ _ Hrun) as Hlf.
      destruct Hstep; cbn in He; try congruence; try (by apply snoc_not_nil in He).
      * by rewrite Ev in H.
      * rewrite Ev in H. injection H as <-. rewrite (lf_closed _ _ _ _ Hlf) in H1.
        rewrite Ha, El in H1. done.
    + destruct (String.eqb b a); [|by eapply IH]. destruct (life ds a) eqn:El; try done. by eapply IH.
Qed.

Lemma success_usable opt ds c a :
  run opt ds = CRun c → c_errors c = [] → usable (life ds a) = true →
  ∃ i o, life ds a = OpenSince i ∧ open_before ds (length ds) a i o.
Proof.
  intros Hrun He Hu. destruct (life ds a) as [|i|k|k i] eqn:El; try done.
  - destruct (life_open_before _ _ _ El) as [o Ho]. eauto.
  - by apply (success_not_reopened _ _ _ _ _ _ Hrun He) in El.
Qed.

Lemma open_before_take ds k a i o :
  k <= length ds → open_before (take k ds) (length (take k ds)) a i o → open_before ds k a i o.
Proof.
  intros Hk H. rewrite take_length_le in H by lia.
  rewrite <- (take_drop k ds) at 1. apply open_before_app; [|done]. rewrite take_length_le by lia. done.
Qed.

Lemma opens_at_take ds k i a o : opens_at (take k ds) i a o → opens_at ds i a o ∧ i < k.
Proof.
  intros (d & Hd & Hr). apply lookup_take_Some in Hd as [Hd Hi]. split; [|done]. by exists d.
Qed.

Lemma opens_at_take_iff ds k i a o : i < k → opens_at (take k ds) i a o ↔ opens_at ds i a o.
Proof.
  intros Hi. unfold opens_at. by rewrite lookup_take.
Qed.
Lemma closes_at_take_iff ds k i a : i < k → closes_at (take k ds) i a ↔ closes_at ds i a.
Proof. intros Hi. unfold closes_at. by rewrite lookup_take. Qed.

(** *** Lifecycle discipline *)

Lemma success_open_step opt ds c k a o :
  run opt ds = CRun c → c_errors c = [] → opens_at ds k a o → life (take k ds) a = Unopened.
Proof.
  intros Hrun He (d & Hd & Hv & Ha). destruct (success_split _ _ _ _ _ Hrun He Hd) as (c1 & c2 & H1 & He1 & Hs & He2 & _).
  pose proof (life_run _ _ _ _ _ H1) as Hlf.
  destruct Hs as [v Hv'| | |o' j Hv' Ho'|o' j Hv' Ho' Hc'|o' s' bk ws Hv' Ho' Hc' _ _| | | | | | | | | | | ];
    cbn in He2; try congruence; try (by apply snoc_not_nil in He2).
  - by rewrite Hv in Hv'.
  - rewrite Hv in Hv'. injection Hv' as <-. subst a.
    rewrite (lf_open _ _ _ _ Hlf) in Ho'. rewrite (lf_closed _ _ _ _ Hlf) in Hc'. by destruct (life _ _).
Qed.

Lemma success_close_step opt ds c k a :
  run opt ds = CRun c → c_errors c = [] → closes_at ds k a → ∃ i, life (take k ds) a = OpenSince i.
Proof.
  intros Hrun He (d & Hd & Hv). destruct (success_split _ _ _ _ _ Hrun He Hd) as (c1 & c2 & H1 & He1 & Hs & He2 & _).
  pose proof (life_run _ _ _ _ _ H1) as Hlf.
  destruct Hs as [v Hv'| | | | | |a' j Hv' Ho' Hc'| | | | | | | | | | ];
    cbn in He2; try congruence; try (by apply snoc_not_nil in He2).
  - by rewrite Hv in Hv'.
  - rewrite Hv in Hv'. injection Hv' as <-.
    rewrite (lf_open _ _ _ _ Hlf) in Ho'. rewrite (lf_closed _ _ _ _ Hlf) in Hc'. destruct (life _ _); eauto; done.
Qed.

Lemma success_pad_step opt ds c k d p :
  run opt ds = CRun c → c_errors c = [] → ds !! k = Some d → d_variant d = DPad p →
  usable (life (take k ds) (pad_acc p)) = true ∧ pending (take k ds) (pad_acc p) = None.
Proof.
  intros Hrun He Hd Hv. destruct (success_split _ _ _ _ _ Hrun He Hd) as (c1 & c2 & H1 & He1 & Hs & He2 & _).
  destruct Hs as [v Hv'| | | | | | | | | | |p' a Hv' Hva' Ha' Hp'| | | | | ];
    cbn in He2; try congruence; try (by apply snoc_not_nil in He2).
  - by rewrite Hv in Hv'.
  - rewrite Hv in Hv'. injection Hv' as <-. split.
    + by apply (validate_none_usable _ _ _ _ _ _ _ H1) in Hva'.
    + apply (pend_run _ _ _ _ _ H1) in Ha'. rewrite Hp' in Ha'. by destruct (pending _ _).
Qed.

Lemma success_balance_step opt ds c k d b :
  run opt ds = CRun c → c_errors c = [] → ds !! k = Some d → d_variant d = DBalance b →
  usable (life (take k ds) (bal_acc b)) = true ∧ currency_ok (take k ds) (bal_acc b) (bal_cur b) = true.
Proof.
  intros Hrun He Hd Hv. destruct (success_split _ _ _ _ _ Hrun He Hd) as (c1 & c2 & H1 & He1 & Hs & He2 & _).
  destruct Hs as [v Hv'| | | | | | | | | | | | | |b' a Hv' Hva' Ha' Hvc' _| |b' a m k' u padd p txnd txn pa s' Hv' Hva' Ha' Hvc' ];
    cbn in He2; try congruence; try (by apply snoc_not_nil in He2).
  - by rewrite Hv in Hv'.
  - rewrite Hv in Hv'. injection Hv' as <-. split.
    + by apply (validate_none_usable _ _ _ _ _ _ _ H1) in Hva'.
    + unfold validate_currency in Hvc'. rewrite (currency_valid_ok _ _ _ _ _ _ _ _ H1 Ha') in Hvc'.
      by destruct (currency_ok _ _ _).
  - rewrite Hv in Hv'. injection Hv' as <-. split.
    + by apply (validate_none_usable _ _ _ _ _ _ _ H1) in Hva'.
    + unfold validate_currency in Hvc'. rewrite (currency_valid_ok _ _ _ _ _ _ _ _ H1 Ha') in Hvc'.
      by destruct (currency_ok _ _ _).
Qed.

(** On success, the account open at some point allows what the first open
    allows: there is only one. *)
Lemma success_currency opt ds c k a cur i o :
  run opt ds = CRun c → c_errors c = [] → k <= length ds →
  currency_ok (take k ds) a cur = true → open_before ds k a i o → allows o cur.
Proof.
  intros Hrun He Hk Hc (Hi & Ho & _). unfold currency_ok in Hc.
  destruct (opening (take k ds) a) as [[i' o']|] eqn:E; [|done]. apply allowsb_spec in Hc.
  apply opening_first in E as [Ho' Hmin]. apply opens_at_take in Ho' as [Ho' Hi'].
  assert (i' = i) as ->.
  { assert (i' <= i) by (eapply Hmin; by apply opens_at_take_iff).
    destruct (decide (i' = i)); [done|]. exfalso.
    pose proof (success_open_step _ _ _ _ _ _ Hrun He Ho) as Hl.
    eapply life_unopened; [exact Hl|]. apply opens_at_take_iff; [|exact Ho']. lia. }
  destruct Ho as (d & Hd & Hv & _), Ho' as (d' & Hd' & Hv' & _).
  rewrite Hd in Hd'. injection Hd' as <-. rewrite Hv in Hv'. by injection Hv' as <-.
Qed.

(** *** Booked transactions *)

(** What was asked of the library when transaction [t], directive [i], was
    booked. *)
Definition call_of (opt : option booking) (ds : list directive) (i : nat) (d : directive)
    (t : transaction) (b : bdirective) : Prop :=
  ∃ c1 ips upd u,
    run opt (take i ds) = CRun c1 ∧
    lib_book L (d_date d) (tx_postings t)
      (λ name, a_positions <$> s_accounts (c_acc c1) !! name)
      (λ name, match s_accounts (c_acc c1) !! name with
               | Some a => a_booking a
               | None => s_default_booking (c_acc c1)
               end) = LibOk ips upd ∧
    validate_postings (c_acc c1) (eidx_of_nat i) 0 (zip ips (tx_postings t)) = ROk u ∧
    b_variant b = BVTransaction (BTransaction (tx_flag t) (tx_payee t) (tx_narration t)
      (booked_postings_from 0 (zip ips (tx_postings t)))).

Definition txn_inv (opt : option booking) (ds : list directive) (c : cst (P:=P)) : Prop :=
  ∀ b, b ∈ c_booked c → b_idx b < length ds ∧
    ∀ d t, ds !! b_idx b = Some d → d_variant d = DTransaction t → call_of opt ds (b_idx b) d t b.

Lemma txn_inv_run opt ds c : run opt ds = CRun c → txn_inv opt ds c.
Proof.
  revert ds c. eapply run_ind.
  - by intros b ?%elem_of_nil.
  - intros ds d c c' Hrun IH Hstep. apply collect_step_rel in Hstep.
    pose proof (wf_run _ _ _ _ _ Hrun) as Hwf.
    assert (∀ b, b ∈ c_booked c → b_idx b < length (ds ++ [d]) ∧
      ∀ d0 t, (ds ++ [d]) !! b_idx b = Some d0 → d_variant d0 = DTransaction t →
        call_of opt (ds ++ [d]) (b_idx b) d0 t b) as Hold.
    { intros b Hb. destruct (IH b Hb) as [Hlt Hc]. split; [rewrite app_length; cbn; lia|].
      intros d0 t Hd0 Hv0. rewrite lookup_app_l in Hd0 by done.
      destruct (Hc d0 t Hd0 Hv0) as (c1 & ips & upd & u & H1 & H2 & H3 & H4).
      exists c1, ips, upd, u. rewrite take_app_le by lia. done. }
    assert (∀ v, (∀ t, d_variant d ≠ DTransaction t) →
      length ds < length (ds ++ [d]) ∧
      ∀ d0 t, (ds ++ [d]) !! length ds = Some d0 → d_variant d0 = DTransaction t →
        call_of opt (ds ++ [d]) (length ds) d0 t (booked_of (length ds) d v)) as Hnew.
    { intros v Hnt. split; [rewrite app_length; cbn; lia|].
      intros d0 t Hd0 Hv0. rewrite lookup_app_r, Nat.sub_diag in Hd0 by lia. injection Hd0 as <-.
      by destruct (Hnt t). }
    destruct Hstep as [v Hv|t s' l Hv Hb|t s' err Hv Hb|o j Hv Ho|o j Hv Ho Hc|o s' bk ws Hv Ho Hc Hbk Hs'
    |a j Hv Ho Hc|a j k Hv Ho Hc|a Hv Ho|p err Hv Hva|p a k u Hv Hva Ha Hp|p a Hv Hva Ha Hp
    |b err Hv Hva|b a err Hv Hva Ha Hvc|b a Hv Hva Ha Hvc Hm|b a m s' rep Hv Hva Ha Hvc Hm Hp Hs' Hrep
    |b a m k u padd p txnd txn pa s' Hv Hva Ha Hvc Hm Hp Hk Hkv Hk1 Hk1v Hs' Hpa];
    intros x; cbn; try (by apply Hold);
    try (rewrite elem_of_app, elem_of_list_singleton; intros [Hx| ->]; [by apply Hold|];
         apply Hnew; congruence).
    + rewrite elem_of_app, elem_of_list_singleton. intros [Hx| ->]; [by apply Hold|].
      apply Hnew. intros t Ht. by rewrite Ht in Hv.
    + rewrite elem_of_app, elem_of_list_singleton. intros [Hx| ->]; [by apply Hold|]. cbn.
      split; [rewrite app_length; cbn; lia|].
      intros d0 t0 Hd0 Hv0. rewrite lookup_app_r, Nat.sub_diag in Hd0 by lia. injection Hd0 as <-.
      rewrite Hv in Hv0. injection Hv0 as <-.
      apply book_txn_ok_inv in Hb as (ips & upd & u & El & Ev & -> & Eu).
      exists c, ips, upd, u. rewrite take_app. done.
    + rewrite elem_of_app, elem_of_cons, elem_of_list_singleton.
      intros [Hx|[-> | ->]]; [by apply Hold|apply Hnew; congruence..].
    + rewrite elem_of_app, elem_of_list_singleton. intros [Hx| ->]; [|apply Hnew; congruence].
      apply elem_of_list_lookup in Hx as [j Hj].
      apply list_lookup_insert_Some in Hj as [(<- & <- & _)|[_ Hj]]; [|apply Hold; by eapply elem_of_list_lookup_2].
      cbn. pose proof (wf_account _ _ Hwf _ _ Ha) as (_ & Hpad & _).
      apply Hpad in Hp as (i & d' & p' & -> & Hd' & Hv' & _ & _ & Htx).
      rewrite Hk1 in Htx. injection Htx as ->. cbn. split.
      * rewrite app_length. apply lookup_lt_Some in Hd'. lia.
      * intros d0 t Hd0 Hv0. rewrite lookup_app_l in Hd0 by (by eapply lookup_lt_Some).
        rewrite Hd' in Hd0. injection Hd0 as <-. congruence.
Qed.

(** Postings of a user transaction are to usable accounts in allowed
    currencies. *)
Lemma txn_posting_ok opt ds c b d t p :
  run opt ds = CRun c → b ∈ c_booked c → ds !! b_idx b = Some d → d_variant d = DTransaction t →
  p ∈ postings_of b →
  usable (life (take (b_idx b) ds) (p_acc p)) = true ∧
  currency_ok (take (b_idx b) ds) (p_acc p) (p_cur p) = true.
Proof.
  intros Hrun Hb Hd Hv Hp. destruct (txn_inv_run _ _ _ Hrun b Hb) as [_ Hc].
  destruct (Hc d t Hd Hv) as (c1 & ips & upd & u & H1 & H2 & H3 & H4).
  unfold postings_of in Hp. rewrite H4 in Hp. cbn in Hp.
  apply booked_postings_from_elem in Hp as (j & ip & ps & Hj & Hp).
  apply booked_postings_of_acc in Hp as [-> ->].
  apply elem_of_list_lookup_2 in Hj.
  eapply validate_postings_ok_elem in H3 as (x & Hopen & Hx & Hcur); [|done].
  split.
  - pose proof (life_run _ _ _ _ _ H1) as Hlf. rewrite (lf_open _ _ _ _ Hlf) in Hopen.
    destruct (life _ _); cbn in *; try done; by destruct Hopen.
  - by rewrite (currency_valid_ok _ _ _ _ _ _ _ _ H1 Hx) in Hcur.
Qed.

End Success.
