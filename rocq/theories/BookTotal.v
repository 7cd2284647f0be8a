(** Booking panics only where a pad from an account without an open directive is
    consumed. *)
From Coq Require Import Ascii QArith.
From stdpp Require Import prelude gmap strings pretty.
From Verif Require Import DecModel DecProofs LedgerTypes BookModel BookSpec ReportSpec BookLib
  BookSteps BookInv BookWf BookLife BookUnits BookPend BookSuccess BookPads BookFacts BookReports BookLocate.
Local Open Scope nat_scope.

Section Total.
Context {P : Type} (L : booking_lib P).
Context (ord : gmap string (account P) → list (string * account P)).
Notation run := (run L ord).
Notation book := (book L ord).

Definition dom_ok (s : accst P) : Prop := ∀ n e, s_open s !! n = Some e → is_Some (s_accounts s !! n).

Lemma get_valid_no_panic s n e w : dom_ok s → get_valid_account s n e ≠ RPanic w.
Proof.
  intros Hd. unfold get_valid_account, validate_account.
  destruct (s_open s !! n) as [x|] eqn:E; [|by destruct (s_closed s !! n)].
  apply Hd in E as [a ->]. done.
Qed.

Lemma validate_postings_no_panic s e i l w : dom_ok s → validate_postings s e i l ≠ RPanic w.
Proof.
  intros Hd. revert i. induction l as [|[ip ps] l IH]; intros i; cbn; [done|].
  unfold validate_account_and_currency. destruct (get_valid_account s _ _) as [a|err|w'] eqn:E; [|done|].
  - destruct (validate_currency _ _ _); [done|]. apply IH.
  - by apply get_valid_no_panic in E.
Qed.

Lemma update_inventory_no_panic s e l w s' : dom_ok s → update_inventory s e l ≠ (s', RPanic w).
Proof.
  revert s. induction l as [|[n p] l IH]; intros s Hd; cbn; [done|].
  destruct (get_valid_account s n e) as [a|err|w'] eqn:E; [|done|].
  - apply IH. intros m x Hm. cbn in *. destruct (decide (n = m)) as [->|]; [rewrite lookup_insert; eauto|].
    rewrite lookup_insert_ne by done. by eapply Hd.
  - by apply get_valid_no_panic in E.
Qed.

Lemma book_txn_no_panic s dt ps e w s' : dom_ok s → book_txn L s dt ps e ≠ (s', RPanic w).
Proof.
  intros Hd. unfold book_txn. destruct (lib_book _ _ _ _ _) as [ips upd|m|i m]; [|done..].
  destruct (validate_postings s e 0 _) as [u|err|w'] eqn:E; [|done|by apply validate_postings_no_panic in E].
  destruct (update_inventory s e upd) as [s1 [u'|err|w']] eqn:E2; [done|done|].
  by apply update_inventory_no_panic in E2.
Qed.

Lemma step_panic opt ds c d w :
  run opt ds = CRun c → collect_step L ord (length ds) d c = CPanic w →
  ∃ b k dk p, d_variant d = DBalance b ∧ pending ds (bal_acc b) = Some k ∧
    ds !! k = Some dk ∧ d_variant dk = DPad p ∧ pad_acc p = bal_acc b ∧
    ∀ i o, ¬ opens_at ds i (pad_source p) o.
Proof.
  intros Hrun Hstep. pose proof (wf_run _ _ _ _ _ Hrun) as Hwf.
  assert (dom_ok (c_acc c)) as Hdom.
  { intros n e He. apply (wf_dom _ _ Hwf). left. eauto. }
  unfold collect_step in Hstep.
  destruct (directive_dct L ord (c_acc c) d _ (c_booked c)) as [[s' bds'] r] eqn:Ed.
  unfold directive_dct in Ed. destruct (d_variant d) as [t| |b|o|a| |p| | | | |] eqn:Ev;
    try (injection Ed as <- <- <-; done).
  - unfold transaction_dct in Ed. destruct (book_txn L _ _ _ _) as [s1 [l|err|w']] eqn:Eb; injection Ed as <- <- <-; try done.
    by apply book_txn_no_panic in Eb.
  - exists b. destruct (balance_dct L ord (c_acc c) b _ (c_booked c)) as [[s1 b1] r1] eqn:Eb.
    injection Ed as <- <- <-. unfold balance_dct in Eb.
    destruct (get_valid_account _ _ _) as [x|err|w'] eqn:Eg; [|injection Eb as <- <- <-; done|by apply get_valid_no_panic in Eg].
    assert (s_accounts (c_acc c) !! bal_acc b = Some x) as Hx.
    { unfold get_valid_account in Eg. destruct (validate_account _ _ _); [done|].
      destruct (s_accounts (c_acc c) !! bal_acc b); [|done]. by injection Eg as ->. }
    destruct (wf_account _ _ Hwf _ _ Hx) as (_ & Hpad & Hwin).
    destruct (validate_currency _ _ _); [injection Eb as <- <- <-; done|].
    destruct (calculate_balance_margin _ _ _) as [m|].
    2: { injection Eb as <- <- <-. cbn in Hstep. by destruct (a_pad x) as [[? ?]|]. }
    cbn [a_pad set_window set_pad] in Eb.
    destruct (a_pad x) as [[k u]|] eqn:Ep.
    + destruct (Hpad k u eq_refl) as (i & dk & p & -> & Hdk & Hp & Hpa & Hk & Hk1).
      rewrite Hk in Eb. cbn [b_variant booked_of] in Eb. rewrite Hk1 in Eb. cbn [b_variant booked_of] in Eb.
      destruct (s_accounts _ !! pad_source p) as [pa|] eqn:Es.
      * injection Eb as <- <- <-. done.
      * exists i, dk, p. split_and!; try done.
        -- pose proof (pend_run _ _ _ _ _ Hrun _ _ Hx) as Hpe. rewrite Ep in Hpe. cbn in Hpe.
           destruct (pending ds (bal_acc b)); [|done]. cbn in Hpe. by injection Hpe as ->.
        -- intros j o Ho. assert (is_Some (s_accounts (c_acc c) !! pad_source p)) as [y Hy].
           { apply (account_exists_iff _ _ _ _ _ _ Hrun). eauto. }
           cbn in Es. destruct (decide (bal_acc b = pad_source p)) as [He|He].
           ++ rewrite <- He, lookup_insert in Es. done.
           ++ rewrite lookup_insert_ne, Hy in Es; done.
    + exfalso. injection Eb as <- <- <-. cbn in Hstep.
      destruct (balance_report _ _ _ _ _ _) as [r|r|w'] eqn:Er; [done|done|].
      unfold balance_report in Er. cbn in Er. rewrite lookup_insert in Er. cbn in Er.
      destruct (a_window x) as [[ws we]|].
      * destruct Hwin as (Hle & (be & Hbe & _) & _).
        assert (we < length (c_booked c)) by (by eapply lookup_lt_Some).
        assert (Nat.leb we (length (c_booked c)) && Nat.leb (length (c_booked c)) (length (c_booked c)) = true) as Hb.
        { apply andb_true_iff; split; apply Nat.leb_le; lia. }
        rewrite Hb in Er. by destruct (fold_left _ _ _) as [[? ?] ?].
      * assert (Nat.leb 0 (length (c_booked c)) && Nat.leb (length (c_booked c)) (length (c_booked c)) = true) as Hb.
        { apply andb_true_iff; split; apply Nat.leb_le; lia. }
        cbn [Nat.leb andb] in Er. cbn [Nat.leb andb] in Hb. rewrite Hb in Er. by destruct (fold_left _ _ _) as [[? ?] ?].
  - destruct (open_dct L _ o _) as [s1 r1] eqn:Eo. injection Ed as <- <- <-. unfold open_dct in Eo.
    destruct (s_open _ !! _); [injection Eo as <- <-; done|].
    destruct (s_closed _ !! _); [injection Eo as <- <-; done|].
    destruct (negb _); injection Eo as <- <-; done.
  - destruct (close_dct _ a _) as [s1 r1] eqn:Eo. injection Ed as <- <- <-. unfold close_dct in Eo.
    destruct (s_open _ !! _); [|injection Eo as <- <-; done].
    destruct (s_closed _ !! _); injection Eo as <- <-; done.
  - destruct (pad_dct _ p _ _) as [s1 r1] eqn:Eo. injection Ed as <- <- <-. unfold pad_dct in Eo.
    destruct (get_valid_account _ _ _) as [x|err|w'] eqn:Eg; [|injection Eo as <- <-; done|by apply get_valid_no_panic in Eg].
    destruct (a_pad x) as [[? ?]|]; injection Eo as <- <-; done.
Qed.

Lemma run_panic opt ds w :
  run opt ds = CPanic w → ∃ j d c, ds !! j = Some d ∧ run opt (take j ds) = CRun c ∧
    collect_step L ord j d c = CPanic w.
Proof.
  induction ds as [|d ds IH] using rev_ind; [done|]. rewrite run_snoc.
  destruct (run opt ds) as [c|w'] eqn:E.
  - intros H. exists (length ds), d, c. rewrite lookup_app_r, Nat.sub_diag, take_app by lia. done.
  - intros [= ->]. destruct (IH eq_refl) as (j & d' & c & Hd & Hr & Hs). exists j, d', c.
    rewrite take_app_le by (apply lookup_lt_Some in Hd; lia). split; [by apply lookup_app_l_Some|done].
Qed.

Lemma book_panic opt ds w :
  book opt ds = BookPanic w →
  ∃ j dj b k dk p, ds !! j = Some dj ∧ d_variant dj = DBalance b ∧
    k < j ∧ ds !! k = Some dk ∧ d_variant dk = DPad p ∧ pad_acc p = bal_acc b ∧
    ∀ i o, i < j → ¬ opens_at ds i (pad_source p) o.
Proof.
  rewrite book_run. destruct (run opt ds) as [c|w'] eqn:E.
  { unfold validate. by destruct (c_errors c ++ _). }
  intros _. apply run_panic in E as (j & dj & c & Hj & Hrun & Hs).
  rewrite <- (take_len _ _ _ Hj) in Hs at 1.
  destruct (step_panic _ _ _ _ _ Hrun Hs) as (b & k & dk & p & Hb & _ & Hk & Hp & Ha & Hno).
  exists j, dj, b, k, dk, p. assert (k < j) as Hkj.
  { apply lookup_lt_Some in Hk. rewrite (take_len _ _ _ Hj) in Hk. done. }
  rewrite lookup_take in Hk by done. split_and!; try done.
  intros i o Hi Ho. apply (Hno i o). by apply opens_at_take_iff.
Qed.

Lemma book_total opt ds : pad_sources_opened ds → ∀ w, book opt ds ≠ BookPanic w.
Proof.
  intros Hsrc w Hb. apply book_panic in Hb as (j & dj & b & k & dk & p & Hj & Hb & Hkj & Hk & Hp & Ha & Hno).
  destruct (Hsrc k dk p j dj b Hk Hp Hkj Hj Hb (eq_sym Ha)) as (i & o & Hi & Ho). by apply (Hno i o).
Qed.
End Total.
