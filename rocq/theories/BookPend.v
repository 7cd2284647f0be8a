(** Pending pads: the recorded pad of every account is the one the ledger
    history determines, in every run. *)
From Coq Require Import Ascii QArith.
From stdpp Require Import prelude gmap strings pretty.
From Verif Require Import DecModel LedgerTypes BookModel BookSpec BookSteps BookInv BookWf BookLife.
Local Open Scope nat_scope.

Lemma find_open_spec i ds a :
  match find_open i ds a with
  | Some (k, o) => ∃ j, k = i + j ∧ first_open ds a j o
  | None => ∀ j o, ¬ opens_at ds j a o
  end.
Proof.
  revert i. induction ds as [|d ds IH]; intros i; cbn.
  - intros j o (d & Hd & _). done.
  - assert (∀ j o, opens_at (d :: ds) (S j) a o ↔ opens_at ds j a o) as Hs.
    { intros j o. unfold opens_at. done. }
    assert ((∀ o, d_variant d = DOpen o → op_acc o ≠ a) →
      match find_open (S i) ds a with
      | Some (k, o) => ∃ j, k = i + j ∧ first_open (d :: ds) a j o
      | None => ∀ j o, ¬ opens_at (d :: ds) j a o
      end) as Hskip.
    { intros Hno. specialize (IH (S i)). destruct (find_open (S i) ds a) as [[k o]|].
      - destruct IH as (j & -> & Ho & Hmin). exists (S j). split; [lia|]. split; [by apply Hs|].
        intros [|j'] o' Ho'.
        + destruct Ho' as (d' & [= <-] & Hv & Ha). by destruct (Hno o').
        + apply Hs, Hmin in Ho'. lia.
      - intros [|j] o Ho.
        + destruct Ho as (d' & [= <-] & Hv & Ha). by destruct (Hno o).
        + apply Hs in Ho. by eapply IH. }
    destruct (d_variant d) as [t|pr|b|o|b|cu|p|b pa|b co|ty de|n co|cu] eqn:Ev;
      try (apply Hskip; done).
    destruct (String.eqb_spec (op_acc o) a) as [Ha|Ha].
    + exists 0. split; [lia|]. split; [by exists d|]. intros; lia.
    + apply Hskip. intros o' [= <-]. done.
Qed.

Lemma opening_first ds a i o : opening ds a = Some (i, o) ↔ first_open ds a i o.
Proof.
  pose proof (find_open_spec 0 ds a) as H. unfold opening.
  destruct (find_open 0 ds a) as [[k o']|].
  - destruct H as (j & -> & Hf). cbn in *. split.
    + by intros [= -> ->].
    + intros Hf'. destruct (first_open_unique _ _ _ _ _ _ Hf Hf') as [-> ->]. done.
  - split; [done|]. intros [Ho _]. by apply H in Ho.
Qed.

Lemma allowsb_spec o cur : allowsb o cur = true ↔ allows o cur.
Proof.
  unfold allowsb, allows. destruct (op_currencies o) as [cs|]; [|done].
  by rewrite orb_true_iff, !bool_decide_eq_true.
Qed.

Lemma pending_upto_app ds ds' n a : n <= length ds → pending_upto (ds ++ ds') n a = pending_upto ds n a.
Proof.
  induction n as [|n IH]; intros Hn; cbn; [done|].
  rewrite lookup_app_l by lia. rewrite take_app_le by lia. rewrite IH by lia. done.
Qed.

Lemma pending_snoc ds d a : pending (ds ++ [d]) a = pend_step ds (length ds) d a (pending ds a).
Proof.
  unfold pending. rewrite app_length, Nat.add_1_r. cbn.
  rewrite lookup_app_r by lia. rewrite Nat.sub_diag. cbn.
  rewrite take_app. by rewrite pending_upto_app by lia.
Qed.

Section Pend.
Context {P : Type} (L : booking_lib P).
Context (ord : gmap string (account P) → list (string * account P)).
Notation run := (run L ord).

Lemma currency_valid_ok opt ds c a x cur :
  run opt ds = CRun c → s_accounts (c_acc c) !! a = Some x →
  is_currency_valid x cur = currency_ok ds a cur.
Proof.
  intros Hrun Hx. apply (lf_account _ _ _ _ (life_run _ _ _ _ _ Hrun)) in Hx as (i & o & Hf & _ & Hal & _).
  unfold currency_ok, is_currency_valid. apply opening_first in Hf as ->. rewrite Hal.
  unfold allowsb. destruct (op_currencies o); [done|]. by rewrite bool_decide_eq_true_2.
Qed.

Lemma validate_none_usable opt ds c a e :
  run opt ds = CRun c → validate_account (c_acc c) a e = None ↔ usable (life ds a) = true.
Proof. intros Hrun. rewrite (validate_account_life _ _ _ _ _ _ _ Hrun). by destruct (life ds a). Qed.

Definition pend_inv (ds : list directive) (c : cst (P:=P)) : Prop :=
  ∀ a x, s_accounts (c_acc c) !! a = Some x → (snd <$> a_pad x) = eidx_of_nat <$> pending ds a.


Lemma pending_other ds d a :
  (∀ p, d_variant d = DPad p → pad_acc p ≠ a) → (∀ b, d_variant d = DBalance b → bal_acc b ≠ a) →
  pending (ds ++ [d]) a = pending ds a.
Proof.
  intros Hp Hb. rewrite pending_snoc. unfold pend_step.
  destruct (d_variant d) as [t|pr|b|o|b|cu|p|b pa|b co|ty de|n co|cu]; try done.
  - destruct (String.eqb_spec (bal_acc b) a) as [E|]; [|done]. by destruct (Hb b).
  - destruct (String.eqb_spec (pad_acc p) a) as [E|]; [|done]. by destruct (Hp p).
Qed.

(** No pad can be pending on an account which was never opened. *)
Lemma pending_unopened ds a : life ds a = Unopened → pending ds a = None.
Proof.
  induction ds as [|d ds IH] using rev_ind; [done|].
  intros Hl. assert (life ds a = Unopened) as Hl'.
  { rewrite life_snoc in Hl. unfold life_step in Hl. destruct (d_variant d); try done;
      case_match; try done; by destruct (life ds a). }
  rewrite pending_snoc, IH by done. unfold pend_step. rewrite Hl'.
  destruct (d_variant d); cbn; try done; by rewrite ?andb_false_r.
Qed.

Lemma pend_same ds d c s' errs bs :
  pend_inv ds c → (∀ a, pending (ds ++ [d]) a = pending ds a) →
  (∀ a y, s_accounts s' !! a = Some y → ∃ x, s_accounts (c_acc c) !! a = Some x ∧ a_pad y = a_pad x) →
  pend_inv (ds ++ [d]) (CSt s' errs bs).
Proof.
  intros Hi Hp Ha a y Hy. cbn in Hy. rewrite Hp. apply Ha in Hy as (x & Hx & ->). by apply Hi.
Qed.

Lemma pend_put ds d c s' errs bs n x y :
  pend_inv ds c → s_accounts (c_acc c) !! n = Some x →
  (∀ a, a ≠ n → pending (ds ++ [d]) a = pending ds a) →
  (snd <$> a_pad y) = eidx_of_nat <$> pending (ds ++ [d]) n →
  s_accounts s' = <[n := y]> (s_accounts (c_acc c)) →
  pend_inv (ds ++ [d]) (CSt s' errs bs).
Proof.
  intros Hi Hx Hoth Hy Hs a z Hz. cbn in Hz. rewrite Hs in Hz. destruct (decide (n = a)) as [<-|Hne].
  - rewrite lookup_insert in Hz. by injection Hz as <-.
  - rewrite lookup_insert_ne in Hz by done. rewrite Hoth by done. by apply Hi.
Qed.

Lemma pend_step_inv opt ds d c c' :
  run opt ds = CRun c → pend_inv ds c → step_rel L ord (length ds) d c c' → pend_inv (ds ++ [d]) c'.
Proof.
  intros Hrun Hi Hstep.
  pose proof (wf_run _ _ _ _ _ Hrun) as Hwf. pose proof (life_run _ _ _ _ _ Hrun) as Hlf.
  assert (∀ a y, s_accounts (c_acc c) !! a = Some y → ∃ x, s_accounts (c_acc c) !! a = Some x ∧ a_pad y = a_pad x)
    as Hrefl by eauto.
  destruct Hstep as [v Hv|t s' l Hv Hb|t s' err Hv Hb|o j Hv Ho|o j Hv Ho Hc|o s' bk ws Hv Ho Hc Hbk Hs'
    |a j Hv Ho Hc|a j k Hv Ho Hc|a Hv Ho|p err Hv Hva|p a k u Hv Hva Ha Hp|p a Hv Hva Ha Hp
    |b err Hv Hva|b a err Hv Hva Ha Hvc|b a Hv Hva Ha Hvc Hm|b a m s' rep Hv Hva Ha Hvc Hm Hp Hs' Hrep
    |b a m k u padd p txnd txn pa s' Hv Hva Ha Hvc Hm Hp Hk Hkv Hk1 Hk1v Hs' Hpa].
  - eapply pend_same; [done| |done]. intros a. apply pending_other; intros x Hd; by rewrite Hd in Hv.
  - apply book_txn_only in Hb. eapply pend_same; [done| |].
    + intros a. apply pending_other; congruence.
    + intros a y Hy. destruct Hb as (_ & _ & _ & _ & H). specialize (H a). rewrite Hy in H.
      destruct (s_accounts (c_acc c) !! a) as [x|]; [|done]. destruct H as [q ->]. eauto.
  - apply book_txn_only in Hb. eapply pend_same; [done| |].
    + intros a. apply pending_other; congruence.
    + intros a y Hy. destruct Hb as (_ & _ & _ & _ & H). specialize (H a). rewrite Hy in H.
      destruct (s_accounts (c_acc c) !! a) as [x|]; [|done]. destruct H as [q ->]. eauto.
  - eapply pend_same; [done| |done]. intros a. apply pending_other; congruence.
  - eapply pend_same; [done| |done]. intros a. apply pending_other; congruence.
  - (* open *)
    intros a y Hy. subst s'. cbn in Hy. rewrite pending_other by congruence.
    destruct (decide (op_acc o = a)) as [<-|Hne].
    + rewrite lookup_insert in Hy. injection Hy as <-. cbn.
      rewrite pending_unopened; [done|]. rewrite (lf_open _ _ _ _ Hlf) in Ho.
      rewrite (lf_closed _ _ _ _ Hlf) in Hc. by destruct (life ds (op_acc o)).
    + rewrite lookup_insert_ne in Hy by done. by apply Hi.
  - eapply pend_same; [done| |done]. intros b. apply pending_other; congruence.
  - eapply pend_same; [done| |done]. intros b. apply pending_other; congruence.
  - eapply pend_same; [done| |done]. intros b. apply pending_other; congruence.
  - (* invalid pad *)
    eapply pend_same; [done| |done]. intros a. rewrite pending_snoc. unfold pend_step. rewrite Hv.
    destruct (String.eqb_spec (pad_acc p) a) as [<-|]; [|done].
    rewrite (validate_account_life _ _ _ _ _ _ _ Hrun) in Hva. by destruct (life ds (pad_acc p)).
  - (* second pad *)
    eapply pend_put; [done|done| | |done].
    + intros b Hne. apply pending_other; congruence.
    + cbn. rewrite pending_snoc. unfold pend_step. rewrite Hv, String.eqb_refl.
      apply (validate_none_usable _ _ _ _ _ Hrun) in Hva. rewrite Hva. cbn.
      apply Hi in Ha. rewrite Hp in Ha. by destruct (pending ds (pad_acc p)).
  - eapply pend_put; [done|done| | |done].
    + intros b Hne. apply pending_other; congruence.
    + cbn. rewrite pending_snoc. unfold pend_step. rewrite Hv, String.eqb_refl.
      apply (validate_none_usable _ _ _ _ _ Hrun) in Hva. rewrite Hva. cbn.
      apply Hi in Ha. rewrite Hp in Ha. by destruct (pending ds (pad_acc p)).
  - (* invalid balance *)
    eapply pend_same; [done| |done]. intros a. rewrite pending_snoc. unfold pend_step. rewrite Hv.
    destruct (String.eqb_spec (bal_acc b) a) as [<-|]; [|done].
    rewrite (validate_account_life _ _ _ _ _ _ _ Hrun) in Hva. by destruct (life ds (bal_acc b)).
  - eapply pend_same; [done| |done]. intros a'. rewrite pending_snoc. unfold pend_step. rewrite Hv.
    destruct (String.eqb_spec (bal_acc b) a') as [<-|]; [|done].
    unfold validate_currency in Hvc. rewrite (currency_valid_ok _ _ _ _ _ _ Hrun Ha) in Hvc.
    destruct (currency_ok ds (bal_acc b) (bal_cur b)); [done|]. by rewrite andb_false_r.
  - assert (pending (ds ++ [d]) (bal_acc b) = None) as Hpn.
    { rewrite pending_snoc. unfold pend_step. rewrite Hv, String.eqb_refl.
      apply (validate_none_usable _ _ _ _ _ Hrun) in Hva. rewrite Hva.
      unfold validate_currency in Hvc. rewrite (currency_valid_ok _ _ _ _ _ _ Hrun Ha) in Hvc.
      by destruct (currency_ok ds (bal_acc b) (bal_cur b)). }
    eapply pend_put; [done|done| | |done].
    + intros a' Hne. apply pending_other; congruence.
    + cbn. by rewrite Hpn.
  - assert (pending (ds ++ [d]) (bal_acc b) = None) as Hpn.
    { rewrite pending_snoc. unfold pend_step. rewrite Hv, String.eqb_refl.
      apply (validate_none_usable _ _ _ _ _ Hrun) in Hva. rewrite Hva.
      unfold validate_currency in Hvc. rewrite (currency_valid_ok _ _ _ _ _ _ Hrun Ha) in Hvc.
      by destruct (currency_ok ds (bal_acc b) (bal_cur b)). }
    subst s'. eapply pend_put; [done|done| | |done].
    + intros a' Hne. apply pending_other; congruence.
    + cbn. by rewrite Hpn.
  - assert (pending (ds ++ [d]) (bal_acc b) = None) as Hpn.
    { rewrite pending_snoc. unfold pend_step. rewrite Hv, String.eqb_refl.
      apply (validate_none_usable _ _ _ _ _ Hrun) in Hva. rewrite Hva.
      unfold validate_currency in Hvc. rewrite (currency_valid_ok _ _ _ _ _ _ Hrun Ha) in Hvc.
      by destruct (currency_ok ds (bal_acc b) (bal_cur b)). }
    assert (pend_inv (ds ++ [d]) (CSt s' (c_errors c) (c_booked c))) as Hmid.
    { subst s'. eapply pend_put; [done|done| | |done].
      + intros a' Hne. apply pending_other; congruence.
      + cbn. by rewrite Hpn. }
    intros n y Hy. cbn in Hy. destruct (decide (pad_source p = n)) as [<-|Hne].
    + rewrite lookup_insert in Hy. injection Hy as <-. cbn. by apply Hmid.
    + rewrite lookup_insert_ne in Hy by done. by apply Hmid.
Qed.

Lemma pend_run opt ds c : run opt ds = CRun c → pend_inv ds c.
Proof.
  revert ds c. eapply run_ind.
  - intros a x Hx. cbn in Hx. by rewrite lookup_empty in Hx.
  - intros ds d c c' Hrun Hi Hstep. apply collect_step_rel in Hstep. by eapply pend_step_inv.
Qed.

End Pend.
