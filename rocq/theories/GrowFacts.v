(** A ledger which is continued: what has been booked is not touched again, unless a pad
    waits for its balance. *)
From Coq Require Import Ascii QArith Qabs.
From stdpp Require Import prelude gmap strings pretty.
From Verif Require Import DecModel DecProofs LedgerTypes BookModel BookSpec BookLib BookSteps BookInv BookWf BookUnits BookFacts BookSuccess RebookFacts.
Local Open Scope nat_scope.

Section Grow.
Context {P : Type} (L : booking_lib P).
Context (ord : gmap string (account P) → list (string * account P)).
Context (Hord : ∀ m, ord m ≡ₚ map_to_list m).
Notation run := (run L ord).
Notation book := (book L ord).

Definition pads_from (N : nat) (s : accst P) : Prop :=
  ∀ n x k u, s_accounts s !! n = Some x → a_pad x = Some (k, u) → N ≤ k.
Lemma pads_put N s n x : pads_from N s → (∀ k u, a_pad x = Some (k, u) → N ≤ k) → pads_from N (put_account s n x).
Proof.
  intros H Hx m y k u. cbn. destruct (decide (n = m)) as [<-|Hne].
  - rewrite lookup_insert. intros [= <-]. apply Hx.
  - rewrite lookup_insert_ne by done. apply H.
Qed.
Lemma pads_positions N s s' : only_positions s s' → pads_from N s → pads_from N s'.
Proof.
  intros (_&_&_&_&HA) H n y k u Hy Hp. specialize (HA n). rewrite Hy in HA. destruct (s_accounts s !! n) as [x|] eqn:E; [|done].
  destruct HA as [q ->]. by eapply H.
Qed.

Record grown (old : list bdirective) (ws : list report) (Q : bdirective → Prop) (c : cst (P:=P)) : Prop := {
  gr_booked : ∃ new, c_booked c = old ++ new ∧ Forall Q new;
  gr_warnings : ∃ more, s_warnings (c_acc c) = ws ++ more;
  gr_pads : pads_from (length old) (c_acc c) }.

Lemma grown_step old ws (Q : bdirective → Prop) i d c c' :
  (∀ v, Q (booked_of i d v)) → (∀ b v, Q b → Q (set_variant b v)) →
  grown old ws Q c → step_rel L ord i d c c' → grown old ws Q c'.
Proof.
  intros Hd Hv [(new&Hn&HQ) (more&Hm) Hp] Hs.
  assert (∀ l, Forall Q l → ∃ new, c_booked c ++ l = old ++ new ∧ Forall Q new) as Happ.
  { intros l Hl. exists (new ++ l). split; [by rewrite Hn, app_assoc|by apply Forall_app]. }
  assert (∃ new, c_booked c = old ++ new ∧ Forall Q new) as Hb by eauto.
  assert (∃ more, s_warnings (c_acc c) = ws ++ more) as Hw by eauto.
  assert (∀ v, Forall Q [booked_of i d v]) as H1 by (intros; by repeat constructor).
  destruct Hs as [v ?|t s' l Ht Hbt|t s' err Ht Hbt|o j ? ?|o j ? ? ?|o s' bk wso ? ? ? ? Hs'|a j ? ? ?|a j k ? ? ?|a ? ?|p err ? ?|p a k u ? ? Ha Hk|p a ? ? Ha Hk
    |b err ? ?|b a err ? ? ? ?|b a ? ? Ha ? ?|b a m s' rep ? ? Ha ? ? Hk Hs' ?|b a m k u padd p txnd txn pa s' ? ? Ha ? ? Hk Hpd ? Htd ? Hs' Hpa].
  - split; cbn; [by apply Happ|done..].
  - apply book_txn_only in Hbt. pose proof Hbt as (_&_&_&E&_). split; cbn; [by apply Happ|by rewrite E|by eapply pads_positions].
  - apply book_txn_only in Hbt. pose proof Hbt as (_&_&_&E&_). split; cbn; [done|by rewrite E|by eapply pads_positions].
  - by split.
  - by split.
  - subst s'. split; cbn.
    + by apply Happ.
    + exists (more ++ wso). by rewrite Hm, app_assoc.
    + by apply (pads_put (length old) (c_acc c) (op_acc o)).
  - split; cbn; [by apply Happ|done..].
  - by split.
  - by split.
  - by split.
  - split; cbn; [done..|]. by apply pads_put.
  - split; cbn; [|done|].
    + apply Happ. by repeat constructor.
    + apply pads_put; [done|]. cbn. intros k u [= <- _]. rewrite Hn, app_length. lia.
  - by split.
  - by split.
  - split; cbn; [by apply Happ|done|]. by apply pads_put.
  - subst s'. split; cbn; [by apply Happ|done|]. by apply pads_put.
  - subst s'. split; cbn; [|done|].
    + pose proof (Hp _ _ _ _ Ha Hk) as Hle. rewrite Hn, insert_app_r_alt, <- app_assoc by lia. eexists. split; [reflexivity|].
      apply Forall_app. split; [|done]. apply Forall_insert; [done|]. apply Hv.
      rewrite Hn, lookup_app_r in Htd by lia. by eapply Forall_lookup_1.
    + assert (pads_from (length old) (put_account (c_acc c) (bal_acc b) (adjust_account_to_match_balance L
          (set_pad (set_window a (Some (next_window a (length (c_booked c))))) None) (bal_cur b) m AdjAdd))) as Hp' by by apply pads_put.
      apply pads_put; [exact Hp'|]. intros k' u'. cbn. apply (Hp' _ _ _ _ Hpa).
Qed.
Lemma grown_loop old ws (Q : bdirective → Prop) i ds c c' :
  (∀ j d v, d ∈ ds → Q (booked_of j d v)) → (∀ b v, Q b → Q (set_variant b v)) →
  grown old ws Q c → collect_loop L ord i ds c = CRun c' → grown old ws Q c'.
Proof.
  intros Hd Hv. revert i c. induction ds as [|d ds IH]; intros i c Hg; cbn; [by intros [= <-]|].
  destruct (collect_step L ord i d c) as [c1|] eqn:E; [|done]. apply IH; [intros; apply Hd; by right|].
  eapply grown_step; [|done|done|by apply collect_step_rel]. intros v. apply Hd. by left.
Qed.

(** No pad is left when a ledger has been booked. *)
Lemma no_pads s : unused_pad_reports ord (s_accounts s) = [] → ∀ n x, s_accounts (P:=P) s !! n = Some x → a_pad x = None.
Proof using Hord.
  intros H n x Hx. destruct (a_pad x) as [[k u]|] eqn:E; [|done]. exfalso.
  assert ((n, x) ∈ ord (s_accounts s)) as Hin by (rewrite (Hord _); by apply elem_of_map_to_list).
  assert (mk_report u "unused, no balance directive" ∈ unused_pad_reports ord (s_accounts s)) as Hr.
  { unfold unused_pad_reports. apply elem_of_list_omap. exists (n, x). split; [done|]. cbn. by rewrite E. }
  rewrite H in Hr. by apply elem_of_nil in Hr.
Qed.

Lemma book_grows opt ds more bs ws bs' ws' :
  book opt ds = BookSuccess bs ws → book opt (ds ++ more) = BookSuccess bs' ws' →
  ∃ nb nw, bs' = bs ++ nb ∧ ws' = ws ++ nw ∧ Forall (λ b, ∃ d, d ∈ more ∧ b_date b = d_date d) nb.
Proof using Hord.
  intros (c&Hrun&He&<-&<-&Hup)%book_success_run (c'&Hrun'&He'&<-&<-&_)%book_success_run.
  apply run_app_inv in Hrun' as (c1&Hrun1&Hloop). rewrite Hrun in Hrun1. injection Hrun1 as <-.
  eapply (grown_loop (c_booked c) (s_warnings (c_acc c)) (λ b, ∃ d, d ∈ more ∧ b_date b = d_date d)) in Hloop.
  - destruct Hloop as [(nb&?&?) (nw&?) _]. by exists nb, nw.
  - intros j d v Hd. by exists d.
  - intros b v (d&?&?). by exists d.
  - split; [exists []; split; [by rewrite app_nil_r|done]|exists []; by rewrite app_nil_r|].
    intros n x k u Hx Hp. pose proof (no_pads _ Hup n x Hx). congruence.
Qed.

(** ** Which accounts are posted to *)
Definition posted_known (c : cst (P:=P)) : Prop :=
  ∀ b q, b ∈ c_booked c → q ∈ postings_of b → is_Some (s_accounts (c_acc c) !! p_acc q).
Lemma known_put c s n x (l : list bdirective) e : posted_known c →
  (∀ m, is_Some (s_accounts (c_acc c) !! m) → is_Some (s_accounts s !! m)) →
  (∀ b q, b ∈ l → q ∈ postings_of b → is_Some (<[n := x]> (s_accounts s) !! p_acc q)) →
  posted_known (CSt (put_account s n x) e (c_booked c ++ l)).
Proof.
  intros H Hs Hl b q [Hb|Hb]%elem_of_app Hq; cbn; [|by eapply Hl]. destruct (decide (n = p_acc q)) as [->|Hne].
  - rewrite lookup_insert. eauto.
  - rewrite lookup_insert_ne by done. apply Hs. by eapply H.
Qed.
Lemma known_step i d c c' : posted_known c → step_rel L ord i d c c' → posted_known c'.
Proof.
  intros H Hs.
  assert (∀ s', only_positions (c_acc c) s' → ∀ n, is_Some (s_accounts (c_acc c) !! n) → is_Some (s_accounts s' !! n)) as Honly.
  { intros s' (_&_&_&_&HA) n [x Hx]. specialize (HA n). rewrite Hx in HA. destruct (s_accounts s' !! n); [eauto|done]. }
  assert (∀ v, postings_of (booked_of i d v) = [] → ∀ (m : gmap string (account P)) b q, b ∈ [booked_of i d v] → q ∈ postings_of b → is_Some (m !! p_acc q)) as Hno.
  { intros v Hv m b q ->%elem_of_list_singleton Hq. rewrite Hv in Hq. by apply elem_of_nil in Hq. }
  destruct Hs as [v Hv|t s' l Ht Hbt|t s' err Ht Hbt|o j ? ?|o j ? ? ?|o s' bk wso ? ? ? ? Hs'|a j ? ? ?|a j k ? ? ?|a ? ?|p err ? ?|p a k u ? ? Ha Hk|p a ? ? Ha Hk
    |b err ? ?|b a err ? ? ? ?|b a ? ? Ha ? ?|b a m s' rep ? ? Ha ? ? Hk Hs' ?|b a m k u padd p txnd txn pa s' ? ? Ha ? ? Hk Hpd ? Htd ? Hs' Hpa].
  - intros b q [Hb|Hb]%elem_of_app Hq; [by eapply H|]. eapply Hno; [|done..]. by destruct (d_variant d); try discriminate Hv; injection Hv as <-.
  - pose proof (book_txn_only _ _ _ _ _ _ _ Hbt) as Ho. intros b q [Hb|Hb]%elem_of_app Hq; cbn; [apply (Honly _ Ho); by eapply H|].
    apply elem_of_list_singleton in Hb as ->. cbn in Hq. apply book_txn_ok_inv in Hbt as (ips&upd&u&_&Hval&->&_).
    apply booked_from_in in Hq as (ip&ps&Hin&->&_). destruct (validate_postings_ok_elem _ _ _ _ _ _ _ Hval Hin) as (x&_&Hx&_). apply (Honly _ Ho). eauto.
  - pose proof (book_txn_only _ _ _ _ _ _ _ Hbt) as Ho. intros b q Hb Hq; cbn. apply (Honly _ Ho). by eapply H.
  - done.
  - done.
  - subst s'. apply (known_put c (AccSt _ _ (s_accounts (c_acc c)) _ _)); [done..|]. by apply Hno.
  - intros b q [Hb|Hb]%elem_of_app Hq; [by eapply H|]. by refine (Hno _ _ _ _ _ Hb Hq).
  - done.
  - done.
  - done.
  - rewrite <- (app_nil_r (c_booked c)). apply known_put; [done..|]. by intros ? ? ?%elem_of_nil.
  - apply known_put; [done..|]. intros b q [->|Hb]%elem_of_cons Hq; [by apply elem_of_nil in Hq|]. by refine (Hno _ _ _ _ _ Hb Hq).
  - done.
  - done.
  - apply known_put; [done..|]. by apply Hno.
  - subst s'. apply known_put; [done..|]. by apply Hno.
  - subst s'. assert (∀ n, is_Some (s_accounts (c_acc c) !! n) → is_Some (s_accounts (put_account (c_acc c) (bal_acc b) (adjust_account_to_match_balance L
          (set_pad (set_window a (Some (next_window a (length (c_booked c))))) None) (bal_cur b) m AdjAdd)) !! n)) as Hput.
    { intros n Hn. cbn. destruct (decide (bal_acc b = n)) as [<-|Hne]; [rewrite lookup_insert; eauto|by rewrite lookup_insert_ne]. }
    set (s' := put_account (c_acc c) (bal_acc b) _) in *.
    assert (∀ n, is_Some (s_accounts s' !! n) → is_Some (s_accounts (put_account s' (pad_source p) (adjust_account_to_match_balance L pa (bal_cur b) m AdjSubtract)) !! n)) as Hput2.
    { intros n Hn. cbn. destruct (decide (pad_source p = n)) as [<-|Hne]; [rewrite lookup_insert; eauto|by rewrite lookup_insert_ne]. }
    intros b0 q [Hb|Hb]%elem_of_app Hq; [|by refine (Hno _ _ _ _ _ Hb Hq)]. cbn. apply Hput2.
    apply elem_of_list_lookup in Hb as [j Hb]. destruct (decide (S k = j)) as [<-|Hne].
    + rewrite list_lookup_insert in Hb by by eapply lookup_lt_Some. injection Hb as <-. cbn in Hq.
      apply elem_of_cons in Hq as [->|Hq]; [|apply elem_of_list_singleton in Hq as ->]; cbn [p_acc]; [|by eexists].
      apply Hput. by eexists.
    + rewrite list_lookup_insert_ne in Hb by done. apply Hput. eapply H; [by eapply elem_of_list_lookup_2|done].
Qed.
Lemma posted_opened opt ds bs ws b q : book opt ds = BookSuccess bs ws → b ∈ bs → q ∈ postings_of b → ∃ i o, opens_at ds i (p_acc q) o.
Proof.
  intros (c&Hrun&_&<-&_)%book_success_run Hb Hq.
  assert (posted_known c) as Hk.
  { clear Hb Hq. revert ds c Hrun. apply (run_ind L ord opt (λ _ c, posted_known c)); [by intros ? ? ?%elem_of_nil|].
    intros ds d c c' _ IH Hs. eapply known_step; [done|by apply collect_step_rel]. }
  destruct (Hk b q Hb Hq) as [x Hx]. destruct (wf_account _ _ (wf_run _ _ _ _ _ Hrun) _ _ Hx) as ((i&o&_&Ho&_)&_). eauto.
Qed.
End Grow.
