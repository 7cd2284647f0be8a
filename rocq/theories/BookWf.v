(** Every reachable state of the booking loop is well-formed. *)
From Coq Require Import Ascii QArith.
From stdpp Require Import prelude gmap strings pretty.
From Verif Require Import DecModel LedgerTypes BookModel BookSpec BookSteps BookInv.
Local Open Scope nat_scope.

Section Wf.
Context {P : Type} (L : booking_lib P).
Context (ord : gmap string (account P) → list (string * account P)).
Notation run := (run L ord).

Lemma window_ok_snoc_last bs a b (w : option (nat * nat)) :
  is_balance_of a b → (match w with Some (_, e) => e <= length bs | None => True end) →
  window_ok (bs ++ [b]) a (Some (match w with Some (_, e) => (e, length bs) | None => (0, length bs) end)).
Proof.
  intros Hb Hw.
  assert (∀ j b', length bs < j → (bs ++ [b]) !! j = Some b' → ¬ is_balance_of a b') as Hnone.
  { intros j b' Hj Hj'. apply lookup_lt_Some in Hj'. rewrite app_length in Hj'. cbn in Hj'. lia. }
  assert ((bs ++ [b]) !! length bs = Some b) as Hat.
  { rewrite lookup_app_r by lia. by rewrite Nat.sub_diag. }
  destruct w as [[s e]|]; cbn.
  - split; [done|]. eauto.
  - split; [lia|]. eauto.
Qed.

Lemma window_end_le bs a w :
  window_ok bs a w → match w with Some (_, e) => e <= length bs | None => True end.
Proof.
  destruct w as [[s e]|]; [|done]. intros (_ & (b & Hb & _) & _).
  apply lookup_lt_Some in Hb. lia.
Qed.

Lemma wf_add_error ds d (c : cst (P:=P)) err :
  wf ds c → valid_report (ds ++ [d]) err →
  wf (ds ++ [d]) (CSt (c_acc c) (c_errors c ++ [err]) (c_booked c)).
Proof.
  intros Hwf Herr. split; cbn.
  - apply (wf_dom _ _ Hwf).
  - intros a e He. apply (wf_open _ _ Hwf) in He as (i & o & ? & ?). eauto using opens_at_app.
  - intros a e He. apply (wf_closed _ _ Hwf) in He as (i & ? & ?). eauto using closes_at_app.
  - intros a x Hx. apply (wf_account _ _ Hwf) in Hx.
    rewrite <- (app_nil_r (c_booked c)). apply account_ok_app; [done|]. by intros ? ?%elem_of_nil.
  - apply (wf_nonempty _ _ Hwf).
  - apply (wf_first _ _ Hwf).
  - apply Forall_app. split; [by apply wf_snoc_errors|]. by apply Forall_singleton.
  - apply (wf_balacc _ _ Hwf).
Qed.

(** Appending booked directives that are not balances. *)
Lemma wf_append ds d (c : cst (P:=P)) bs :
  wf ds c → (∀ b a, b ∈ bs → ¬ is_balance_of a b) →
  wf (ds ++ [d]) (CSt (c_acc c) (c_errors c) (c_booked c ++ bs)).
Proof.
  intros Hwf Hbs. split; cbn.
  - apply (wf_dom _ _ Hwf).
  - intros a e He. apply (wf_open _ _ Hwf) in He as (i & o & ? & ?). eauto using opens_at_app.
  - intros a e He. apply (wf_closed _ _ Hwf) in He as (i & ? & ?). eauto using closes_at_app.
  - intros a x Hx. apply (wf_account _ _ Hwf) in Hx. apply account_ok_app; eauto.
  - intros a x Hx. apply (wf_nonempty _ _ Hwf) in Hx. by destruct (c_booked c).
  - intros b a. rewrite lookup_app_Some. intros [Hb|[_ Hb]].
    + by eapply (wf_first _ _ Hwf).
    + eapply Hbs. by eapply elem_of_list_lookup_2.
  - by apply wf_snoc_errors.
  - intros b a [Hb|Hb]%elem_of_app Hbal; [by eapply (wf_balacc _ _ Hwf)|by destruct (Hbs _ a Hb)].
Qed.

Lemma wf_only_positions ds (c : cst (P:=P)) s' errs bs :
  wf ds (CSt (c_acc c) errs bs) → only_positions (c_acc c) s' → wf ds (CSt s' errs bs).
Proof.
  intros Hwf (Ho & Hc & _ & _ & Ha). destruct Hwf as [H1 H2 H3 H4 H5 H6 H7 H8]; cbn in *.
  split; cbn; try done.
  - intros a. rewrite Ho, Hc, <- H1. specialize (Ha a).
    destruct (s_accounts (c_acc c) !! a), (s_accounts s' !! a); try done; by split.
  - by rewrite Ho.
  - by rewrite Hc.
  - intros a x Hx. specialize (Ha a). rewrite Hx in Ha.
    destruct (s_accounts (c_acc c) !! a) as [y|] eqn:E; [|done]. destruct Ha as [p ->].
    apply account_ok_positions. eauto.
  - intros a x Hx. specialize (Ha a). rewrite Hx in Ha.
    destruct (s_accounts (c_acc c) !! a) as [y|] eqn:E; [|done]. eauto.
  - intros b a Hb Hbal. destruct (H8 b a Hb Hbal) as [x Hx]. specialize (Ha a). rewrite Hx in Ha.
    by destruct (s_accounts s' !! a).
Qed.

(** Replacing one account. *)
Lemma wf_put ds (c : cst (P:=P)) errs bs a x y :
  wf ds (CSt (c_acc c) errs bs) → s_accounts (c_acc c) !! a = Some x →
  account_ok ds bs a y → wf ds (CSt (put_account (c_acc c) a y) errs bs).
Proof.
  intros [H1 H2 H3 H4 H5 H6 H7 H8] Hx Hy; cbn in *. split; cbn; try done.
  - intros b. destruct (decide (a = b)) as [<-|Hne].
    + rewrite lookup_insert. split; [intros _|done]. apply H1. eauto.
    + by rewrite lookup_insert_ne.
  - intros b z. destruct (decide (a = b)) as [<-|Hne].
    + rewrite lookup_insert. by intros [= <-].
    + rewrite lookup_insert_ne by done. apply H4.
  - intros b z. destruct (decide (a = b)) as [<-|Hne].
    + intros _. by eapply H5.
    + rewrite lookup_insert_ne by done. apply H5.
  - intros b a' Hb Hbal. destruct (decide (a = a')) as [<-|Hne].
    + rewrite lookup_insert. eauto.
    + rewrite lookup_insert_ne by done. eauto.
Qed.

Lemma wf_insert ds s errs bs a x k u txnd txn l :
  wf ds (CSt s errs bs) → s_accounts (P:=P) s !! a = Some x → a_pad x = None →
  pending_pad ds bs a k u → bs !! S k = Some txnd → b_variant txnd = BVTransaction txn →
  wf ds (CSt s errs (<[S k := set_variant txnd (BVTransaction (set_postings txn l))]> bs)).
Proof.
  intros [H1 H2 H3 H4 H5 H6 H7 H8] Hx Hpad Hpp Hk Hv; cbn in *. split; cbn; try done.
  - intros a' y Hy. eapply account_ok_insert; [|done..|by apply H4].
    destruct (decide (a' = a)) as [->|]; [right; congruence|by left].
  - intros a' y Hy Hnil. eapply H5; [done|]. apply length_zero_iff_nil.
    rewrite <- (insert_length bs (S k) (set_variant txnd (BVTransaction (set_postings txn l)))).
    by rewrite Hnil.
  - intros b a'. rewrite list_lookup_insert_ne by lia. apply H6.
  - intros b a' Hb Hbal. eapply H8; [|done]. apply elem_of_list_lookup in Hb as [j Hj].
    apply list_lookup_insert_Some in Hj as [(<- & <- & _)|[_ Hj]].
    + destruct Hbal as [? [? _]]. done.
    + by eapply elem_of_list_lookup_2.
Qed.

Lemma wf_push_balance ds d s errs bs i b u m x y errs' :
  wf ds (CSt s errs bs) → s_accounts (P:=P) s !! bal_acc b = Some x →
  a_opened y = a_opened x → a_allowed y = a_allowed x → a_pad y = None →
  a_window y = Some (next_window x (length bs)) →
  Forall (valid_report (ds ++ [d])) errs' →
  wf (ds ++ [d]) (CSt (put_account s (bal_acc b) y) errs'
     (bs ++ [booked_of i d (BVBalance (BBalance b u m))])).
Proof.
  intros [H1 H2 H3 H4 H5 H6 H7 H8] Hx Ho Hal Hp Hw Herrs; cbn in *.
  assert (is_balance_of (bal_acc b) (booked_of i d (BVBalance (BBalance b u m)))) as Hbal.
  { by eexists. }
  split; cbn; try done.
  - intros a. rewrite <- H1. destruct (decide (bal_acc b = a)) as [<-|Hne].
    + rewrite lookup_insert, Hx. split; eauto.
    + by rewrite lookup_insert_ne.
  - intros a e He. apply H2 in He as (j & o & ? & ?). eauto using opens_at_app.
  - intros a e He. apply H3 in He as (j & ? & ?). eauto using closes_at_app.
  - intros a z. destruct (decide (bal_acc b = a)) as [<-|Hne].
    + rewrite lookup_insert. intros [= <-]. destruct (H4 _ _ Hx) as ((j & o & Hj & Hoa & Hal') & _ & Hwx).
      split; [|split].
      * exists j, o. rewrite Ho, Hal. eauto using opens_at_app.
      * by rewrite Hp.
      * rewrite Hw. apply window_ok_snoc_last; [done|]. by eapply window_end_le.
    + rewrite lookup_insert_ne by done. intros Hz. apply account_ok_app; [by apply H4|].
      intros b' ->%elem_of_list_singleton [bb [Hbb Hacc]]. cbn in Hbb. injection Hbb as <-. done.
  - intros a z _. by destruct bs.
  - intros b' a. rewrite lookup_app_Some. intros [Hb'|[Hle Hb']]; [by eapply H6|].
    assert (bs ≠ []) as Hne by by eapply H5. destruct bs as [|b0 bs]; [done|]. cbn in Hle. lia.
  - intros b' a [Hb'|Hb']%elem_of_app Hba.
    + destruct (decide (bal_acc b = a)) as [<-|Hne].
      * rewrite lookup_insert. eauto.
      * rewrite lookup_insert_ne by done. eauto.
    + apply elem_of_list_singleton in Hb' as ->. destruct Hba as [bb [Hbb Hacc]].
      cbn in Hbb. injection Hbb as <-. cbn in Hacc. subst a. rewrite lookup_insert. eauto.
Qed.

Lemma wf_step opt ds d c c' :
  run opt ds = CRun c → wf ds c → step_rel L ord (length ds) d c c' → wf (ds ++ [d]) c'.
Proof.
  intros _ Hwf Hstep.
  pose proof (valid_ref_last ds d) as Hlast.
  assert (wf ds (CSt (c_acc c) (c_errors c) (c_booked c))) as Hwf0 by by destruct c.
  destruct Hstep as [v Hv|t s' l Hv Hb|t s' err Hv Hb|o j Hv Ho|o j Hv Ho Hc|o s' bk ws Hv Ho Hc Hbk Hs'
    |a j Hv Ho Hc|a j k Hv Ho Hc|a Hv Ho|p err Hv Hva|p a k u Hv Hva Ha Hp|p a Hv Hva Ha Hp
    |b err Hv Hva|b a err Hv Hva Ha Hvc|b a Hv Hva Ha Hvc Hm|b a m s' rep Hv Hva Ha Hvc Hm Hp Hs' Hrep
    |b a m k u padd p txnd txn pa s' Hv Hva Ha Hvc Hm Hp Hk Hkv Hk1 Hk1v Hs' Hpa].
  - (* passive *)
    apply wf_append; [done|]. intros b a. apply not_balance_of_one. intros bb ->.
    destruct (d_variant d); done.
  - (* transaction *)
    apply book_txn_only in Hb.
    eapply (wf_only_positions _ c); [|exact Hb]. cbn.
    apply wf_append; [done|]. intros b a. by apply not_balance_of_one.
  - pose proof (book_txn_err_valid _ _ _ _ _ _ _ Hwf Hv Hb) as Herr.
    apply book_txn_only in Hb.
    eapply (wf_only_positions _ c); [|exact Hb]. cbn.
    by apply wf_add_error.
  - (* duplicate open *)
    apply wf_add_error; [done|]. apply valid_report_related; [done|].
    apply (wf_open _ _ Hwf) in Ho as (i & o' & -> & ?). apply valid_ref_app. by eapply valid_ref_opens.
  - (* reopen *)
    assert (valid_report (ds ++ [d]) (related_to (mk_report (eidx_of_nat (length ds)) "account was closed") j)) as Herr.
    { apply valid_report_related; [done|]. apply (wf_closed _ _ Hwf) in Hc as (i & -> & ?).
      apply valid_ref_app. by eapply valid_ref_closes. }
    destruct (wf_add_error ds d c _ Hwf Herr) as [H1 H2 H3 H4 H5 H6 H7 H8]; cbn in *. split; cbn; try done.
    + intros a. rewrite H1. destruct (decide (op_acc o = a)) as [<-|Hne].
      * rewrite lookup_insert, Hc. split; eauto.
      * by rewrite lookup_insert_ne.
    + intros a e. destruct (decide (op_acc o = a)) as [<-|Hne].
      * rewrite lookup_insert. intros [= <-]. exists (length ds), o. split; [done|].
        exists d. split; [|done]. rewrite lookup_app_r by lia. by rewrite Nat.sub_diag.
      * rewrite lookup_insert_ne by done. apply H2.
  - (* open *)
    destruct (wf_append ds d c [booked_of (length ds) d (BVOpen o)] Hwf) as [H1 H2 H3 H4 H5 H6 H7 H8].
    { intros b a. by apply not_balance_of_one. }
    assert (opens_at (ds ++ [d]) (length ds) (op_acc o) o) as Hop.
    { exists d. split; [|done]. rewrite lookup_app_r by lia. by rewrite Nat.sub_diag. }
    cbn in *. subst s'. split; cbn; try done.
    + intros a. destruct (decide (op_acc o = a)) as [<-|Hne].
      * rewrite !lookup_insert. split; eauto.
      * by rewrite !lookup_insert_ne.
    + intros a e. destruct (decide (op_acc o = a)) as [<-|Hne].
      * rewrite lookup_insert. intros [= <-]. eauto.
      * rewrite lookup_insert_ne by done. apply H2.
    + intros a x. destruct (decide (op_acc o = a)) as [<-|Hne].
      * rewrite lookup_insert. intros [= <-]. split; [|split; [done|]].
        { exists (length ds), o. eauto. }
        cbn. intros j b Hj [bb [Hbb Hacc]].
        (* no balance can have been booked for an account that was never open *)
        assert (s_accounts (c_acc c) !! op_acc o = None) as Hnone.
        { destruct (s_accounts (c_acc c) !! op_acc o) eqn:E; [|done].
          destruct (proj1 (wf_dom _ _ Hwf (op_acc o))) as [[? ?]|[? ?]]; [eauto|congruence..]. }
        apply elem_of_list_lookup_2 in Hj. apply elem_of_app in Hj as [Hj|Hj].
        { destruct (wf_balacc _ _ Hwf b (op_acc o) Hj) as [? ?]; [by exists bb|congruence]. }
        apply elem_of_list_singleton in Hj as ->. discriminate.
      * rewrite lookup_insert_ne by done. apply H4.
    + intros a x _. by destruct (c_booked c).
    + intros b a Hb Hbal. destruct (decide (op_acc o = a)) as [<-|Hne].
      * rewrite lookup_insert. eauto.
      * rewrite lookup_insert_ne by done. eauto.
  - (* close *)
    destruct (wf_append ds d c [booked_of (length ds) d (BVClose a)] Hwf) as [H1 H2 H3 H4 H5 H6 H7 H8].
    { intros b a'. by apply not_balance_of_one. }
    cbn in *. split; cbn; try done.
    + intros a'. rewrite H1. destruct (decide (a = a')) as [<-|Hne].
      * rewrite lookup_insert, lookup_delete, Ho. split; eauto.
      * by rewrite lookup_insert_ne, lookup_delete_ne.
    + intros a' e. rewrite lookup_delete_Some. intros [_ ?]. eauto.
    + intros a' e. destruct (decide (a = a')) as [<-|Hne].
      * rewrite lookup_insert. intros [= <-]. exists (length ds). split; [done|].
        exists d. split; [|done]. rewrite lookup_app_r by lia. by rewrite Nat.sub_diag.
      * rewrite lookup_insert_ne by done. apply H3.
  - apply wf_add_error; [done|]. apply valid_report_related; [done|].
    apply (wf_closed _ _ Hwf) in Hc as (i & -> & ?). apply valid_ref_app. by eapply valid_ref_closes.
  - apply wf_add_error; [done|]. by apply valid_report_mk.
  - (* pad *)
    apply wf_add_error; [done|]. apply validate_account_err in Hva as [_ [(k & Hk & ->)|[_ ->]]].
    + apply valid_report_related; [done|]. apply (wf_closed _ _ Hwf) in Hk as (i & -> & ?).
      apply valid_ref_app. by eapply valid_ref_closes.
    + by apply valid_report_mk.
  - pose proof (wf_account _ _ Hwf _ _ Ha) as (Hop & Hpad & Hw).
    eapply (wf_put _ c); [|done|].
    + apply wf_add_error; [done|]. apply valid_report_related; [|done].
      apply Hpad in Hp as (i & d' & p' & -> & Hd' & _). apply valid_ref_app. by exists d'.
    + cbn. rewrite <- (app_nil_r (c_booked c)). apply account_ok_app; [|by intros ? ?%elem_of_nil].
      split; [done|]. split; [|done]. by cbn.
  - pose proof (wf_account _ _ Hwf _ _ Ha) as Hok.
    eapply (wf_put _ c); [|done|].
    + apply wf_append; [done|]. intros b a' [->| ->%elem_of_list_singleton]%elem_of_cons; by intros [? [? _]].
    + cbn. destruct Hok as (Hop & Hpad & Hw). split; [|split].
      * destruct Hop as (i & o & ? & ? & ?). exists i, o. eauto using opens_at_app.
      * cbn. intros k u [= <- <-]. exists (length ds), d, p. repeat split; try done.
        -- rewrite lookup_app_r by lia. by rewrite Nat.sub_diag.
        -- rewrite lookup_app_r by lia. by rewrite Nat.sub_diag.
        -- rewrite lookup_app_r by lia. by replace (S (length (c_booked c)) - length (c_booked c)) with 1 by lia.
      * cbn. apply window_ok_app; [done|].
        intros b [->| ->%elem_of_list_singleton]%elem_of_cons; by intros [? [? _]].
  - (* balance *)
    apply wf_add_error; [done|]. apply validate_account_err in Hva as [_ [(k & Hk & ->)|[_ ->]]].
    + apply valid_report_related; [done|]. apply (wf_closed _ _ Hwf) in Hk as (i & -> & ?).
      apply valid_ref_app. by eapply valid_ref_closes.
    + by apply valid_report_mk.
  - apply wf_add_error; [done|].
    pose proof (wf_account _ _ Hwf _ _ Ha) as ((i & o & Ho & Hoa & _) & _).
    unfold validate_currency in Hvc. destruct (is_currency_valid a (bal_cur b)); [done|].
    injection Hvc as <-. apply valid_report_related; [done|]. rewrite Ho.
    apply valid_ref_app. by eapply valid_ref_opens.
  - eapply wf_push_balance; [exact Hwf0|done..|].
    apply Forall_app. split; [by apply wf_snoc_errors|].
    destruct (a_pad a) as [[k u]|] eqn:Hp; [|by constructor]. apply Forall_singleton.
    apply valid_report_mk. pose proof (wf_account _ _ Hwf _ _ Ha) as (_ & Hpad & _).
    apply Hpad in Hp as (i & d' & p' & -> & Hd' & _). apply valid_ref_app. by exists d'.
  - subst s'. eapply wf_push_balance; [exact Hwf0|done..|].
    apply Forall_app. split; [by apply wf_snoc_errors|]. apply Forall_singleton.
    apply balance_report_valid in Hrep as [Hri Hrr]. split; [by rewrite Hri|by rewrite Hrr].
  - pose proof (wf_account _ _ Hwf _ _ Ha) as (_ & Hpad & _). apply Hpad in Hp as Hpp.
    assert (wf ds (CSt (put_account (c_acc c) (bal_acc b) (set_pad a None)) (c_errors c) (c_booked c))) as Hwf1.
    { eapply (wf_put _ c); [exact Hwf0|done|].
      destruct (wf_account _ _ Hwf _ _ Ha) as (? & ? & ?). split; [done|]. split; [|done]. done. }
    eapply (wf_insert _ _ _ _ _ _ _ _ _ _
      (calculate_balance_pad_postings (bal_cur b) m (bal_acc b) (pad_source p))) in Hwf1;
      [|cbn; by rewrite lookup_insert|done|done|done|done].
    eapply (wf_push_balance _ d _ _ _ (length ds) b None None _
       (adjust_account_to_match_balance L
              (set_pad (set_window a (Some (next_window a (length (c_booked c))))) None)
              (bal_cur b) m AdjAdd)) in Hwf1;
      [|cbn; by rewrite lookup_insert|done|done|done|cbn; by rewrite insert_length|exact (wf_snoc_errors ds d c Hwf)].
    replace (put_account (put_account (c_acc c) (bal_acc b) (set_pad a None)) (bal_acc b)
       (adjust_account_to_match_balance L
              (set_pad (set_window a (Some (next_window a (length (c_booked c))))) None)
              (bal_cur b) m AdjAdd)) with s' in Hwf1.
    2: { subst s'. unfold put_account, set_accounts. cbn. by rewrite insert_insert. }
    eapply (wf_only_positions _ (CSt s' [] [])); [done|].
    apply only_positions_put. done.
Qed.

Lemma wf_run opt ds c : run opt ds = CRun c → wf ds c.
Proof.
  revert ds c. eapply run_ind.
  - split; cbn.
    + intros a. rewrite !lookup_empty. split; [by intros [??]|by intros [[??]|[??]]].
    + intros a e. by rewrite lookup_empty.
    + intros a e. by rewrite lookup_empty.
    + intros a e. by rewrite lookup_empty.
    + intros a e. by rewrite lookup_empty.
    + done.
    + by constructor.
    + by intros ?? ?%elem_of_nil.
  - intros ds d c c' Hrun Hwf Hstep. apply collect_step_rel in Hstep. by eapply wf_step.
Qed.

End Wf.
