(** The open and closed maps agree with the ledger history, in every run. *)
From Coq Require Import Ascii QArith.
From stdpp Require Import prelude gmap strings pretty.
From Verif Require Import DecModel LedgerTypes BookModel BookSpec BookSteps BookInv BookWf.
Local Open Scope nat_scope.

(** ** Lifecycle facts, independent of the accumulator *)

Lemma life_from_snoc a i ds d st :
  life_from a i (ds ++ [d]) st = life_step a (i + length ds) d (life_from a i ds st).
Proof.
  revert i st. induction ds as [|d' ds IH]; intros i st; cbn.
  - by rewrite Nat.add_0_r.
  - rewrite IH. by replace (S i + length ds) with (i + S (length ds)) by lia.
Qed.

Lemma life_snoc ds d a : life (ds ++ [d]) a = life_step a (length ds) d (life ds a).
Proof. unfold life. by rewrite life_from_snoc. Qed.

Lemma life_open_before ds a i :
  life ds a = OpenSince i → ∃ o, open_before ds (length ds) a i o.
Proof.
  revert i. induction ds as [|d ds IH] using rev_ind; intros i; [done|].
  rewrite life_snoc, app_length. cbn. unfold life_step.
  assert (∀ i, life ds a = OpenSince i → d_variant d ≠ DClose a →
    ∃ o, open_before (ds ++ [d]) (length ds + 1) a i o) as Hkeep.
  { intros i' Hi Hn. destruct (IH i' Hi) as (o & Hlt & Ho & Hc). exists o. split; [lia|].
    split; [by apply opens_at_app|]. intros j Hj1 Hj2 Hcl.
    apply closes_at_snoc in Hcl as [Hcl|[-> Hcl]]; [|done].
    eapply Hc; [done| |done]. by eapply closes_at_lt. }
  destruct (d_variant d) as [t|pr|b|o|b|cu|p|b pa|b co|ty de|n co|cu] eqn:Ev;
    try (intros Hi; apply Hkeep; done).
  - destruct (String.eqb_spec (op_acc o) a) as [Ha|Ha]; [|intros Hi; by apply Hkeep].
    destruct (life ds a) as [|i'|c|c i'] eqn:El; try done.
    + intros [= <-]. exists o. split; [lia|]. split.
      * exists d. split; [|done]. rewrite lookup_app_r by lia. by rewrite Nat.sub_diag.
      * intros j Hj1 Hj2. lia.
    + intros Hi. by apply Hkeep.
  - destruct (String.eqb_spec b a) as [Ha|Ha].
    + destruct (life ds a) eqn:El; done.
    + intros Hi. apply Hkeep; [done|]. congruence.
Qed.

Lemma life_unopened ds a i o : life ds a = Unopened → ¬ opens_at ds i a o.
Proof.
  induction ds as [|d ds IH] using rev_ind.
  - intros _ (d & Hd & _). done.
  - rewrite life_snoc. unfold life_step. intros Hl Ho.
    apply opens_at_snoc in Ho as [Ho|(-> & Hv & Ha)].
    + apply IH; [|done]. destruct (d_variant d) as [t|pr|b|o'|b|cu|p|b pa|b co|ty de|n co|cu]; try done;
        case_match; try done; destruct (life ds a); done.
    + rewrite Hv in Hl. subst a. rewrite String.eqb_refl in Hl. by destruct (life ds (op_acc o)).
Qed.

Lemma life_opened ds a i o : opens_at ds i a o → life ds a ≠ Unopened.
Proof. intros Ho Hl. by eapply life_unopened. Qed.

Lemma life_closed ds a c : life ds a = ClosedAt c → closes_at ds c a.
Proof.
  induction ds as [|d ds IH] using rev_ind; [done|].
  rewrite life_snoc. unfold life_step. intros Hl.
  destruct (d_variant d) as [t|pr|b|o|b|cu|p|b pa|b co|ty de|n co|cu] eqn:Ev;
    try (apply closes_at_app; by apply IH).
  - destruct (String.eqb (op_acc o) a); [|apply closes_at_app; by apply IH].
    destruct (life ds a); try done.
  - destruct (String.eqb_spec b a) as [->|Hne]; [|apply closes_at_app; by apply IH].
    destruct (life ds a) eqn:E; try done.
    + injection Hl as <-. exists d. split; [|done]. rewrite lookup_app_r by lia. by rewrite Nat.sub_diag.
    + apply closes_at_app; by apply IH.
Qed.

Definition was_closed (st : lifecycle) : Prop :=
  match st with ClosedAt _ | Reopened _ _ => True | _ => False end.

Lemma was_closed_app ds ds' a : was_closed (life ds a) → was_closed (life (ds ++ ds') a).
Proof.
  intros H. induction ds' as [|d ds' IH] using rev_ind.
  - by rewrite app_nil_r.
  - rewrite app_assoc, life_snoc. unfold life_step.
    destruct (d_variant d); try done; case_match; try done; by destruct (life (ds ++ ds') a).
Qed.

(** [Reopened] only arises from an open of a closed account. *)
Lemma life_usable_open_before ds a :
  usable (life ds a) = true → ∃ i o, opens_at ds i a o.
Proof.
  intros Hu. destruct (life ds a) as [|i|c|c i] eqn:El; try done.
  - apply life_open_before in El as (o & _ & Ho & _). eauto.
  - clear Hu. revert c i El. induction ds as [|d ds IH] using rev_ind; intros c i El; [done|].
    rewrite life_snoc in El. unfold life_step in El.
    destruct (d_variant d) as [t|pr|b|o|b|cu|p|b pa|b co|ty de|n co|cu] eqn:Ev;
      try (apply IH in El as (i' & o' & Ho); exists i', o'; by apply opens_at_app).
    + destruct (String.eqb_spec (op_acc o) a) as [Ha|Ha].
      * exists (length ds), o, d. split; [|done]. rewrite lookup_app_r by lia. by rewrite Nat.sub_diag.
      * apply IH in El as (i' & o' & Ho). exists i', o'. by apply opens_at_app.
    + destruct (String.eqb b a).
      * destruct (life ds a) eqn:E; try done. apply IH in El as (i' & o' & Ho).
        exists i', o'. by apply opens_at_app.
      * apply IH in El as (i' & o' & Ho). exists i', o'. by apply opens_at_app.
Qed.

Lemma first_open_app ds ds' a i o : first_open ds a i o → first_open (ds ++ ds') a i o.
Proof.
  intros [Ho Hmin]. split; [by apply opens_at_app|]. intros j o' Hj.
  destruct (decide (j < length ds)) as [Hlt|Hge].
  - eapply Hmin, opens_at_app_inv; eauto.
  - apply opens_at_lt in Ho. lia.
Qed.

Lemma first_open_unique ds a i o i' o' :
  first_open ds a i o → first_open ds a i' o' → i = i' ∧ o = o'.
Proof.
  intros [Ho Hm] [Ho' Hm']. apply Hm in Ho' as H1. apply Hm' in Ho as H2.
  assert (i = i') as -> by lia. split; [done|].
  destruct Ho as (d & Hd & Hv & _), Ho' as (d' & Hd' & Hv' & _). congruence.
Qed.

Section Life.
Context {P : Type} (L : booking_lib P).
Context (ord : gmap string (account P) → list (string * account P)).
Notation run := (run L ord).

Definition open_view (st : lifecycle) : option eidx :=
  match st with OpenSince i | Reopened _ i => Some (eidx_of_nat i) | _ => None end.
Definition closed_view (st : lifecycle) : option eidx :=
  match st with ClosedAt c | Reopened c _ => Some (eidx_of_nat c) | _ => None end.

Definition resolve_method (s : accst P) (o : open) : lbooking :=
  let b := match op_booking o with
           | Some b => booking_into b
           | None => s_default_booking s
           end in
  if lib_supported L b then b else lib_default_booking L.

Record life_ok (opt : option booking) (ds : list directive) (c : cst (P:=P)) : Prop := {
  lf_open : ∀ a, s_open (c_acc c) !! a = open_view (life ds a);
  lf_closed : ∀ a, s_closed (c_acc c) !! a = closed_view (life ds a);
  lf_default : s_default_booking (c_acc c) = default_booking_option L opt;
  lf_account : ∀ a x, s_accounts (c_acc c) !! a = Some x →
     ∃ i o, first_open ds a i o ∧ a_opened x = eidx_of_nat i ∧
       a_allowed x = match op_currencies o with Some cs => cs | None => ∅ end ∧
       a_booking x = resolve_method (c_acc c) o;
}.

Lemma life_step_other ds d a :
  (∀ o, d_variant d = DOpen o → op_acc o ≠ a) → d_variant d ≠ DClose a →
  life (ds ++ [d]) a = life ds a.
Proof.
  intros Ho Hc. rewrite life_snoc. unfold life_step.
  destruct (d_variant d) as [t|pr|b|o|b|cu|p|b pa|b co|ty de|n co|cu] eqn:Ev; try done.
  - destruct (String.eqb_spec (op_acc o) a); [|done]. by destruct (Ho o).
  - destruct (String.eqb_spec b a); [|done]. congruence.
Qed.

(** Steps which change neither the maps nor which accounts exist. *)
Lemma life_ok_same opt ds d c c' :
  life_ok opt ds c →
  (∀ a, life (ds ++ [d]) a = life ds a) →
  s_open (c_acc c') = s_open (c_acc c) → s_closed (c_acc c') = s_closed (c_acc c) →
  s_default_booking (c_acc c') = s_default_booking (c_acc c) →
  (∀ a y, s_accounts (c_acc c') !! a = Some y → ∃ x, s_accounts (c_acc c) !! a = Some x ∧
     a_opened y = a_opened x ∧ a_allowed y = a_allowed x ∧ a_booking y = a_booking x) →
  life_ok opt (ds ++ [d]) c'.
Proof.
  intros [H1 H2 H3 H4] Hl Ho Hc Hd Ha. split.
  - intros a. by rewrite Ho, Hl, H1.
  - intros a. by rewrite Hc, Hl, H2.
  - by rewrite Hd.
  - intros a y Hy. apply Ha in Hy as (x & Hx & E1 & E2 & E3).
    apply H4 in Hx as (i & o & Hf & Hi & Hal & Hb). exists i, o. rewrite E1, E2, E3.
    split; [by apply first_open_app|]. split; [done|]. split; [done|].
    rewrite Hb. unfold resolve_method. by rewrite Hd.
Qed.

Lemma only_positions_accounts (s s' : accst P) a y :
  only_positions s s' → s_accounts s' !! a = Some y → ∃ x, s_accounts s !! a = Some x ∧
     a_opened y = a_opened x ∧ a_allowed y = a_allowed x ∧ a_booking y = a_booking x.
Proof.
  intros (_ & _ & _ & _ & H) Hy. specialize (H a). rewrite Hy in H.
  destruct (s_accounts s !! a) as [x|]; [|done]. destruct H as [p ->]. eauto.
Qed.

Lemma put_accounts_same (s : accst P) n x0 y0 a y :
  s_accounts s !! n = Some x0 → a_opened y0 = a_opened x0 → a_allowed y0 = a_allowed x0 →
  a_booking y0 = a_booking x0 →
  s_accounts (put_account s n y0) !! a = Some y → ∃ x, s_accounts s !! a = Some x ∧
     a_opened y = a_opened x ∧ a_allowed y = a_allowed x ∧ a_booking y = a_booking x.
Proof.
  intros Hx ??? Hy. cbn in Hy. destruct (decide (n = a)) as [<-|Hne].
  - rewrite lookup_insert in Hy. injection Hy as <-. eauto.
  - rewrite lookup_insert_ne in Hy by done. eauto.
Qed.

Lemma life_ok_step opt ds d c c' :
  life_ok opt ds c → step_rel L ord (length ds) d c c' → life_ok opt (ds ++ [d]) c'.
Proof.
  intros Hok Hstep.
  assert (∀ a y, s_accounts (c_acc c) !! a = Some y → ∃ x, s_accounts (c_acc c) !! a = Some x ∧
     a_opened y = a_opened x ∧ a_allowed y = a_allowed x ∧ a_booking y = a_booking x) as Hrefl by eauto.
  destruct Hstep as [v Hv|t s' l Hv Hb|t s' err Hv Hb|o j Hv Ho|o j Hv Ho Hc|o s' bk ws Hv Ho Hc Hbk Hs'
    |a j Hv Ho Hc|a j k Hv Ho Hc|a Hv Ho|p err Hv Hva|p a k u Hv Hva Ha Hp|p a Hv Hva Ha Hp
    |b err Hv Hva|b a err Hv Hva Ha Hvc|b a Hv Hva Ha Hvc Hm|b a m s' rep Hv Hva Ha Hvc Hm Hp Hs' Hrep
    |b a m k u padd p txnd txn pa s' Hv Hva Ha Hvc Hm Hp Hk Hkv Hk1 Hk1v Hs' Hpa].
  - eapply life_ok_same; [done| |done..]. intros a. apply life_step_other.
    + intros o Hd. by rewrite Hd in Hv.
    + intros Hd. by rewrite Hd in Hv.
  - apply book_txn_only in Hb. pose proof Hb as (E1 & E2 & E3 & _).
    eapply life_ok_same; [done| |done..|].
    + intros a. apply life_step_other; congruence.
    + intros a y. by apply only_positions_accounts.
  - apply book_txn_only in Hb. pose proof Hb as (E1 & E2 & E3 & _).
    eapply life_ok_same; [done| |done..|].
    + intros a. apply life_step_other; congruence.
    + intros a y. by apply only_positions_accounts.
  - (* duplicate open *)
    eapply life_ok_same; [done| |done..]. intros a. rewrite life_snoc. unfold life_step. rewrite Hv.
    destruct (String.eqb_spec (op_acc o) a) as [<-|]; [|done].
    rewrite (lf_open _ _ _ Hok) in Ho. by destruct (life ds (op_acc o)).
  - (* reopen *)
    rewrite (lf_open _ _ _ Hok) in Ho. rewrite (lf_closed _ _ _ Hok) in Hc.
    assert (∀ a, life (ds ++ [d]) a = if decide (op_acc o = a) then
        match life ds a with ClosedAt c => Reopened c (length ds) | st => st end else life ds a) as Hl.
    { intros a. rewrite life_snoc. unfold life_step. rewrite Hv.
      destruct (String.eqb_spec (op_acc o) a) as [<-|]; destruct (decide _); try done.
      by destruct (life ds (op_acc o)). }
    split; cbn.
    + intros a. rewrite Hl. destruct (decide (op_acc o = a)) as [<-|Hne].
      * rewrite lookup_insert. by destruct (life ds (op_acc o)).
      * rewrite lookup_insert_ne by done. apply (lf_open _ _ _ Hok).
    + intros a. rewrite Hl, (lf_closed _ _ _ Hok). destruct (decide (op_acc o = a)) as [<-|Hne]; [|done].
      by destruct (life ds (op_acc o)).
    + apply (lf_default _ _ _ Hok).
    + intros a x Hx. apply (lf_account _ _ _ Hok) in Hx as (i & o' & Hf & Hrest).
      exists i, o'. split; [by apply first_open_app|]. exact Hrest.
  - (* open *)
    rewrite (lf_open _ _ _ Hok) in Ho. rewrite (lf_closed _ _ _ Hok) in Hc.
    assert (life ds (op_acc o) = Unopened) as Hun by by destruct (life ds (op_acc o)).
    assert (∀ a, life (ds ++ [d]) a = if decide (op_acc o = a) then OpenSince (length ds) else life ds a) as Hl.
    { intros a. rewrite life_snoc. unfold life_step. rewrite Hv.
      destruct (String.eqb_spec (op_acc o) a) as [<-|]; destruct (decide _); try done. by rewrite Hun. }
    subst s'. split; cbn.
    + intros a. rewrite Hl. destruct (decide (op_acc o = a)) as [<-|Hne].
      * by rewrite lookup_insert.
      * rewrite lookup_insert_ne by done. apply (lf_open _ _ _ Hok).
    + intros a. rewrite Hl, (lf_closed _ _ _ Hok). destruct (decide (op_acc o = a)) as [<-|Hne]; [|done].
      by rewrite Hun.
    + apply (lf_default _ _ _ Hok).
    + intros a x. destruct (decide (op_acc o = a)) as [<-|Hne].
      * rewrite lookup_insert. intros [= <-]. exists (length ds), o. cbn. split; [|done].
        split.
        -- exists d. split; [|done]. rewrite lookup_app_r by lia. by rewrite Nat.sub_diag.
        -- intros j o' Hj. apply opens_at_snoc in Hj as [Hj|[-> _]]; [|done].
           by apply (life_unopened _ _ _ _ Hun) in Hj.
      * rewrite lookup_insert_ne by done. intros Hx.
        apply (lf_account _ _ _ Hok) in Hx as (i & o' & Hf & Hrest).
        exists i, o'. split; [by apply first_open_app|]. exact Hrest.
  - (* close *)
    rewrite (lf_open _ _ _ Hok) in Ho. rewrite (lf_closed _ _ _ Hok) in Hc.
    assert (∀ b, life (ds ++ [d]) b = if decide (a = b) then ClosedAt (length ds) else life ds b) as Hl.
    { intros b. rewrite life_snoc. unfold life_step. rewrite Hv.
      destruct (String.eqb_spec a b) as [<-|]; destruct (decide _); try done.
      by destruct (life ds a). }
    split; cbn.
    + intros b. rewrite Hl. destruct (decide (a = b)) as [<-|Hne].
      * by rewrite lookup_delete.
      * rewrite lookup_delete_ne by done. apply (lf_open _ _ _ Hok).
    + intros b. rewrite Hl. destruct (decide (a = b)) as [<-|Hne].
      * by rewrite lookup_insert.
      * rewrite lookup_insert_ne by done. apply (lf_closed _ _ _ Hok).
    + apply (lf_default _ _ _ Hok).
    + intros b x Hx. apply (lf_account _ _ _ Hok) in Hx as (i & o' & Hf & Hrest).
      exists i, o'. split; [by apply first_open_app|]. exact Hrest.
  - eapply life_ok_same; [done| |done..]. intros b. rewrite life_snoc. unfold life_step. rewrite Hv.
    destruct (String.eqb_spec a b) as [<-|]; [|done].
    rewrite (lf_open _ _ _ Hok) in Ho. rewrite (lf_closed _ _ _ Hok) in Hc. by destruct (life ds a).
  - eapply life_ok_same; [done| |done..]. intros b. rewrite life_snoc. unfold life_step. rewrite Hv.
    destruct (String.eqb_spec a b) as [<-|]; [|done].
    rewrite (lf_open _ _ _ Hok) in Ho. by destruct (life ds a).
  - eapply life_ok_same; [done| |done..]. intros ?. apply life_step_other; congruence.
  - eapply life_ok_same; [done| |done..|].
    + intros ?. apply life_step_other; congruence.
    + intros a' y. by eapply put_accounts_same.
  - eapply life_ok_same; [done| |done..|].
    + intros ?. apply life_step_other; congruence.
    + intros a' y. by eapply put_accounts_same.
  - eapply life_ok_same; [done| |done..]. intros ?. apply life_step_other; congruence.
  - eapply life_ok_same; [done| |done..]. intros ?. apply life_step_other; congruence.
  - eapply life_ok_same; [done| |done..|].
    + intros ?. apply life_step_other; congruence.
    + intros a' y. by eapply put_accounts_same.
  - subst s'. eapply life_ok_same; [done| |done..|].
    + intros ?. apply life_step_other; congruence.
    + intros a' y. by eapply put_accounts_same.
  - eapply life_ok_same; [done| |subst s'; done..|].
    + intros ?. apply life_step_other; congruence.
    + intros a' y Hy. cbn [c_acc] in Hy. eapply put_accounts_same in Hy as (x & Hx & E1 & E2 & E3); [|done..].
      rewrite Hs' in Hx. eapply put_accounts_same in Hx as (x' & Hx' & E1' & E2' & E3'); [|done..].
      exists x'. split; [done|]. split_and!; congruence.
Qed.

Lemma life_run opt ds c : run opt ds = CRun c → life_ok opt ds c.
Proof.
  revert ds c. eapply run_ind.
  - split; cbn.
    + intros a. by rewrite lookup_empty.
    + intros a. by rewrite lookup_empty.
    + done.
    + intros a x. by rewrite lookup_empty.
  - intros ds d c c' Hrun Hok Hstep. apply collect_step_rel in Hstep. by eapply life_ok_step.
Qed.

(** Every account with an open directive exists, and no other. *)
Lemma account_exists_iff opt ds c a :
  run opt ds = CRun c → is_Some (s_accounts (c_acc c) !! a) ↔ ∃ i o, opens_at ds i a o.
Proof.
  intros Hrun. pose proof (life_run _ _ _ Hrun) as Hl. pose proof (wf_run _ _ _ _ _ Hrun) as Hwf. split.
  - intros [x Hx]. apply (lf_account _ _ _ Hl) in Hx as (i & o & [Ho _] & _). eauto.
  - intros (i & o & Ho). apply (wf_dom _ _ Hwf). apply life_opened in Ho.
    rewrite (lf_open _ _ _ Hl), (lf_closed _ _ _ Hl). destruct (life ds a); cbn; [done|left; eauto|right; eauto|left; eauto].
Qed.

Lemma validate_account_life opt ds c a e :
  run opt ds = CRun c → validate_account (c_acc c) a e = unusable_report e (life ds a).
Proof.
  intros Hrun. pose proof (life_run _ _ _ Hrun) as Hl. unfold validate_account.
  rewrite (lf_open _ _ _ Hl), (lf_closed _ _ _ Hl). by destruct (life ds a).
Qed.

End Life.
