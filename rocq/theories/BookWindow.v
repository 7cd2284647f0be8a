(** The table in the report of a failed balance. *)
From Coq Require Import Ascii QArith Qabs.
From stdpp Require Import prelude gmap strings pretty.
From Verif Require Import DecModel DecProofs LedgerTypes BookModel BookSpec ReportSpec BookLib
  BookSteps BookInv BookWf BookLife BookUnits BookPend BookSuccess BookPads BookFacts BookReports BookLocate
  ReportFacts.
Local Open Scope nat_scope.
Local Arguments Qeq : simpl never.
Local Arguments Qplus : simpl never.
Local Arguments dec_value : simpl never.

Notation diag := (date * string * dec * dec * option string)%type.
Definition diag_step (base : string) (acc : dec * list diag * gset string) (x : date * posting * option string)
    : dec * list diag * gset string :=
  let '(total, diags, accs) := acc in
  let '(dt, p, desc) := x in
  let total := dec_add total (p_units p) in
  (total, diags ++ [(dt, default EmptyString (strip_prefix base (p_acc p)), p_units p, total, desc)],
   {[ p_acc p ]} ∪ accs).

Lemma report_directive_fold base b acc :
  report_directive base acc b = fold_left (diag_step base) (touching base [b]) acc.
Proof.
  unfold report_directive, touching. cbn [mbind list_bind]. rewrite app_nil_r.
  destruct (b_variant b) as [t| | | | | | | | | | |]; try done.
  revert acc. induction (bt_postings t) as [|p l IH]; intros acc; [done|].
  cbn [fold_left]. rewrite IH, filter_cons. destruct acc as [[total diags] accs].
  unfold report_posting at 1. rewrite is_nonstrict_subaccount_under.
  destruct (under base (p_acc p)) eqn:E.
  - rewrite decide_True by done. done.
  - by rewrite decide_False.
Qed.

Lemma touching_cons base b w : touching base (b :: w) = touching base [b] ++ touching base w.
Proof. unfold touching. cbn [mbind list_bind]. by rewrite app_nil_r. Qed.

Lemma report_fold base w acc :
  fold_left (report_directive base) w acc = fold_left (diag_step base) (touching base w) acc.
Proof.
  revert acc. induction w as [|b w IH]; intros acc; [done|].
  rewrite touching_cons, fold_left_app, <- report_directive_fold. cbn [fold_left]. apply IH.
Qed.

Lemma touching_under base w x : x ∈ touching base w → under base (p_acc x.1.2) = true.
Proof.
  unfold touching. intros (b & Hx & _)%elem_of_list_bind.
  destruct (b_variant b); try by apply elem_of_nil in Hx.
  apply elem_of_list_fmap in Hx as (p & -> & Hp). by apply elem_of_list_filter in Hp as [? _].
Qed.

Lemma units_in_cons x l : (units_in (x :: l) == dec_value (p_units x.1.2) + units_in l)%Q.
Proof. unfold units_in. rewrite fmap_cons, Qsum_cons. done. Qed.

Lemma units_in_app l l' : (units_in (l ++ l') == units_in l + units_in l')%Q.
Proof. unfold units_in. rewrite fmap_app. apply Qsum_app. Qed.

(** What the scan yields. *)
Lemma diag_fold base l t0 :
  ∀ total diags accs, fold_left (diag_step base) l (t0, [], ∅) = (total, diags, accs) →
  (dec_value total == dec_value t0 + units_in l)%Q ∧ length diags = length l ∧
  accs = list_to_set ((λ x, p_acc x.1.2) <$> l) ∧
  ∀ i dt p desc, l !! i = Some (dt, p, desc) → ∃ t, 
    diags !! i = Some (dt, default EmptyString (strip_prefix base (p_acc p)), p_units p, t, desc) ∧
    (dec_value t == dec_value t0 + units_in (take (S i) l))%Q.
Proof.
  induction l as [|x l IH] using rev_ind; intros total diags accs.
  - cbn [fold_left]. intros [= <- <- <-]. split_and!; try done. unfold units_in, Qsum. cbn. ring.
  - rewrite fold_left_app. cbn [fold_left].
    destruct (fold_left (diag_step base) l (t0, [], ∅)) as [[total' diags'] accs'] eqn:E.
    destruct (IH _ _ _ eq_refl) as (Ht & Hl & Ha & Hd). destruct x as [[dt p] desc].
    cbn [diag_step]. intros [= <- <- <-].
    assert (dec_value (dec_add total' (p_units p)) == dec_value t0 + units_in (l ++ [(dt, p, desc)]))%Q as Htot.
    { rewrite dec_add_value, Ht, units_in_app, units_in_cons. unfold units_in at 3, Qsum. cbn [fmap list_fmap foldr fst snd]. ring. }
    split_and!.
    + done.
    + rewrite !app_length. cbn. lia.
    + rewrite Ha, fmap_app, list_to_set_app_L. cbn. set_solver.
    + intros i dt' p' desc' Hi. apply snoc_lookup in Hi as [[Hlt Hi]|[-> Hx]].
      * destruct (Hd _ _ _ _ Hi) as (t & Hdi & Hti). exists t.
        rewrite lookup_app_l by lia. rewrite take_app_le by lia. done.
      * injection Hx as -> -> ->. exists (dec_add total' (p_units p)).
        rewrite lookup_app_r, Hl, Nat.sub_diag by lia. split; [done|].
        by rewrite (take_ge (l ++ _)) by (rewrite app_length; cbn; lia).
Qed.

Lemma size_list_to_set_le_1 (l : list string) :
  size (list_to_set l : gset string) <= 1 → ∀ x y, x ∈ l → y ∈ l → x = y.
Proof.
  intros Hs x y Hx Hy. destruct (decide (x = y)); [done|].
  exfalso. assert (({[x; y]} : gset string) ⊆ list_to_set l) as Hsub by set_solver.
  apply subseteq_size in Hsub. rewrite size_union in Hsub by set_solver.
  rewrite !size_singleton in Hsub. lia.
Qed.

Lemma size_list_to_set_gt_1 (l : list string) :
  1 < size (list_to_set l : gset string) → ∃ x y, x ∈ l ∧ y ∈ l ∧ x ≠ y.
Proof.
  intros Hs. destruct l as [|x l]; [by cbn in Hs; rewrite size_empty in Hs; lia|].
  destruct (decide (Forall (λ y, y = x) l)) as [Hall|Hn].
  - exfalso. assert ((list_to_set (x :: l) : gset string) ⊆ {[x]}) as Hsub.
    { intros z. rewrite elem_of_list_to_set, elem_of_cons. intros [->|Hz]; [set_solver|].
      rewrite Forall_forall in Hall. rewrite (Hall _ Hz). set_solver. }
    apply subseteq_size in Hsub. rewrite size_singleton in Hsub. lia.
  - exists x. destruct (list_find (λ y, y ≠ x) l) as [[i y]|] eqn:E.
    + apply list_find_Some in E as (Hy & Hne & _). exists y. apply elem_of_list_lookup_2 in Hy.
      split_and!; [left|by right|done].
    + exfalso. apply list_find_None in E. apply Hn. eapply Forall_impl; [exact E|]. cbn. intros y Hy.
      by destruct (decide (y = x)).
Qed.

Section Window.
Context {P : Type} (L : booking_lib P).
Context (ord : gmap string (account P) → list (string * account P)).
Notation run := (run L ord).
Notation book := (book L ord).
Notation step := (step_rel L ord).

Lemma failure_report ds (c : cst (P:=P)) b x m e s' rep :
  wf ds c → s_accounts (c_acc c) !! bal_acc b = Some x →
  s_accounts s' !! bal_acc b = Some (adjust_account_to_match_balance L
    (set_pad (set_window x (Some (next_window x (length (c_booked c))))) None) (bal_cur b) m AdjAdd) →
  balance_report (P:=P) s' (bal_acc b) m (bal_cur b) e (c_booked c) = ROk rep →
  failure_table b (c_booked c) rep.
Proof.
  intros Hwf Hx Hs' Hrep. destruct (wf_account _ _ Hwf _ _ Hx) as (_ & _ & Hwin).
  unfold balance_report in Hrep. rewrite Hs' in Hrep. cbn in Hrep. unfold next_window in Hrep.
  set (bs := c_booked c) in *. set (base := bal_acc b) in *.
  assert (∃ prev w, since_balance base bs prev w ∧
    ∃ ws total0, (match a_window x with Some (_, e0) => (e0, length bs) | None => (0, length bs) end) = (ws, length bs) ∧
      ws <= length bs ∧
      match bs !! ws with
      | Some d => match b_variant d with
                  | BVBalance bal => if String.eqb (bal_cur (bb_raw bal)) (bal_cur b) then bal_units (bb_raw bal) else dec_zero
                  | _ => dec_zero
                  end
      | None => dec_zero
      end = total0 ∧ (dec_value total0 == start_total prev (bal_cur b))%Q ∧
      touching base (take (length bs - ws) (drop ws bs)) = touching base w) as (prev & w & Hsb & ws & total0 & Hw & Hle & H0 & Hst & Htc).
  { destruct (a_window x) as [[s0 e0]|].
    - destruct Hwin as (_ & (b0 & Hb0 & bb & Hbb & Hacc) & Hafter).
      exists (Some (bb_raw bb)), (drop (S e0) bs).
      assert (e0 < length bs) by (by eapply lookup_lt_Some). split.
      + apply (SB_some _ _ (take e0 bs) b0); try done.
        * by rewrite take_drop_middle.
        * intros b' Hb'. apply elem_of_list_lookup in Hb' as [i Hi]. rewrite lookup_drop in Hi.
          destruct (balances_on base b') eqn:E; [|done]. apply balances_on_spec in E. exfalso.
          apply (Hafter (S e0 + i) b'); [lia|done|done].
      + eexists e0, _. split; [done|]. split; [lia|]. split; [reflexivity|]. rewrite Hb0, Hbb. split.
        * unfold start_total. by destruct (String.eqb _ _).
        * rewrite take_ge by (rewrite drop_length; lia).
          rewrite (drop_S bs b0) by done. rewrite touching_cons.
          assert (touching base [b0] = []) as ->; [|done]. unfold touching. cbn. by rewrite Hbb.
    - exists None, bs. split.
      + apply SB_none. intros b' [i Hi]%elem_of_list_lookup.
        destruct (balances_on base b') eqn:E; [|done]. apply balances_on_spec in E. exfalso. by eapply Hwin.
      + eexists 0, _. split; [done|]. split; [lia|]. split; [reflexivity|]. split.
        * destruct (bs !! 0) as [b0|] eqn:E0; [|done].
          destruct (b_variant b0) as [| |bb| | | | | | | | |] eqn:Ev; try done. exfalso.
          eapply (wf_first _ _ Hwf b0 (bal_acc (bb_raw bb))); [done|]. by exists bb.
        * by rewrite Nat.sub_0_r, drop_0, take_ge by lia. }
  rewrite Hw, H0 in Hrep.
  assert (Nat.leb ws (length bs) && Nat.leb (length bs) (length bs) = true) as Hb.
  { apply andb_true_iff; split; apply Nat.leb_le; lia. }
  rewrite Hb, report_fold, Htc in Hrep.
  destruct (fold_left _ _ _) as [[total diags] accs] eqn:Ef.
  destruct (diag_fold _ _ _ _ _ _ Ef) as (Ht & Hl & Ha & Hd).
  injection Hrep as <-.
  exists prev, w, total, m. eexists. split; [done|]. cbn [r_reason r_annotation with_annotation mk_report].
  split; [reflexivity|]. split; [reflexivity|]. split; [|by rewrite Ht, Hst].
  split; [by rewrite fmap_length|]. intros i dt p desc row Hi Hrow.
  destruct (Hd _ _ _ _ Hi) as (t & Hdi & Hti). rewrite list_lookup_fmap, Hdi in Hrow. cbn [fmap option_fmap option_map] in Hrow.
  injection Hrow as <-. cbn [dr_date dr_units dr_description dr_total dr_acc].
  split_and!; try done; [by rewrite Hti, Hst|].
  change (match size accs with S (S _) => true | _ => false end) with (Nat.ltb 1 (size accs)).
  destruct (Nat.ltb 1 (size accs)) eqn:Es.
  - right. apply Nat.ltb_lt in Es. rewrite Ha in Es. apply size_list_to_set_gt_1 in Es as (a1 & a2 & H1 & H2 & Hne).
    apply elem_of_list_fmap in H1 as (x1 & -> & H1). apply elem_of_list_fmap in H2 as (x2 & -> & H2).
    split; [by exists x1, x2|].
    apply elem_of_list_lookup_2, touching_under in Hi. cbn in Hi. rewrite <- is_nonstrict_subaccount_under in Hi.
    unfold is_nonstrict_subaccount in Hi. change (bal_acc b) with base in Hi; change (bal_acc b) with base. destruct (strip_prefix base (p_acc p)) as [suf|] eqn:Esp; [|done].
    exists suf. split; [done|]. by apply strip_prefix_spec.
  - left. apply Nat.ltb_ge in Es. rewrite Ha in Es. split; [|done]. intros x1 x2 H1 H2.
    eapply size_list_to_set_le_1; [exact Es|apply elem_of_list_fmap; eauto..].
Qed.

Context (Hord : ∀ m, ord m ≡ₚ map_to_list m) (Hlib : lib_ok L).

(** Any failed balance. *)
Lemma balance_table opt ds k d b :
  (∀ w, book opt ds ≠ BookPanic w) → ds !! k = Some d → d_variant d = DBalance b →
  use_report (at_directive k) (take k ds) (bal_acc b) (bal_cur b) = None →
  ∀ r, r ∈ reports_at k (errors_of (book opt ds)) →
  ∃ c1, run opt (take k ds) = CRun c1 ∧ failure_table b (c_booked c1) r.
Proof.
  intros Hnp Hd Hvb Hu r Hr.
  destruct (result_at _ _ Hord _ _ _ _ Hnp Hd) as (c1 & c2 & new & H1 & Hs & H2 & Hn & Hrr).
  rewrite Hrr in Hr by (intros a; eapply not_pad_not_pending; [exact Hd|by rewrite Hvb]). clear Hrr.
  exists c1. split; [done|]. rewrite <- (take_len _ _ _ Hd) in Hs at 1.
  pose proof (wf_run _ _ _ _ _ H1) as Hwf.
  assert (∀ err, r ∈ reports_at k [err] → r = err) as Hone.
  { intros err Hin. apply elem_of_list_filter in Hin as [_ Hin]. by apply elem_of_list_singleton in Hin. }
  step_cases Hs; rewrite Hvb in Hv; try done; try (injection Hv as <-); cbn [c_errors] in Hn.
  - rewrite (validate_account_life _ _ _ _ _ _ _ H1) in Hva. unfold use_report in Hu.
    unfold at_directive in Hu. rewrite (take_len _ _ _ Hd) in Hva. unfold eidx_of_nat in Hva. by rewrite Hva in Hu.
  - rewrite (currency_report _ _ _ _ _ _ _ _ _ H1 Ha Hva), (take_len _ _ _ Hd) in Hvc.
    unfold eidx_of_nat in Hvc. unfold at_directive in Hu. by rewrite Hu in Hvc.
  - exfalso. apply app_inv_head in Hn. subst new.
    destruct (a_pad a0) as [[k0 u0]|] eqn:Ep; [|by apply elem_of_nil in Hr].
    destruct (wf_account _ _ Hwf _ _ Ha) as (_ & Hpad & _).
    destruct (Hpad _ _ Ep) as (i & dk & p & -> & Hdk & _).
    apply lookup_lt_Some in Hdk. rewrite (take_len _ _ _ Hd) in Hdk.
    apply elem_of_list_filter in Hr as [He Hr]. apply elem_of_list_singleton in Hr as ->. cbn in He. lia.
  - apply app_inv_head in Hn. subst new. apply Hone in Hr as ->.
    eapply failure_report; [done|exact Ha| |exact Hrep]. subst s0. cbn. by rewrite lookup_insert.
  - exfalso. assert (new = []) as -> by (by apply (app_inv_head (c_errors c1)); rewrite app_nil_r).
    by apply elem_of_nil in Hr.
Qed.
End Window.
