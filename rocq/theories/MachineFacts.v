(** With moderate amounts the decimals of the machine are as good as unbounded ones. *)
From Coq Require Import Ascii QArith Qabs Lqa.
From stdpp Require Import prelude gmap strings pretty.
From Verif Require Import DecModel DecProofs LedgerTypes BookModel BookSpec BookLib BookUnits MachineModel MachineSpec.
Local Open Scope nat_scope.

Lemma filter_part {A B} (Q : A → Prop) `{!∀ x, Decision (Q x)} (g : A → B) l : g <$> filter Q l ⊆+ g <$> l.
Proof.
  induction l as [|x l IH]; [done|]. rewrite filter_cons. destruct (decide (Q x)); rewrite !fmap_cons; [by apply submseteq_skip|by apply submseteq_cons].
Qed.
Definition mass (l : list dec) : Q := Qsum ((λ d, Qabs (dec_value d)) <$> l).
Lemma mass_cons d l : mass (d :: l) = (Qabs (dec_value d) + mass l)%Q.
Proof. done. Qed.
Lemma mass_nonneg l : (0 <= mass l)%Q.
Proof. induction l as [|d l IH]; [done|]. rewrite mass_cons. pose proof (Qabs_nonneg (dec_value d)). lra. Qed.
Lemma mass_submseteq l l' : l ⊆+ l' → (mass l <= mass l')%Q.
Proof.
  intros H. induction H as [|d l l' H IH|d e l|d l l' H IH|l1 l2 l3 H1 IH1 H2 IH2].
  - done.
  - rewrite !mass_cons. lra.
  - rewrite !mass_cons. lra.
  - rewrite mass_cons. pose proof (Qabs_nonneg (dec_value d)). lra.
  - lra.
Qed.
Lemma ten_pos n : (0 < inject_Z (10 ^ Z.of_nat n))%Q.
Proof. change 0%Q with (inject_Z 0). rewrite <- Zlt_Qlt. apply Z.pow_pos_nonneg; lia. Qed.
Lemma within_submseteq n l l' : l ⊆+ l' → within n l' → within n l.
Proof.
  intros H (Hn&Hs&Hm). split_and!; [done| |].
  - rewrite Forall_forall in *. intros d Hd. apply Hs. by eapply elem_of_submseteq.
  - fold (mass l) (mass l') in *. pose proof (mass_submseteq l l' H) as Hle. pose proof (ten_pos n) as Ht.
    eapply Qle_lt_trans; [|exact Hm]. by apply Qmult_le_compat_r; [|apply Qlt_le_weak].
Qed.
Lemma pow10_pow n : Z.pos (pow10 n) = (10 ^ Z.of_nat n)%Z.
Proof. induction n as [|n IH]; [done|]. cbn [pow10]. rewrite Nat2Z.inj_succ, Z.pow_succ_r by lia. rewrite <- IH. lia. Qed.
Lemma small_representable n d : n ≤ 28 → dec_scale d ≤ n → (Qabs (dec_value d) * inject_Z (10 ^ Z.of_nat n) < inject_Z (2 ^ 96))%Q → representable d.
Proof.
  intros Hn Hs H. split; [|lia]. unfold dec_value, Qabs, Qlt, Qmult, inject_Z in H. cbn [Qnum Qden] in H. rewrite Pos.mul_1_r, Z.mul_1_r, pow10_pow in H.
  assert (10 ^ Z.of_nat (dec_scale d) <= 10 ^ Z.of_nat n)%Z as Hp by (apply Z.pow_le_mono_r; lia).
  assert (0 < 10 ^ Z.of_nat (dec_scale d))%Z as H0 by (apply Z.pow_pos_nonneg; lia).
  assert (0 <= 2 ^ 96)%Z as HB by done.
  revert H Hp H0 HB. generalize (10 ^ Z.of_nat (dec_scale d))%Z (10 ^ Z.of_nat n)%Z (Z.abs (dec_mant d)) (2 ^ 96)%Z. intros u v m B H Hp H0 HB.
  destruct (Z.lt_ge_cases m B) as [|Hge]; [done|]. pose proof (Z.mul_le_mono_nonneg B m u v HB Hge ltac:(lia) Hp). lia.
Qed.

Section Machine.
Context (madd mmul : dec → dec → option dec) (HM : machine_ok madd mmul).
Lemma add_scale a b n : dec_scale a ≤ n → dec_scale b ≤ n → dec_scale (dec_add a b) ≤ n.
Proof. unfold dec_add. cbn [dec_scale]. lia. Qed.
(** Adding two of the amounts leaves the rest within range. *)
Lemma within_add n a b l : within n (a :: b :: l) → madd a b = Some (dec_add a b) ∧ within n (dec_add a b :: l).
Proof using HM.
  intros (Hn&Hs&Hm). fold (mass (a :: b :: l)) in Hm. rewrite !mass_cons in Hm. inversion Hs as [|? ? Ha Hs']; subst. inversion Hs' as [|? ? Hb Hl]; subst.
  assert (Qabs (dec_value (dec_add a b)) <= Qabs (dec_value a) + Qabs (dec_value b))%Q as Ht by (rewrite dec_add_value; apply Qabs_triangle).
  pose proof (mass_nonneg l) as H0. pose proof (ten_pos n) as Hp.
  assert (within n (dec_add a b :: l)) as Hw.
  { split_and!; [done|constructor; [by apply add_scale|done]|]. fold (mass (dec_add a b :: l)). rewrite mass_cons.
    eapply Qle_lt_trans; [|exact Hm]. apply Qmult_le_compat_r; [lra|lra]. }
  split; [|done]. apply (mo_add _ _ HM). apply (small_representable n); [done|by apply add_scale|].
  eapply Qle_lt_trans; [|exact Hm]. apply Qmult_le_compat_r; [lra|lra].
Qed.
Lemma msum_exact n l t : within n (t :: l) → msum_from madd t l = Some (fold_left dec_add l t) ∧ within n [fold_left dec_add l t].
Proof using HM.
  revert t. induction l as [|d l IH]; intros t H; [done|]. cbn [msum_from fold_left]. destruct (within_add n t d l H) as [-> H']. by apply IH.
Qed.
Lemma msum_exact2 n u l t : within n (u :: t :: l) → msum_from madd t l = Some (fold_left dec_add l t) ∧ within n [u; fold_left dec_add l t].
Proof using HM.
  revert t. induction l as [|d l IH]; intros t H; [done|]. cbn [msum_from fold_left].
  assert (within n (t :: d :: u :: l)) as H1 by (eapply within_submseteq; [|exact H]; apply Permutation_submseteq; etrans; [apply perm_skip, perm_swap|apply perm_swap]).
  destruct (within_add n t d (u :: l) H1) as [-> H']. apply IH. eapply within_submseteq; [|exact H']. apply Permutation_submseteq, perm_swap.
Qed.
Lemma within_neg n a b : within n [a; b] → within n [a; dec_neg b].
Proof.
  intros (Hn&Hs&Hm). split_and!; [done| |].
  - inversion Hs as [|? ? Ha Hs']; subst. inversion Hs' as [|? ? Hb _]; subst. by repeat constructor.
  - cbn [fmap list_fmap] in *. unfold Qsum in *. cbn [foldr] in *. by rewrite dec_neg_value, Qabs_opp.
Qed.

Section Ledger.
Context {P : Type} (L : booking_lib P) (ord : gmap string (account P) → list (string * account P)) (Hord : ∀ m, ord m ≡ₚ map_to_list m).

Lemma m_rollup_eq n s base cur u : within n (u :: holdings L s cur) →
  m_rollup L ord madd s base cur = Some (total_rollup_units_for_currency L ord s base cur) ∧ within n [u; total_rollup_units_for_currency L ord s base cur].
Proof using HM Hord.
  intros H. unfold m_rollup, total_rollup_units_for_currency, dec_sum. apply msum_exact2.
  assert (∀ l, within n (u :: l) → within n (u :: dec_zero :: l)) as Hz.
  { intros l (Hn&Hs&Hm). split_and!; [done| |].
    - inversion Hs; subst. repeat constructor; [done|cbn; lia|done].
    - cbn [fmap list_fmap] in *. unfold Qsum in *. cbn [foldr] in *. setoid_replace (Qabs (dec_value dec_zero)) with 0%Q by done. by rewrite Qplus_0_l. }
  apply Hz. eapply within_submseteq; [|exact H]. apply submseteq_skip. unfold holdings, account_and_subaccounts. rewrite <- list_fmap_compose.
  rewrite <- Hord. apply filter_part.
Qed.
Lemma m_tolerance_eq b : tolerable L b → m_tolerance L mmul b = Some (effective_tolerance L b).
Proof using HM.
  intros H. unfold m_tolerance, effective_tolerance. destruct (bal_tolerance b) as [t|] eqn:Et; [done|]. destruct (H Et) as [Hs Hm]. clear H.
  change (Dec 5 1) with (dec_new 5 1) in *. destruct (Nat.ltb 0 _); [|done]. set (m := match lib_multiplier L with Some m => m | None => dec_new 5 1 end) in *.
  assert (representable (dec_mul (dec_new 1 (dec_scale (bal_units b))) m)) as R1.
  { split; cbn [dec_mul dec_mant dec_scale dec_new]; [|done]. rewrite Z.mul_1_l. lia. }
  rewrite (mo_mul _ _ HM _ _ R1). apply (mo_mul _ _ HM). split; [|cbn [dec_mul dec_scale dec_new dec_two]; lia].
  cbn [dec_mul dec_mant dec_new dec_two]. rewrite Z.mul_1_l, Z.abs_mul. lia.
Qed.
Lemma balance_rest_eq s b e bds :
  balance_dct L ord s b e bds = balance_rest L (calculate_balance_margin (bal_units b) (effective_tolerance L b) (total_rollup_units_for_currency L ord s (bal_acc b) (bal_cur b))) s b e bds.
Proof. done. Qed.
Lemma m_balance_eq n s b e bds : tolerable L b → within n (bal_units b :: holdings L s (bal_cur b)) →
  m_balance_dct L ord madd mmul s b e bds = balance_dct L ord s b e bds.
Proof using HM Hord.
  intros Ht Hw. unfold m_balance_dct. rewrite (m_tolerance_eq b Ht). destruct (m_rollup_eq n s (bal_acc b) (bal_cur b) (bal_units b) Hw) as [-> Hw2].
  unfold m_margin, msub. destruct (within_add n _ _ [] (within_neg n _ _ Hw2)) as [-> _]. by rewrite balance_rest_eq.
Qed.
(** An assertion which fails leaves what has been booked as it is. *)
Lemma margin_booked s b e bds s' bds' bb m : balance_dct L ord s b e bds = (s', bds', ROk (BVBalance bb)) → bb_margin bb = Some m → bds' = bds.
Proof.
  unfold balance_dct. intros H Hm. repeat case_match; try discriminate H; injection H as <- <- <-; try done; cbn in Hm; discriminate Hm.
Qed.
(** ** Reports *)
Lemma m_report_postings_eq n base d t qs x rest : within n (x.1.1 :: (p_units <$> qs) ++ rest) →
  fold_left (m_report_posting madd base d t) qs (Some x) = Some (fold_left (report_posting base d t) qs x) ∧ within n ((fold_left (report_posting base d t) qs x).1.1 :: rest).
Proof using HM.
  revert x. induction qs as [|q qs IH]; intros [[tot ds] accs] H; [done|]. cbn [fold_left]. rewrite fmap_cons in H. cbn [fst app] in H.
  assert (m_report_posting madd base d t (Some (tot, ds, accs)) q = Some (report_posting base d t (tot, ds, accs) q) ∧
    within n ((report_posting base d t (tot, ds, accs) q).1.1 :: (p_units <$> qs) ++ rest)) as [-> H'].
  { unfold m_report_posting, report_posting. destruct (is_nonstrict_subaccount base (p_acc q)).
    - by destruct (within_add n _ _ _ H) as [-> H'].
    - split; [done|]. eapply within_submseteq; [|exact H]. apply submseteq_skip, submseteq_cons. done. }
  by apply IH.
Qed.
Lemma m_report_window_eq n base bs x : within n (x.1.1 :: posted_units bs) →
  fold_left (m_report_directive madd base) bs (Some x) = Some (fold_left (report_directive base) bs x).
Proof using HM.
  revert x. induction bs as [|b bs IH]; intros x H; [done|]. cbn [fold_left].
  unfold posted_units in H. rewrite bind_cons in H. fold (posted_units bs) in H.
  unfold m_report_directive at 2, report_directive at 2. destruct (b_variant b) as [t| | | | | | | | | | |]; [|by apply IH..].
  destruct (m_report_postings_eq n base b t (bt_postings t) x _ H) as [-> H']. by apply IH.
Qed.
Lemma posted_window a b bs : posted_units (take a (drop b bs)) ⊆+ posted_units bs.
Proof.
  assert (∀ l l' : list bdirective, posted_units (l ++ l') = posted_units l ++ posted_units l') as Happ by (intros; apply bind_app).
  transitivity (posted_units (drop b bs)).
  - rewrite <- (take_drop a (drop b bs)) at 2. rewrite Happ. apply submseteq_inserts_r. done.
  - rewrite <- (take_drop b bs) at 2. rewrite Happ. apply submseteq_inserts_l. done.
Qed.
Lemma m_report_eq n (s : accst P) base m cur e bds : (∀ o, o ∈ dec_zero :: asserted_units bds → within n (o :: posted_units bds)) →
  m_balance_report madd s base m cur e bds = balance_report s base m cur e bds.
Proof using HM.
  intros H. unfold m_balance_report, balance_report. destruct (s_accounts s !! base) as [a|]; [|done]. destruct (a_window a) as [[ws we]|]; [|done].
  destruct (_ && _); [|done]. set (X := match bds !! ws with Some d => _ | None => _ end).
  assert (X ∈ dec_zero :: asserted_units bds) as HX.
  { unfold X. destruct (bds !! ws) as [d|] eqn:Ed; [|by left]. destruct (b_variant d) as [| |bb| | | | | | | | |] eqn:Ev; try by left. destruct (String.eqb _ _); [|by left].
    right. unfold asserted_units. apply elem_of_list_bind. exists d. split; [rewrite Ev; by left|by eapply elem_of_list_lookup_2]. }
  rewrite (m_report_window_eq n); [by destruct (fold_left _ _ (X, _, _)) as [[? ?] ?]|]. cbn [fst].
  eapply within_submseteq; [|exact (H X HX)]. apply submseteq_skip, posted_window.
Qed.
Lemma m_step_eq n i d c :
  (∀ b, d_variant d = DBalance b → tolerable L b ∧ within n (bal_units b :: holdings L (c_acc c) (bal_cur b)) ∧
    ∀ o, o ∈ dec_zero :: asserted_units (c_booked c) → within n (o :: posted_units (c_booked c))) →
  m_collect_step L ord madd mmul i d c = collect_step L ord i d c.
Proof using HM Hord.
  intros H. unfold m_collect_step, collect_step, m_directive_dct.
  destruct (d_variant d) as [t|p|b|o|a|cur|p|a p|a x|t x|x q|cu] eqn:Ev.
  3: { destruct (H b eq_refl) as (Ht&Hw&Hr). unfold directive_dct. rewrite Ev, (m_balance_eq n) by done.
    destruct (balance_dct L ord (c_acc c) b (eidx_of_nat i) (c_booked c)) as [[s1 b1] [v|er|w]] eqn:Eb; cbn [with_none]; [|done..].
    destruct v as [| |bb| | | | | | | | |]; try done. destruct (bb_margin bb) as [m|] eqn:Em; [|done].
    rewrite (margin_booked _ _ _ _ _ _ _ _ Eb Em). by rewrite (m_report_eq n) by done. }
  all: unfold directive_dct; rewrite Ev; try done.
  - unfold transaction_dct. destruct (book_txn L _ _ _ _) as [? [?|?|?]]; done.
  - unfold open_dct. repeat case_match; simplify_eq; done.
  - unfold close_dct. repeat case_match; simplify_eq; done.
  - unfold pad_dct. repeat case_match; simplify_eq; done.
Qed.
Lemma collect_loop_app i ds ds' c : collect_loop L ord i (ds ++ ds') c = match collect_loop L ord i ds c with CRun c' => collect_loop L ord (length ds + i) ds' c' | CPanic w => CPanic w end.
Proof.
  revert i c. induction ds as [|d ds IH]; intros i c; [done|]. cbn [app collect_loop length]. destruct (collect_step L ord i d c) as [c'|]; [|done].
  rewrite IH. replace (length ds + S i) with (S (length ds) + i) by lia. done.
Qed.
Lemma m_loop_eq n opt done_ ds c :
  moderate L n ord opt (done_ ++ ds) →
  collect_loop L ord 0 done_ (CSt (acc_new (default_booking_option L opt)) [] []) = CRun c →
  m_collect_loop L ord madd mmul (length done_) ds c = collect_loop L ord (length done_) ds c.
Proof using HM Hord.
  revert done_ c. induction ds as [|d ds IH]; intros done_ c H Hc; [done|]. cbn [m_collect_loop collect_loop].
  rewrite (m_step_eq n).
  2: { intros b Hb. eapply (H (length done_) d b c); [|done|].
    - rewrite lookup_app_r by lia. by rewrite Nat.sub_diag.
    - by rewrite take_app. }
  destruct (collect_step L ord (length done_) d c) as [c'|] eqn:E; [|done].
  specialize (IH (done_ ++ [d]) c'). rewrite <- app_assoc in IH. cbn [app] in IH. rewrite app_length, Nat.add_comm in IH. cbn [length Nat.add] in IH. apply IH; [done|].
  rewrite collect_loop_app, Hc. cbn [collect_loop]. by rewrite Nat.add_0_r, E.
Qed.
Lemma m_book_eq n opt ds : moderate L n ord opt ds → m_book L ord madd mmul opt ds = book L ord opt ds.
Proof using HM Hord.
  intros H. unfold m_book, book, collect. pose proof (m_loop_eq n opt [] ds (CSt (acc_new (default_booking_option L opt)) [] []) H eq_refl) as E. cbn [length] in E. by rewrite E.
Qed.
End Ledger.
End Machine.
