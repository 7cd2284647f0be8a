(** Facts about the sum of all that is booked. *)
From Coq Require Import Ascii QArith Qabs.
From stdpp Require Import prelude gmap strings.
From Verif Require Import DecModel DecProofs LedgerTypes IsoModel BookModel BookLib BookSpec BookProps ReportSpec ReportProps BookOutput CljModel InventoryModel InventorySpec InventoryFacts OrderFacts InventoryMain RollupFacts
  ClientModel ClientSpec ClientFacts ClientMain ViewSpec ViewFacts BalanceSpec.
Local Open Scope nat_scope.

Lemma Qabs_plus_le a b x y : (Qabs a <= x → Qabs b <= y → Qabs (a + b) <= x + y)%Q.
Proof. intros Ha Hb. eapply Qle_trans; [apply Qabs_triangle|]. by apply Qplus_le_compat. Qed.
Lemma Qabs_zero a : (a == 0 → Qabs a <= 0)%Q.
Proof. intros ->. apply Qle_refl. Qed.
Lemma Qsum_qsum l : Qsum l = qsum l.
Proof. induction l as [|x l IH]; [done|]. cbn. by rewrite <- IH. Qed.

(** ** One directive *)
(** The units of a currency in the booked postings. *)
Definition in_postings (cur : string) (ps : list posting) : Q :=
  qsum ((λ p, dec_value (p_units p)) <$> filter (λ p, p_cur p = cur) ps).
Lemma in_postings_app cur a b : (in_postings cur (a ++ b) == in_postings cur a + in_postings cur b)%Q.
Proof. unfold in_postings. by rewrite filter_app, fmap_app, qsum_app. Qed.

(** Those of one directive which the filters let pass. *)
Definition of_directive (filters : list (citem → bool)) (cur : string) (b : bdirective) : Q :=
  entry_units cur (entries_selected filters [b]).
Lemma entry_units_app cur a b : (entry_units cur (a ++ b) == entry_units cur a + entry_units cur b)%Q.
Proof. unfold entry_units. by rewrite filter_app, fmap_app, qsum_app. Qed.
Lemma entries_selected_app filters a b : entries_selected filters (a ++ b) = entries_selected filters a ++ entries_selected filters b.
Proof. unfold entries_selected. by rewrite booked_entries_app, filter_app. Qed.
Lemma of_directive_cons filters cur b bs :
  (entry_units cur (entries_selected filters (b :: bs)) == of_directive filters cur b + entry_units cur (entries_selected filters bs))%Q.
Proof. change (b :: bs) with ([b] ++ bs). by rewrite entries_selected_app, entry_units_app. Qed.

Lemma of_directive_other filters cur b : (∀ t, b_variant b ≠ BVTransaction t) → of_directive filters cur b = 0%Q.
Proof.
  intros H. unfold of_directive, entries_selected, booked_entries. cbn [mbind list_bind].
  destruct (b_variant b) as [t| | | | | | | | | | |]; try done. by destruct (H t).
Qed.

Lemma forallb_by_transaction filters x y :
  Forall by_transaction filters → it_date x = it_date y → it_payee x = it_payee y → it_narration x = it_narration y →
  forallb (λ f, f x) filters = forallb (λ f, f y) filters.
Proof. intros HF Hd Hp Hn. induction HF as [|f fs Hf HF IH]; [done|]. cbn. by rewrite IH, (Hf x y Hd Hp Hn). Qed.

Lemma of_directive_transaction filters cur b t :
  Forall by_transaction filters → b_variant b = BVTransaction t →
  of_directive filters cur b =
  if forallb (λ f, f (CItem (Some (b_date b)) None None (bt_payee t) (bt_narration t))) filters
  then in_postings cur (bt_postings t) else 0%Q.
Proof.
  intros HF Hv. unfold of_directive, entries_selected, booked_entries. cbn [mbind list_bind]. rewrite app_nil_r, Hv.
  unfold entry_units, in_postings. clear Hv. destruct (forallb _ filters) eqn:E.
  - induction (bt_postings t) as [|p ps IH]; [done|]. cbn [fmap list_fmap]. rewrite (filter_cons_True _ (_, p)).
    2: { apply forallb_Forall. cbn [fst]. rewrite <- E. by apply forallb_by_transaction. }
    rewrite !filter_cons. cbn [snd]. destruct (decide (p_cur p = cur)); cbn [fmap list_fmap qsum snd]; [f_equal|]; exact IH.
  - rewrite (filter_none _ ((λ p, _) <$> _)); [done|]. intros e (p&->&Hp)%elem_of_list_fmap. cbn [fst].
    intros H%forallb_Forall. assert (true = false) as X; [|discriminate]. rewrite <- E, <- H. by apply forallb_by_transaction.
Qed.

(** ** One transaction *)
Lemma expansion_units i ps ip g cur :
  (∀ costs, in_cost ip = Some costs → Qsum ((λ c, dec_value (pc_units c.2)) <$> costs) == dec_value (in_units ip))%Q →
  expansion i ps ip g → (in_postings cur g == if decide (in_currency ip = cur) then dec_value (in_units ip) else 0)%Q.
Proof.
  intros Hl H. unfold in_postings. destruct H as [p Hc _ Hu Hcur _ _|costs g Hc HF].
  - rewrite filter_cons, Hcur. destruct (decide (in_currency ip = cur)); cbn [fmap list_fmap filter list_filter qsum]; [rewrite Hu; ring|reflexivity].
  - specialize (Hl _ Hc). rewrite Qsum_qsum in Hl. destruct (decide (in_currency ip = cur)) as [E|E].
    + rewrite <- Hl. clear Hl Hc. induction HF as [|x p costs g (_&Hu&Hcur&_) HF IH]; [reflexivity|].
      rewrite filter_cons, decide_True by congruence. cbn [fmap list_fmap qsum]. by rewrite IH, Hu.
    + rewrite filter_none; [reflexivity|]. intros p Hp Hpc. apply elem_of_list_lookup in Hp as [k Hk].
      destruct (Forall2_lookup_r _ _ _ _ _ HF Hk) as (x&_&(_&_&Hcur&_)). congruence.
Qed.
Lemma groups_units cur (pss : list posting_spec) ips groups n :
  length ips = length pss → length groups = length pss →
  (∀ ip costs, ip ∈ ips → in_cost ip = Some costs → Qsum ((λ c, dec_value (pc_units c.2)) <$> costs) == dec_value (in_units ip))%Q →
  (∀ i ps ip g, pss !! i = Some ps → ips !! i = Some ip → groups !! i = Some g → expansion (n + i) ps ip g) →
  (in_postings cur (concat groups) == completed_units cur ips)%Q.
Proof.
  revert ips groups n. induction pss as [|ps pss IH]; intros [|ip ips] [|g groups] n Hi Hg Hl He; try discriminate; [reflexivity|].
  cbn [concat]. rewrite in_postings_app, (IH ips groups (S n)); [|by injection Hi|by injection Hg| |].
  - rewrite (expansion_units n ps ip g).
    + unfold completed_units at 2. rewrite filter_cons. destruct (decide (in_currency ip = cur)); cbn [fmap list_fmap qsum]; [reflexivity|].
      unfold completed_units. ring.
    + intros costs. apply Hl. by left.
    + pose proof (He 0 ps ip g eq_refl eq_refl eq_refl) as H. by rewrite Nat.add_0_r in H.
  - intros ip' costs Hin. apply Hl. by right.
  - intros i ps' ip' g' H1 H2 H3. pose proof (He (S i) ps' ip' g' H1 H2 H3) as H. by rewrite Nat.add_succ_r in H.
Qed.

(** ** All directives *)
Section All.
Context {P : Type} (L : booking_lib P) (ord : gmap string (account P) → list (string * account P)).
Context (Hord : ∀ m, ord m ≡ₚ map_to_list m) (HL : lib_ok L).
Context (opt : option booking) (ds : list directive) (bs : list bdirective) (ws : list report).
Context (Hbook : book L ord opt ds = BookSuccess bs ws).
Context (filters : list (citem → bool)) (Hfil : Forall by_transaction filters) (cur : string).
Context (tol : list posting_spec → string → Q) (Htol : balances_within L tol).
Context (Hplain : Forall plain (transactions filters ds)).

Lemma transaction_within b d t :
  b ∈ bs → ds !! b_idx b = Some d → d_variant d = DTransaction t → plain t →
  (Qabs (in_postings cur (postings_of b)) <= tol (tx_postings t) cur)%Q.
Proof.
  intros Hb Hd Hv Hp.
  destruct (C07_postings_traced P L ord Hord HL opt ds bs ws b d t Hbook Hb Hd Hv) as (inv&meth&ips&upd&groups&Hlib&_&_&_&->&Hi&Hg&He).
  rewrite (groups_units cur (tx_postings t) ips groups 0); [by eapply Htol|done..| |done].
  intros ip costs Hip Hc. by eapply (lk_lots L HL).
Qed.

Lemma pad_cancels k b b' p :
  bs !! k = Some b → b_variant b = BVPad p → bs !! S k = Some b' → (in_postings cur (postings_of b') == 0)%Q.
Proof.
  intros Hk Hv Hk'. destruct (C12_pads_are_filled P L ord opt ds bs ws k b p Hord Hbook Hk Hv) as (m&c&b2&Hb2&_&Hv2).
  rewrite Hk' in Hb2. injection Hb2 as <-. unfold postings_of. rewrite Hv2. cbn [bt_postings]. unfold in_postings.
  rewrite !filter_cons. cbn [p_cur]. destruct (decide (c = cur)); cbn [fmap list_fmap filter list_filter qsum p_units]; [|reflexivity].
  rewrite dec_neg_value. ring.
Qed.

(** What one directive of the ledger may be out by. *)
Definition slack (d : directive) : Q := match chosen filters d with Some t => tol (tx_postings t) cur | None => 0%Q end.
Lemma allowance_slack l : (allowance tol cur (transactions filters l) == qsum (slack <$> l))%Q.
Proof.
  unfold allowance, transactions. induction l as [|d l IH]; [reflexivity|]. cbn [omap list_omap fmap list_fmap qsum].
  unfold slack at 1. destruct (chosen filters d); cbn [fmap list_fmap qsum]; [by rewrite IH|rewrite <- IH; ring].
Qed.

Lemma mirrored i ds' bs' :
  mirrors i ds' bs' →
  (∀ j d, ds' !! j = Some d → ds !! (i + j) = Some d) → (∀ b, b ∈ bs' → b ∈ bs) →
  (∀ k b b' p, bs' !! k = Some b → b_variant b = BVPad p → bs' !! S k = Some b' → (in_postings cur (postings_of b') == 0)%Q) →
  (Qabs (entry_units cur (entries_selected filters bs')) <= qsum (slack <$> ds'))%Q.
Proof using Hbook Hord HL Hfil Htol Hplain.
  induction 1 as [i|i d ds' b bs' Hnp Hh Hc Hm IH|i d ds' b b' bs' [p Hp] Hh Hc Hpt Hm IH]; intros Hds Hbs Hpad; [by apply Qabs_zero|..].
  - rewrite of_directive_cons. cbn [fmap list_fmap qsum]. apply Qabs_plus_le.
    2: { apply IH; [|by intros; apply Hbs; right|].
         - intros j d' Hj. pose proof (Hds (S j) d' Hj) as E. by rewrite Nat.add_succ_r in E.
         - intros k b1 b2 p H1 H2 H3. exact (Hpad (S k) b1 b2 p H1 H2 H3). }
    clear IH Hpad. pose proof (Hds 0 d eq_refl) as Hd. rewrite Nat.add_0_r in Hd.
    unfold slack, chosen. destruct Hh as (Hi&Hdt&_). subst i.
    destruct (d_variant d) as [t| | | | | | | | | | |] eqn:Ev; inversion Hc as [t0 l E1 E2| | | | | | | | | | |]; subst;
      try (rewrite of_directive_other by congruence; by apply Qabs_zero).
    rewrite (of_directive_transaction _ _ _ _ Hfil (eq_sym E2)). cbn [bt_payee bt_narration bt_postings]. rewrite Hdt.
    destruct (forallb _ filters) eqn:Ef; [|by apply Qabs_zero].
    assert (plain t) as Hp.
    { rewrite Forall_forall in Hplain. apply Hplain. unfold transactions. apply elem_of_list_omap. exists d.
      split; [by eapply elem_of_list_lookup_2|]. unfold chosen. by rewrite Ev, Ef. }
    pose proof (transaction_within b d t ltac:(apply Hbs; by left) Hd Ev Hp) as H. unfold postings_of in H. by rewrite <- E2 in H.
  - rewrite !of_directive_cons. cbn [fmap list_fmap qsum].
    assert (slack d = 0%Q) as ->. { unfold slack, chosen. by rewrite Hp. }
    rewrite Hp in Hc. inversion Hc as [| | | | | |p0 E1 E2| | | | |]; subst p0.
    rewrite (of_directive_other filters cur b) by congruence.
    assert (of_directive filters cur b' == 0)%Q as ->.
    { destruct Hpt as (_&l&Hv). rewrite (of_directive_transaction _ _ _ _ Hfil Hv). destruct (forallb _ filters); [|reflexivity].
      pose proof (Hpad 0 b b' p eq_refl (eq_sym E2) eq_refl) as H. unfold postings_of in H. by rewrite Hv in H. }
    rewrite !Qplus_0_l. apply IH; [|by intros; apply Hbs; right; right|].
    + intros j d' Hj. pose proof (Hds (S j) d' Hj) as E. by rewrite Nat.add_succ_r in E.
    + intros k b1 b2 q H1 H2 H3. exact (Hpad (S (S k)) b1 b2 q H1 H2 H3).
Qed.

Lemma booked_within :
  (Qabs (entry_units cur (entries_selected filters bs)) <= allowance tol cur (transactions filters ds))%Q.
Proof using Hbook Hord HL Hfil Htol Hplain.
  rewrite allowance_slack. apply (mirrored 0 ds bs); [by eapply C01_output_mirrors_ledger|done|done|apply pad_cancels].
Qed.
End All.
