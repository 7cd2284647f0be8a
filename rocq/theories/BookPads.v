(** Pads and balances in ledgers which book without errors. *)
From Coq Require Import Ascii QArith Qabs Qpower.
From stdpp Require Import prelude gmap strings pretty.
From Verif Require Import DecModel DecProofs LedgerTypes BookModel BookSpec BookLib
  BookSteps BookInv BookWf BookLife BookUnits BookPend BookSuccess.
Local Open Scope nat_scope.
Local Arguments Qeq : simpl never.
Local Arguments Qplus : simpl never.
Local Arguments Qopp : simpl never.
Local Arguments dec_value : simpl never.
Local Arguments posted : simpl never.
Local Arguments corrections : simpl never.

(** ** Visibility *)

Lemma existsb_between (f : bdirective → bool) bs k n :
  existsb f (take (n - k) (drop (S k) bs)) = true ↔
  ∃ j b, k < j ∧ j <= n ∧ bs !! j = Some b ∧ f b = true.
Proof.
  rewrite existsb_exists. split.
  - intros (b & Hb & Hf). apply elem_of_list_In, elem_of_list_lookup in Hb as [i Hi].
    apply lookup_take_Some in Hi as [Hi Hlt]. rewrite lookup_drop in Hi.
    exists (S k + i), b. split_and!; try done; lia.
  - intros (j & b & Hk & Hn & Hj & Hf). exists b. split; [|done].
    apply elem_of_list_In, elem_of_list_lookup. exists (j - S k).
    apply lookup_take_Some. split; [|lia]. rewrite lookup_drop.
    by replace (S k + (j - S k)) with j by lia.
Qed.

Lemma unconsumed_spec bs n j :
  unconsumed bs n j = true ↔
  ∃ k b p, j = S k ∧ bs !! k = Some b ∧ b_variant b = BVPad p ∧
    ∀ i b', k < i → i <= n → bs !! i = Some b' → balances_on (pad_acc p) b' = false.
Proof.
  unfold unconsumed. destruct j as [|k].
  { split; [done|]. by intros (? & ? & ? & ? & _). }
  destruct (bs !! k) as [b|] eqn:Eb; cbn.
  2: { split; [done|]. intros (k' & b & p & [= <-] & Hb & _). congruence. }
  destruct (b_variant b) as [| | | | | |p| | | | | ] eqn:Ev;
    try (split; [done|]; intros (k' & b' & p' & [= <-] & Hb & Hv & _); congruence).
  rewrite negb_true_iff, <- not_true_iff_false, existsb_between. split.
  - intros H. exists k, b, p. split_and!; try done. intros i b' Hi Hn Hb'.
    apply not_true_iff_false. intros Hf. apply H. eauto 10.
  - intros (k' & b' & p' & [= <-] & Hb & Hv & H) (i & b'' & Hi & Hn & Hb'' & Hf).
    assert (p' = p) as -> by congruence. rewrite (H i b'') in Hf; done.
Qed.

Lemma unconsumed_ext bs bs' n j :
  (∀ i, i <= n → (b_variant <$> bs' !! i) = (b_variant <$> bs !! i) ∨
     ∃ x y tx ty, bs !! i = Some x ∧ bs' !! i = Some y ∧
       b_variant x = BVTransaction tx ∧ b_variant y = BVTransaction ty) →
  j <= n → unconsumed bs' n j = unconsumed bs n j.
Proof.
  intros H Hj.
  assert (∀ bs bs' : list bdirective, (∀ i, i <= n → (b_variant <$> bs' !! i) = (b_variant <$> bs !! i) ∨
     ∃ x y tx ty, bs !! i = Some x ∧ bs' !! i = Some y ∧
       b_variant x = BVTransaction tx ∧ b_variant y = BVTransaction ty) →
     unconsumed bs n j = true → unconsumed bs' n j = true) as Hone.
  { clear H bs bs'. intros bs bs' H. rewrite !unconsumed_spec.
    intros (k & b & p & -> & Hb & Hv & Hall).
    destruct (H k ltac:(lia)) as [E|(x & y & tx & ty & Hx & _ & Htx & _)]; [|congruence].
    rewrite Hb in E. destruct (bs' !! k) as [b'|] eqn:Eb'; [|done]. injection E as E.
    exists k, b', p. split_and!; [done|done|congruence|].
    intros i c Hi Hn Hc. destruct (H i Hn) as [E'|(x & y & tx & ty & Hx & Hy & Htx & Hty)].
    - rewrite Hc in E'. destruct (bs !! i) as [c'|] eqn:Ec'; [|done]. injection E' as E'.
      pose proof (Hall i c' Hi Hn Ec') as Hf. unfold balances_on in *. by rewrite E'.
    - rewrite Hy in Hc. injection Hc as <-. unfold balances_on. by rewrite Hty. }
  apply eq_true_iff_eq. split; apply Hone; [|done].
  intros i Hi. destruct (H i Hi) as [E|(x & y & tx & ty & ? & ? & ? & ?)]; [by left|].
  right. by exists y, x, ty, tx.
Qed.

Lemma visible_app bs bs' n : n < length bs → visible (bs ++ bs') n = visible bs n.
Proof.
  intros Hn. unfold visible. apply list_omap_ext. apply Forall2_same_length_lookup_2; [done|].
  intros i x y Hx Hy. rewrite Hx in Hy. injection Hy as <-.
  apply lookup_seq in Hx as [-> Hi]. cbn.
  rewrite (unconsumed_ext bs (bs ++ bs')); [|intros; left; by rewrite lookup_app_l by lia|lia].
  by rewrite lookup_app_l by lia.
Qed.

Lemma visible_insert bs n i x y tx ty :
  bs !! i = Some x → b_variant x = BVTransaction tx → b_variant y = BVTransaction ty →
  (i < n → unconsumed bs n i = true) →
  visible (<[i := y]> bs) n = visible bs n.
Proof.
  intros Hx Htx Hty Hun. unfold visible. apply list_omap_ext. apply Forall2_same_length_lookup_2; [done|].
  intros j a b Ha Hb. rewrite Ha in Hb. injection Hb as <-. apply lookup_seq in Ha as [-> Hj]. cbn.
  rewrite (unconsumed_ext bs (<[i:=y]> bs) n j); [| |lia].
  - destruct (decide (i = j)) as [<-|Hne].
    + by rewrite Hun.
    + by rewrite list_lookup_insert_ne.
  - intros m Hm. destruct (decide (i = m)) as [<-|Hne].
    + right. exists x, y, tx, ty. split_and!; try done. apply list_lookup_insert. by eapply lookup_lt_Some.
    + left. by rewrite list_lookup_insert_ne.
Qed.

Lemma take_seq_lookup {A} (l : list A) n : n <= length l → take n l = omap (λ j, l !! j) (seq 0 n).
Proof.
  induction n as [|n IH]; intros Hn; [by rewrite take_0|].
  rewrite seq_S, omap_app, <- IH by lia. cbn.
  destruct (l !! n) as [x|] eqn:E; [|apply lookup_ge_None in E; lia].
  by apply take_S_r.
Qed.

Lemma posted_visible sel bs n :
  n <= length bs →
  (∀ j b, j < n → unconsumed bs n j = true → bs !! j = Some b → postings_of b = []) →
  posted sel (visible bs n) = posted sel (take n bs).
Proof.
  intros Hn H. rewrite take_seq_lookup by done. unfold posted. f_equal. f_equal. f_equal.
  assert (∀ l, (∀ j, j ∈ l → j < n) →
    omap (λ j, if unconsumed bs n j then None else bs !! j) l ≫= postings_of =
    omap (λ j, bs !! j) l ≫= postings_of) as Hl; [|apply Hl; intros j [_ ?]%elem_of_seq; lia].
  induction l as [|j l IH]; intros Hj; [done|]. cbn.
  assert (omap (λ j : nat, if unconsumed bs n j then None else bs !! j) l ≫= postings_of =
    omap (λ j, bs !! j) l ≫= postings_of) as IH' by (apply IH; intros; apply Hj; by right).
  destruct (unconsumed bs n j) eqn:E.
  - destruct (bs !! j) as [b|] eqn:Eb; [|done]. cbn. rewrite (H j b); [done| |done|done].
    apply Hj. by left.
  - destruct (bs !! j) as [b|] eqn:Eb; [|done]. cbn. by f_equal.
Qed.

Lemma fills_app bs bs' k j p m bal : fills bs k j p m bal → fills (bs ++ bs') k j p m bal.
Proof.
  intros (Hlt & Ha & (b1 & Hb1 & Hv1) & (b2 & bb & Hb2 & Hv2 & Hr) & Hno & (b3 & Hb3 & Hv3)).
  split_and!; try done.
  - exists b1. split; [by apply lookup_app_l_Some|done].
  - exists b2, bb. split; [by apply lookup_app_l_Some|done].
  - intros n b Hn1 Hn2 Hb. eapply Hno; [done|done|]. rewrite lookup_app_l in Hb; [done|].
    apply lookup_lt_Some in Hb2. lia.
  - exists b3. split; [by apply lookup_app_l_Some|done].
Qed.

Section Pads.
Context {P : Type} (L : booking_lib P).
Context (ord : gmap string (account P) → list (string * account P)).
Notation run := (run L ord).

(** Pads are pending or filled. *)
Definition pad_waits (c : cst (P:=P)) (k : nat) (p : pad) : Prop :=
  ∃ x u, s_accounts (c_acc c) !! pad_acc p = Some x ∧ a_pad x = Some (k, u) ∧
    ∀ j b, k < j → c_booked c !! j = Some b → balances_on (pad_acc p) b = false.

Definition pads_inv (c : cst (P:=P)) : Prop :=
  c_errors c = [] → ∀ k b p, c_booked c !! k = Some b → b_variant b = BVPad p →
    pad_waits c k p ∨ ∃ j m bal, fills (c_booked c) k j p m bal.

Definition pads_inv' (c : cst (P:=P)) : Prop :=
  ∀ k b p, c_booked c !! k = Some b → b_variant b = BVPad p →
    pad_waits c k p ∨ ∃ j m bal, fills (c_booked c) k j p m bal.

Lemma pads_keep (c : cst (P:=P)) s' errs bs :
  pads_inv' c →
  (∀ a x, s_accounts (c_acc c) !! a = Some x → a_pad x ≠ None →
     ∃ y, s_accounts s' !! a = Some y ∧ a_pad y = a_pad x) →
  (∀ b p, b ∈ bs → b_variant b ≠ BVPad p) →
  (∀ b a x, b ∈ bs → s_accounts (c_acc c) !! a = Some x → a_pad x ≠ None → balances_on a b = false) →
  pads_inv' (CSt s' errs (c_booked c ++ bs)).
Proof.
  intros Hi Hs Hnp Hnb k b p Hk Hv. cbn in *. apply lookup_app_Some in Hk as [Hk|[_ Hk]].
  - destruct (Hi k b p Hk Hv) as [(x & u & Hx & Hp & Hno)|(j & m & bal & Hf)].
    + left. destruct (Hs _ _ Hx) as (y & Hy & Hpy); [congruence|]. exists y, u. cbn.
      split_and!; [done|congruence|]. intros j b' Hj Hb'.
      apply lookup_app_Some in Hb' as [Hb'|[_ Hb']]; [by eapply Hno|].
      apply elem_of_list_lookup_2 in Hb'. eapply Hnb; [done|done|congruence].
    + right. exists j, m, bal. by apply fills_app.
  - apply elem_of_list_lookup_2 in Hk. by apply Hnp in Hv.
Qed.

Lemma balances_on_spec a b : balances_on a b = true ↔ is_balance_of a b.
Proof.
  unfold balances_on, is_balance_of. destruct (b_variant b); try (split; [done|by intros (? & ? & _)]).
  rewrite String.eqb_eq. split; [eauto|]. by intros (? & [= <-] & ?).
Qed.

Lemma fills_insert bs i x y tx ty k j p m bal :
  bs !! i = Some x → b_variant x = BVTransaction tx → b_variant y = BVTransaction ty →
  S k ≠ i → fills bs k j p m bal → fills (<[i := y]> bs) k j p m bal.
Proof.
  intros Hi Htx Hty Hne (Hlt & Ha & (b1 & Hb1 & Hv1) & (b2 & bb & Hb2 & Hv2 & Hr) & Hno & (b3 & Hb3 & Hv3)).
  split_and!; try done.
  - exists b1. split; [|done]. rewrite list_lookup_insert_ne; [done|]. intros ->. congruence.
  - exists b2, bb. split; [|done]. rewrite list_lookup_insert_ne; [done|]. intros ->. congruence.
  - intros n b Hn1 Hn2 Hb. apply list_lookup_insert_Some in Hb as [(<- & <- & _)|[_ Hb]].
    + unfold balances_on. by rewrite Hty.
    + by eapply Hno.
  - exists b3. split; [|done]. by rewrite list_lookup_insert_ne.
Qed.

Lemma fills_insert_inv bs i x y tx ty k j p m bal :
  bs !! i = Some x → b_variant x = BVTransaction tx → b_variant y = BVTransaction ty →
  S k ≠ i → fills (<[i := y]> bs) k j p m bal → fills bs k j p m bal.
Proof.
  intros Hi Htx Hty Hne Hf.
  assert (bs = <[i := x]> (<[i := y]> bs)) as ->.
  { rewrite list_insert_insert. symmetry. by apply list_insert_id. }
  eapply (fills_insert _ i y x ty tx); try done. apply list_lookup_insert. by eapply lookup_lt_Some.
Qed.

Lemma fills_app_inv bs bs' k j p m bal : j < length bs → fills (bs ++ bs') k j p m bal → fills bs k j p m bal.
Proof.
  intros Hj (Hlt & Ha & (b1 & Hb1 & Hv1) & (b2 & bb & Hb2 & Hv2 & Hr) & Hno & (b3 & Hb3 & Hv3)).
  rewrite lookup_app_l in Hb1, Hb2, Hb3 by lia.
  split; [done|]. split; [done|]. split; [by exists b1|]. split; [by exists b2, bb|].
  split; [|by exists b3].
  intros n b Hn1 Hn2 Hb. eapply Hno; [done|done|]. by rewrite lookup_app_l by lia.
Qed.

Lemma pads_put_keep (s : accst P) n x y a z :
  s_accounts s !! n = Some x → (a_pad x ≠ None → a_pad y = a_pad x) →
  s_accounts s !! a = Some z → a_pad z ≠ None →
  ∃ y', <[n := y]> (s_accounts s) !! a = Some y' ∧ a_pad y' = a_pad z.
Proof.
  intros Hx Hy Hz Hne. destruct (decide (n = a)) as [->|Hna].
  - rewrite lookup_insert. exists y. split; [done|]. rewrite Hx in Hz. injection Hz as <-. by apply Hy.
  - rewrite lookup_insert_ne by done. eauto.
Qed.

Lemma pads_run opt ds c : run opt ds = CRun c → pads_inv c.
Proof.
  revert ds c. apply (run_ind L ord opt (λ ds c, pads_inv c)).
  { intros _ k b p Hk. done. }
  intros ds d c c' Hrun IH Hstep He. apply collect_step_rel in Hstep.
  pose proof (step_errors_prefix _ _ _ _ _ _ Hstep) as Hpre. rewrite He in Hpre. apply prefix_nil_inv in Hpre.
  specialize (IH Hpre). change (pads_inv' c) in IH. change (pads_inv' c').
  pose proof (wf_run _ _ _ _ _ Hrun) as Hwf.
  assert (∀ a x, s_accounts (c_acc c) !! a = Some x → a_pad x ≠ None →
     ∃ y, s_accounts (c_acc c) !! a = Some y ∧ a_pad y = a_pad x) as Hrefl by eauto.
  destruct Hstep as [v Hv|t s' l Hv Hb|t s' err Hv Hb|o j Hv Ho|o j Hv Ho Hc|o s' bk ws Hv Ho Hc Hbk Hs'
    |a j Hv Ho Hc|a j k Hv Ho Hc|a Hv Ho|p err Hv Hva|p a k u Hv Hva Ha Hp|p a Hv Hva Ha Hp
    |b err Hv Hva|b a err Hv Hva Ha Hvc|b a Hv Hva Ha Hvc Hm|b a m s' rep Hv Hva Ha Hvc Hm Hp Hs' Hrep
    |b a m k u padd p txnd txn pa s' Hv Hva Ha Hvc Hm Hp Hk Hkv Hk1 Hk1v Hs' Hpa];
    cbn in He; try (by apply snoc_not_nil in He).
  - apply pads_keep; [done|done| |].
    + intros b p ->%elem_of_list_singleton. cbn. intros ->. by destruct (d_variant d).
    + intros b a x ->%elem_of_list_singleton _ _. unfold balances_on. cbn. destruct (d_variant d); inversion Hv; done.
  - apply pads_keep; [done| | |].
    + apply book_txn_only in Hb as (_ & _ & _ & _ & Hall). intros a x Hx _. specialize (Hall a). rewrite Hx in Hall.
      destruct (s_accounts s' !! a) as [y|]; [|done]. destruct Hall as [q ->]. eauto.
    + by intros b p ->%elem_of_list_singleton.
    + by intros b a x ->%elem_of_list_singleton.
  - subst s'. apply pads_keep; [done| | |].
    + intros a x Hx Hne. cbn. destruct (decide (op_acc o = a)) as [<-|]; [|rewrite lookup_insert_ne by done; eauto].
      assert (is_Some (s_accounts (c_acc c) !! op_acc o)) as Hs by eauto.
      apply (wf_dom _ _ Hwf) in Hs as [[? ?]|[? ?]]; congruence.
    + by intros b p ->%elem_of_list_singleton.
    + by intros b a x ->%elem_of_list_singleton.
  - apply pads_keep; [done|done| |].
    + by intros b p ->%elem_of_list_singleton.
    + by intros b a' x ->%elem_of_list_singleton.
  - intros k b p' Hk Hbv. cbn in Hk. apply lookup_app_Some in Hk as [Hk|[Hlen Hk]].
    + destruct (IH k b p' Hk Hbv) as [(x & u & Hx & Hpx & Hno)|(j & m & bal & Hf)].
      * left. exists x, u. cbn. rewrite lookup_insert_ne by congruence. split_and!; [done|done|].
        intros j b' Hj Hb'. apply lookup_app_Some in Hb' as [Hb'|[_ Hb']]; [by eapply Hno|].
        apply elem_of_list_lookup_2 in Hb'. apply elem_of_cons in Hb' as [->|Hb']; [done|].
        by apply elem_of_list_singleton in Hb' as ->.
      * right. exists j, m, bal. by apply fills_app.
    + left. destruct (k - length (c_booked c)) as [|[|n]] eqn:En; cbn in Hk; [|by injection Hk as <-|done].
      injection Hk as <-. cbn in Hbv. injection Hbv as <-.
      assert (k = length (c_booked c)) as -> by lia.
      eexists _, _. cbn. rewrite lookup_insert. split_and!; [done|done|].
      intros j b' Hj Hb'. rewrite lookup_app_r in Hb' by lia.
      destruct (j - length (c_booked c)) as [|[|n]] eqn:Ej; cbn in Hb'; [lia|by injection Hb' as <-|done].
  - destruct (a_pad a) as [[k u]|] eqn:Hp; [by apply snoc_not_nil in He|]. apply pads_keep; [done| | |].
    + intros a' z Hz Hne. cbn. eapply pads_put_keep; [done| |done|done]. by rewrite Hp.
    + by intros b' p ->%elem_of_list_singleton.
    + intros b' a' x ->%elem_of_list_singleton Hx Hne. unfold balances_on. cbn.
      apply String.eqb_neq. intros Heq. subst a'. congruence.
  - pose proof (wf_account _ _ Hwf _ _ Ha) as (_ & Hpad & _).
    apply Hpad in Hp as Hpp. destruct Hpp as (i & d' & p' & -> & Hd' & Hv' & Hpa' & Hbk & Htx).
    rewrite Hk1 in Htx. injection Htx as ->. cbn in Hk1v. injection Hk1v as <-.
    rewrite Hk in Hbk. injection Hbk as ->. cbn in Hkv. injection Hkv as ->.
    destruct (IH _ _ _ Hk eq_refl) as [(x & u & Hx & Hpx & Hno)|(j & mm & bal & Hf)].
    2: { exfalso. destruct Hf as (_ & _ & _ & _ & _ & b3 & Hb3 & Hv3). rewrite Hk1 in Hb3. injection Hb3 as <-. done. }
    rewrite Hpa' in Hx. rewrite Ha in Hx. injection Hx as <-. rewrite Hp in Hpx. injection Hpx as <-.
    intros k' b' q Hk' Hbv'. cbn in Hk'.
    set (y := set_variant (booked_of i d' (BVTransaction (BTransaction PAD_FLAG None None []))) _) in *.
    assert (length (<[S k := y]> (c_booked c)) = length (c_booked c)) as Hlen by apply insert_length.
    assert (S k < length (c_booked c)) as HltS by (by eapply lookup_lt_Some).
    destruct (decide (k' = k)) as [->|Hne].
    + right. exists (length (c_booked c)), m, b.
      assert ((<[S k := y]> (c_booked c)) !! k = Some (booked_of i d' (BVPad p))) as Hkk by (by rewrite list_lookup_insert_ne by lia).
      rewrite lookup_app_l in Hk' by (rewrite Hlen; lia). rewrite Hkk in Hk'. injection Hk' as <-.
      cbn in Hbv'. injection Hbv' as <-.
      split; [lia|]. split; [done|]. cbn [c_booked].
      split; [eexists; split; [apply lookup_app_l_Some, Hkk|done]|].
      split. { exists (booked_of (length ds) d (BVBalance (BBalance b None None))), (BBalance b None None).
        split; [|done]. cbn [c_booked]. rewrite lookup_app_r by lia. rewrite Hlen, Nat.sub_diag. done. }
      split. { intros n b' Hn1 Hn2 Hb'. rewrite lookup_app_l in Hb' by lia.
        apply list_lookup_insert_Some in Hb' as [(<- & <- & _)|[_ Hb']]; [done|]. by eapply Hno. }
      exists y. split; [apply lookup_app_l_Some, list_lookup_insert; lia|]. rewrite Hpa'. done.
    + apply lookup_app_Some in Hk' as [Hk'|[_ Hk']].
      2:{ apply elem_of_list_lookup_2, elem_of_list_singleton in Hk'. by rewrite Hk' in Hbv'. }
      apply list_lookup_insert_Some in Hk' as [(<- & <- & _)|[Hnk Hk']]; [done|].
      destruct (IH _ _ _ Hk' Hbv') as [(x & u & Hx & Hpx & Hno')|(j & mm & bal & Hf)].
      * left.
        assert (pad_acc q ≠ bal_acc b) as Hnq.
        { intros Hq. rewrite Hq, Ha in Hx. injection Hx as <-. congruence. }
        assert (s_accounts s' !! pad_acc q = Some x) as Hx' by (subst s'; cbn; by rewrite lookup_insert_ne).
        destruct (pads_put_keep s' (pad_source p) pa
          (adjust_account_to_match_balance L pa (bal_cur b) m AdjSubtract) (pad_acc q) x Hpa (λ _, eq_refl) Hx') as (y' & Hy' & Hpy'); [congruence|].
        exists y', u. cbn. split_and!; [done|congruence|].
        intros j bj Hj Hbj. apply lookup_app_Some in Hbj as [Hbj|[_ Hbj]].
        -- apply list_lookup_insert_Some in Hbj as [(<- & <- & _)|[_ Hbj]]; [done|]. by eapply Hno'.
        -- apply elem_of_list_lookup_2, elem_of_list_singleton in Hbj as ->. unfold balances_on. cbn.
           apply String.eqb_neq. congruence.
      * right. exists j, mm, bal. apply fills_app. eapply fills_insert; try done. congruence.
Qed.

(** On success every pad is filled. *)
Context (Hord : ∀ m, ord m ≡ₚ map_to_list m).

Lemma no_unused_pads (s : accst P) a x :
  unused_pad_reports ord (s_accounts s) = [] → s_accounts s !! a = Some x → a_pad x = None.
Proof.
  intros Hu Hx. destruct (a_pad x) as [[k u]|] eqn:Hp; [|done]. exfalso.
  apply elem_of_map_to_list in Hx. rewrite <- Hord in Hx.
  assert (mk_report u "unused, no balance directive" ∈ unused_pad_reports ord (s_accounts s)) as Hin.
  { unfold unused_pad_reports. apply elem_of_list_omap. exists (a, x). split; [done|]. cbn. by rewrite Hp. }
  rewrite Hu in Hin. by apply elem_of_nil in Hin.
Qed.

Lemma success_pads_filled opt ds bs ws k b p :
  book L ord opt ds = BookSuccess bs ws → bs !! k = Some b → b_variant b = BVPad p →
  ∃ j m bal, fills bs k j p m bal.
Proof.
  intros Hb Hk Hv. apply book_success_run in Hb as (c & Hrun & He & <- & _ & Hu).
  destruct (pads_run _ _ _ Hrun He k b p Hk Hv) as [(x & u & Hx & Hp & _)|Hf]; [|done].
  rewrite (no_unused_pads _ _ _ Hu Hx) in Hp. done.
Qed.

(** ** Balances *)

Context (Hlib : lib_ok L).

Lemma margin_none units tol tot :
  calculate_balance_margin units tol tot = None ↔ (Qabs (dec_value units - dec_value tot) <= dec_value tol)%Q.
Proof.
  unfold calculate_balance_margin. destruct (dec_gtb _ _) eqn:E.
  - split; [done|]. intros H. exfalso. apply dec_gtb_value in E. rewrite dec_abs_value, dec_sub_value in E.
    by apply Qlt_not_le in E.
  - apply dec_gtb_value_false in E. rewrite dec_abs_value, dec_sub_value in E. done.
Qed.

Lemma margin_some units tol tot m :
  calculate_balance_margin units tol tot = Some m →
  m = dec_sub units tot ∧ (dec_value tol < Qabs (dec_value units - dec_value tot))%Q.
Proof.
  unfold calculate_balance_margin. destruct (dec_gtb _ _) eqn:E; [|done]. intros [= <-].
  apply dec_gtb_value in E. rewrite dec_abs_value, dec_sub_value in E. done.
Qed.

Lemma pow10_tenth n : (1 # pow10 n == (1 # 10) ^ Z.of_nat n)%Q.
Proof.
  induction n as [|n IH]; [done|]. rewrite Nat2Z.inj_succ. unfold Z.succ. rewrite Qpower_plus by done.
  rewrite <- IH. cbn [pow10]. unfold Qeq, Qmult, Qpower, Qpower_positive. cbn. lia.
Qed.

Lemma effective_tolerance_value b :
  (dec_value (effective_tolerance L b) == balance_tolerance (lib_multiplier L) b)%Q.
Proof.
  unfold effective_tolerance, balance_tolerance. destruct (bal_tolerance b) as [t|]; [done|].
  destruct (dec_scale (bal_units b)) as [|n] eqn:E; [done|].
  change (Nat.ltb 0 (S n)) with true. cbn iota. rewrite !dec_mul_value.
  change (dec_value (dec_new 1 (S n))) with (1 # pow10 (S n)).
  rewrite (pow10_tenth (S n)). change (dec_value dec_two) with (2 # 1).
  destruct (lib_multiplier L) as [m|]; [|change (dec_value (dec_new 5 1)) with (5 # 10)].
  - ring.
  - setoid_replace (5 # 10)%Q with (1 # 2)%Q by done. ring.
Qed.

Lemma corrections_none base cur bs :
  (∀ b r u m, b ∈ bs → b_variant b ≠ BVBalance (BBalance r u (Some m))) →
  corrections base cur bs = 0%Q.
Proof.
  intros H. unfold corrections.
  assert (omap (λ b, match b_variant b with
                   | BVBalance (BBalance r _ (Some m)) =>
                       if under base (bal_acc r) && String.eqb (bal_cur r) cur
                       then Some (dec_value m) else None
                   | _ => None
                   end) bs = []) as ->; [|done].
  induction bs as [|b bs IH]; [done|]. cbn. rewrite IH by (intros; apply H; by right).
  destruct (b_variant b) as [| |[r u [m|]]| | | | | | | | | ] eqn:E; try done.
  exfalso. eapply H; [by left|done].
Qed.

Lemma success_no_margin opt ds c :
  run opt ds = CRun c → c_errors c = [] →
  ∀ b r u m, b ∈ c_booked c → b_variant b ≠ BVBalance (BBalance r u (Some m)).
Proof.
  revert ds c. apply (run_ind L ord opt (λ ds c, c_errors c = [] →
    ∀ b r u m, b ∈ c_booked c → b_variant b ≠ BVBalance (BBalance r u (Some m)))).
  { intros _ b r u m ?%elem_of_nil. done. }
  intros ds d c c' Hrun IH Hstep He. apply collect_step_rel in Hstep.
  pose proof (step_errors_prefix _ _ _ _ _ _ Hstep) as Hpre. rewrite He in Hpre. apply prefix_nil_inv in Hpre.
  specialize (IH Hpre).
  intros b0 r u0 m0 Hin.
  destruct Hstep as [v Hv|t s' l Hv Hb|t s' err Hv Hb|o j Hv Ho|o j Hv Ho Hc|o s' bk ws Hv Ho Hc Hbk Hs'
    |a j Hv Ho Hc|a j k Hv Ho Hc|a Hv Ho|p err Hv Hva|p a k u Hv Hva Ha Hp|p a Hv Hva Ha Hp
    |b err Hv Hva|b a err Hv Hva Ha Hvc|b a Hv Hva Ha Hvc Hm|b a m s' rep Hv Hva Ha Hvc Hm Hp Hs' Hrep
    |b a m k u padd p txnd txn pa s' Hv Hva Ha Hvc Hm Hp Hk Hkv Hk1 Hk1v Hs' Hpa];
    cbn in He; try (by apply snoc_not_nil in He); cbn in Hin; apply elem_of_app in Hin as [Hin|Hin];
    try (by eapply IH); try (apply elem_of_list_singleton in Hin as ->; done).
  - apply elem_of_list_singleton in Hin as ->. cbn. intros ->. by destruct (d_variant d).
  - apply elem_of_cons in Hin as [->|Hin]; [done|]. by apply elem_of_list_singleton in Hin as ->.
  - apply elem_of_list_lookup in Hin as [j Hj].
    apply list_lookup_insert_Some in Hj as [(<- & <- & _)|[_ Hj]]; [done|].
    eapply IH. by eapply elem_of_list_lookup_2.
Qed.

(** What holds at a balance at position [n]. *)
Definition holds_at (bs : list bdirective) (n : nat) (bal : balance) : Prop :=
  let total := posted (in_subtree (bal_acc bal) (bal_cur bal)) (visible bs n) in
  let diff := (dec_value (bal_units bal) - total)%Q in
  let tol := balance_tolerance (lib_multiplier L) bal in
  ((∀ k p m, ¬ fills bs k n p m bal) ∧ Qabs diff <= tol)%Q ∨
  ∃ k p m, fills bs k n p m bal ∧
    if under (bal_acc bal) (pad_source p) then (dec_value m == diff ∧ tol < Qabs diff)%Q
    else (total == dec_value (bal_units bal))%Q.

Definition balances_inv (c : cst (P:=P)) : Prop :=
  c_errors c = [] → ∀ n b bb, c_booked c !! n = Some b → b_variant b = BVBalance bb →
    holds_at (c_booked c) n (bb_raw bb).

Lemma holds_at_ext bs bs' n bal :
  visible bs' n = visible bs n → (∀ k p m, fills bs' k n p m bal ↔ fills bs k n p m bal) →
  holds_at bs n bal → holds_at bs' n bal.
Proof.
  unfold holds_at. intros -> Hf [[Hn Hd]|(k & p & m & Hk & Hd)].
  - left. split; [|done]. intros k p m Hk. apply Hf in Hk. by apply Hn in Hk.
  - right. exists k, p, m. split; [by apply Hf|done].
Qed.

Lemma holds_at_app bs bs' n bal : n < length bs → holds_at bs n bal → holds_at (bs ++ bs') n bal.
Proof.
  intros Hn. apply holds_at_ext; [by apply visible_app|]. intros. split; [by apply fills_app_inv|apply fills_app].
Qed.

(** After a step, what is visible at the end is everything. *)
Lemma visible_last opt ds c n b bb sel :
  run opt ds = CRun c → c_errors c = [] → c_booked c !! n = Some b → S n = length (c_booked c) →
  b_variant b = BVBalance bb →
  posted sel (visible (c_booked c) n) = posted sel (take n (c_booked c)).
Proof.
  intros Hrun He Hn Hlen Hv. apply posted_visible; [lia|].
  intros j b' Hj Hun Hb'. apply unconsumed_spec in Hun as (k & bk & p & -> & Hk & Hkv & Hno).
  destruct (pads_run _ _ _ Hrun He _ _ _ Hk Hkv) as [(x & u & Hx & Hp & _)|(j & m & bal & Hf)].
  - destruct (wf_account _ _ (wf_run _ _ _ _ _ Hrun) _ _ Hx) as (_ & Hpad & _).
    apply Hpad in Hp as (i & d' & p' & _ & _ & _ & _ & _ & Htx). rewrite Hb' in Htx. injection Htx as ->. done.
  - exfalso. destruct Hf as (Hlt & Hacc & _ & (b2 & bb2 & Hb2 & Hv2 & Hr2) & _).
    assert (j <= n) by (apply lookup_lt_Some in Hb2; lia).
    pose proof (Hno j b2 Hlt H Hb2) as Hf. unfold balances_on in Hf. rewrite Hv2, Hr2, Hacc, String.eqb_refl in Hf. done.
Qed.

Lemma balances_run opt ds c : run opt ds = CRun c → balances_inv c.
Proof.
  revert ds c. apply (run_ind L ord opt (λ ds c, balances_inv c)).
  { intros _ n b bb Hn. done. }
  intros ds d c c' Hrun IH Hcs He.
  assert (run opt (ds ++ [d]) = CRun c') as Hrun' by (rewrite run_snoc, Hrun; done).
  apply collect_step_rel in Hcs as Hstep.
  pose proof (step_errors_prefix _ _ _ _ _ _ Hstep) as Hpre. rewrite He in Hpre. apply prefix_nil_inv in Hpre.
  specialize (IH Hpre).
  pose proof (wf_run _ _ _ _ _ Hrun) as Hwf.
  pose proof (λ n b bb sel, visible_last opt (ds ++ [d]) c' n b bb sel Hrun' He) as Hvl.
  assert (∀ bs, (∀ b bb, b ∈ bs → b_variant b ≠ BVBalance bb) →
    ∀ n b bb, (c_booked c ++ bs) !! n = Some b → b_variant b = BVBalance bb →
    holds_at (c_booked c ++ bs) n (bb_raw bb)) as Happ.
  { intros bs Hnb n b bb Hn Hv. apply lookup_app_Some in Hn as [Hn|[_ Hn]].
    - apply holds_at_app; [by eapply lookup_lt_Some|]. by eapply IH.
    - apply elem_of_list_lookup_2 in Hn. by apply Hnb in Hv. }
  pose proof (λ base cur, rollup_run L ord Hord Hlib _ _ _ base cur Hrun) as Hroll.
  assert (∀ base cur, corrections base cur (c_booked c) = 0%Q) as Hcor
    by (intros; apply corrections_none; by eapply success_no_margin).
  pose proof (pads_run _ _ _ Hrun Hpre) as Hpads. 
  destruct Hstep as [v Hv|t s' l Hv Hb|t s' err Hv Hb|o j Hv Ho|o j Hv Ho Hc|o s' bk ws Hv Ho Hc Hbk Hs'
    |a j Hv Ho Hc|a j k Hv Ho Hc|a Hv Ho|p err Hv Hva|p a k u Hv Hva Ha Hp|p a Hv Hva Ha Hp
    |b err Hv Hva|b a err Hv Hva Ha Hvc|b a Hv Hva Ha Hvc Hm|b a m s' rep Hv Hva Ha Hvc Hm Hp Hs' Hrep
    |b a m k u padd p txnd txn pa s' Hv Hva Ha Hvc Hm Hp Hk Hkv Hk1 Hk1v Hs' Hpa];
    cbn in He; try (by apply snoc_not_nil in He); cbn [c_booked] in *;
    try (apply Happ; by intros b0 bb0 ->%elem_of_list_singleton).
  - apply Happ. intros b bb ->%elem_of_list_singleton. cbn. intros ->. by destruct (d_variant d).
  - apply Happ. intros b bb [->|Hin]%elem_of_cons; [done|]. by apply elem_of_list_singleton in Hin as ->.
  - destruct (a_pad a) as [[k u]|] eqn:Hp; [by apply snoc_not_nil in He|].
    intros n b' bb Hn Hbv. apply lookup_app_Some in Hn as Hn'. destruct Hn' as [Hn'|[Hle Hn']].
    { apply holds_at_app; [by eapply lookup_lt_Some|]. by eapply IH. }
    assert (n = length (c_booked c)) as Heq.
    { apply lookup_lt_Some in Hn'. cbn in Hn'. lia. }
    rewrite Heq, Nat.sub_diag in Hn'. cbn in Hn'. injection Hn' as <-. cbn in Hbv. injection Hbv as <-. cbn [bb_raw].
    unfold holds_at. cbn zeta. left.
    rewrite (Hvl n _ (BBalance b None None) _ Hn); [|rewrite app_length, Heq; cbn; lia|done].
    rewrite Heq, take_app. split.
    + intros k p m (Hlt & Hacc & (b1 & Hb1 & Hv1) & _ & Hno & _).
      rewrite lookup_app_l in Hb1 by lia.
      destruct (Hpads _ _ _ Hb1 Hv1) as [(x & u & Hx & Hpx & _)|(j & m' & bal & Hf)].
      * rewrite <- Hacc, Ha in Hx. congruence.
      * destruct Hf as (Hlt' & Hacc' & _ & (b2 & bb2 & Hb2 & Hv2 & Hr2) & _).
        assert (j < length (c_booked c)) as Hj by (by eapply lookup_lt_Some).
        pose proof (Hno j b2 Hlt' Hj ltac:(by rewrite lookup_app_l)) as Hf.
        unfold balances_on in Hf. rewrite Hv2, Hr2, Hacc', String.eqb_refl in Hf. done.
    + unfold bal_margin in Hm. apply margin_none in Hm.
      rewrite effective_tolerance_value, Hroll, Hcor, Qplus_0_r in Hm. done.
  - pose proof (wf_account _ _ Hwf _ _ Ha) as (_ & Hpad & _).
    apply Hpad in Hp as Hpp. destruct Hpp as (i & d' & p' & -> & Hd' & Hv' & Hpa' & Hbk & Htx).
    rewrite Hk1 in Htx. injection Htx as ->. cbn in Hk1v. injection Hk1v as <-.
    rewrite Hk in Hbk. injection Hbk as ->. cbn in Hkv. injection Hkv as ->.
    destruct (Hpads _ _ _ Hk eq_refl) as [(x & u & Hx & Hpx & Hno)|(j & mm & bal & Hf)].
    2: { exfalso. destruct Hf as (_ & _ & _ & _ & _ & b3 & Hb3 & Hv3). rewrite Hk1 in Hb3. injection Hb3 as <-. done. }
    set (x0 := booked_of i d' (BVTransaction (BTransaction PAD_FLAG None None []))) in *.
    set (ty := set_postings _ _) in *.
    set (y := set_variant x0 (BVTransaction ty)) in *.
    assert (length (<[S k := y]> (c_booked c)) = length (c_booked c)) as Hlen by apply insert_length.
    assert (S k < length (c_booked c)) as HltS by (by eapply lookup_lt_Some).
    intros n b' bb Hn Hbv. apply lookup_app_Some in Hn as Hn'. destruct Hn' as [Hn'|[Hle Hn']].
    + assert (n < length (c_booked c)) as Hnl by (apply lookup_lt_Some in Hn'; lia).
      apply holds_at_app; [lia|].
      apply list_lookup_insert_Some in Hn' as [(<- & <- & _)|[Hne Hn']]; [done|].
      eapply holds_at_ext; [| |by eapply IH].
      * eapply visible_insert; [done|done|done|]. intros Hlt. apply unconsumed_spec.
        eexists _, _, _. split_and!; [done|done|done|]. intros i' bi Hi Hin Hbi. by eapply Hno.
      * assert (∀ bs' p0 m0, (bs' = c_booked c ∨ bs' = <[S k := y]> (c_booked c)) →
          ¬ fills bs' k n p0 m0 (bb_raw bb)) as Hnk.
        { intros bs' p0 m0 Hbs' (Hlt & Hacc & (b1 & Hb1 & Hv1) & _).
          assert (p0 = p) as ->.
          { destruct Hbs' as [-> | ->].
            - rewrite Hk in Hb1. injection Hb1 as <-. by injection Hv1.
            - rewrite list_lookup_insert_ne in Hb1 by lia. rewrite Hk in Hb1. injection Hb1 as <-. by injection Hv1. }
          pose proof (Hno n b' Hlt Hn') as Hf. unfold balances_on in Hf. rewrite Hbv, Hacc, String.eqb_refl in Hf. done. }
        intros k' p0 m0. destruct (decide (k' = k)) as [->|Hnk'].
        -- split; intros Hf; exfalso; revert Hf; apply Hnk; [by right|by left].
        -- split; [eapply (fills_insert_inv _ _ x0 y)|eapply (fills_insert _ _ x0 y)]; try done; lia.
    + assert (n = length (c_booked c)) as Heq.
      { apply lookup_lt_Some in Hn'. cbn in Hn'. lia. }
      rewrite Hlen, Heq, Nat.sub_diag in Hn'. cbn in Hn'. injection Hn' as <-. cbn in Hbv. injection Hbv as <-. cbn [bb_raw].
      assert (∀ base cur, posted (in_subtree base cur) (<[S k := y]> (c_booked c)) ==
        posted (in_subtree base cur) (c_booked c) + posted (in_subtree base cur) [y])%Q as Hins.
      { intros base cur. rewrite <- (take_drop_middle _ _ _ Hk1) at 2.
        rewrite insert_take_drop by done.
        change (y :: drop (S (S k)) (c_booked c)) with ([y] ++ drop (S (S k)) (c_booked c)).
        change (x0 :: drop (S (S k)) (c_booked c)) with ([x0] ++ drop (S (S k)) (c_booked c)).
        rewrite !posted_app. assert (posted (in_subtree base cur) [x0] = 0%Q) as -> by done. ring. }
      unfold holds_at. cbn zeta. right. exists k, p, m. unfold bal_margin in Hm. apply margin_some in Hm as [Hmeq Hm].
      assert (dec_value m == dec_value (bal_units b) - posted (in_subtree (bal_acc b) (bal_cur b)) (c_booked c))%Q as Hmv.
      { rewrite Hmeq, dec_sub_value, Hroll, Hcor, Qplus_0_r. done. }
      rewrite effective_tolerance_value, Hroll, Hcor, Qplus_0_r in Hm.
      assert (posted (in_subtree (bal_acc b) (bal_cur b)) [y] ==
        dec_value m + if under (bal_acc b) (pad_source p) then - dec_value m else 0)%Q as Hy.
      { unfold posted. rewrite Qsum_filter. unfold y, ty. cbn. unfold in_subtree. cbn.
        assert (under (bal_acc b) (bal_acc b) = true) as -> by (unfold under; by rewrite String.eqb_refl).
        rewrite String.eqb_refl, andb_true_r. cbn. destruct (under (bal_acc b) (pad_source p)); cbn;
          rewrite ?dec_neg_value; ring. }
      rewrite (Hvl n _ (BBalance b None None) _ Hn); [|rewrite app_length, Hlen, Heq; cbn; lia|done].
      rewrite Heq, (take_app_alt _ _ _ (eq_sym Hlen)). rewrite Heq in Hn. split.
      * split; [lia|]. split; [done|].
        split. { eexists. split; [apply lookup_app_l_Some; by rewrite list_lookup_insert_ne by lia|done]. }
        split. { eexists _, _. split; [exact Hn|done]. }
        split. { intros n' b' Hn1 Hn2 Hb'. rewrite lookup_app_l in Hb' by lia.
          apply list_lookup_insert_Some in Hb' as [(<- & <- & _)|[_ Hb']]; [done|]. by eapply Hno. }
        exists y. split; [apply lookup_app_l_Some, list_lookup_insert; lia|]. rewrite Hpa'. done.
      * destruct (under (bal_acc b) (pad_source p)).
        -- rewrite Hins, Hy.
           setoid_replace (posted (in_subtree (bal_acc b) (bal_cur b)) (c_booked c) + (dec_value m + - dec_value m))%Q
             with (posted (in_subtree (bal_acc b) (bal_cur b)) (c_booked c)) by ring. done.
        -- rewrite Hins, Hy, Hmv. ring.
Qed.

End Pads.
