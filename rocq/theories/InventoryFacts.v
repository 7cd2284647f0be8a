(** Proofs about inventories and journals. *)
From Coq Require Import Ascii QArith Sorted.
From stdpp Require Import prelude gmap strings.
From Verif Require Import DecModel LedgerTypes CljModel InventoryModel InventorySpec DecProofs OrderFacts.
Local Open Scope nat_scope.

(** ** Sums *)
Lemma qsum_app a b : (qsum (a ++ b) == qsum a + qsum b)%Q.
Proof. induction a as [|x a IH]; cbn; [ring|]. rewrite IH. ring. Qed.
Lemma qsum_perm a b : a ≡ₚ b → (qsum a == qsum b)%Q.
Proof. induction 1; cbn; [reflexivity|by rewrite IHPermutation|ring|by rewrite IHPermutation1]. Qed.

Definition pv (p : position) : Q := cn_value (pos_units p).
Definition psum (l : list position) : Q := qsum (pv <$> l).
Lemma psum_app a b : (psum (a ++ b) == psum a + psum b)%Q.
Proof. unfold psum. rewrite fmap_app. apply qsum_app. Qed.
Lemma psum_perm a b : a ≡ₚ b → (psum a == psum b)%Q.
Proof. intros H. apply qsum_perm. by rewrite H. Qed.
Lemma psum_cons p l : (psum (p :: l) == pv p + psum l)%Q.
Proof. reflexivity. Qed.

Lemma cn_add_value a b c : cn_add a b = Some c → (cn_value c == cn_value a + cn_value b)%Q.
Proof.
  unfold cn_value. destruct a, b; cbn [cn_add]; try destruct (fits_long _); try done; intros [= <-]; cbn [cn_dec];
    first [apply dec_add_value | unfold dec_value, Qplus, Qeq; cbn; lia].
Qed.
Lemma cn_is_zero_value a : cn_is_zero a = true ↔ (cn_value a == 0)%Q.
Proof. unfold cn_is_zero, cn_value, dec_value, Qeq. cbn. rewrite Z.eqb_eq. lia. Qed.

(** ** Keys *)
Lemma same_number_refl a : same_number a a.
Proof. split; reflexivity. Qed.
Lemma same_number_sym a b : same_number a b → same_number b a.
Proof. intros [H1 H2]. split; by symmetry. Qed.
Lemma same_number_trans a b c : same_number a b → same_number b c → same_number a c.
Proof. intros [H1 H2] [H3 H4]. split; [congruence|by rewrite H2]. Qed.

Lemma key_equiv_cost p q : key_equiv (position_key p) (position_key q) = true ↔ same_cost (pos_cost p) (pos_cost q).
Proof.
  unfold key_equiv, position_key, same_cost. destruct (pos_cost p), (pos_cost q); try done.
  rewrite !andb_true_iff, !bool_decide_eq_true, cn_equiv_spec. tauto.
Qed.
Lemma same_cost_refl a : same_cost a a.
Proof. destruct a; [|done]. repeat split. Qed.
Lemma same_cost_sym a b : same_cost a b → same_cost b a.
Proof. destruct a, b; try done. cbn. intros (?&?&?%same_number_sym&?&?). auto. Qed.
Lemma same_cost_trans a b c : same_cost a b → same_cost b c → same_cost a c.
Proof.
  destruct a, b, c; try done. cbn. intros (?&?&?&?&?) (?&?&?&?&?).
  repeat split; try congruence; by eapply same_number_trans.
Qed.

Ltac mem := match goal with
  | H : _ ∨ _ |- _ => destruct H; mem
  | |- _ ∈ _ ++ _ => apply elem_of_app; first [left; solve [mem] | right; solve [mem]]
  | |- _ ∈ _ :: _ => first [apply elem_of_list_here | apply elem_of_list_further; solve [mem]]
  | |- _ => assumption
  end.

(** ** Lots *)
Definition lots_ok (m : lots) : Prop :=
  (∀ e, e ∈ m → e.1 = position_key e.2) ∧
  NoDup m.*2 ∧
  (∀ e f, e ∈ m → f ∈ m → same_cost (pos_cost e.2) (pos_cost f.2) → e = f).

(** The entry for a cost, whose key is that of [q]. *)
Lemma lots_get_Some m q p :
  (∀ e, e ∈ m → e.1 = position_key e.2) →
  lots_get (position_key q) m = Some p → (position_key p, p) ∈ m ∧ same_cost (pos_cost p) (pos_cost q).
Proof.
  intros Hk. unfold lots_get.
  destruct (filter _ m) as [|e l] eqn:E; [done|]. intros [= <-].
  assert (e ∈ filter (λ e, key_equiv e.1 (position_key q) = true) m) as He by (rewrite E; left).
  apply elem_of_list_filter in He as [H1 H2]. rewrite (Hk e H2) in H1. apply key_equiv_cost in H1.
  split; [|done]. rewrite <- (Hk e H2). by destruct e.
Qed.
Lemma lots_get_None m q :
  (∀ e, e ∈ m → e.1 = position_key e.2) →
  lots_get (position_key q) m = None → ∀ e, e ∈ m → ¬ same_cost (pos_cost e.2) (pos_cost q).
Proof.
  intros Hk. unfold lots_get. destruct (filter _ m) as [|e l] eqn:E; [|done]. intros _ e He Hs.
  assert (e ∈ filter (λ e, key_equiv e.1 (position_key q) = true) m) as Hin.
  { apply elem_of_list_filter. split; [|done]. rewrite (Hk e He). by apply key_equiv_cost. }
  rewrite E in Hin. by apply elem_of_nil in Hin.
Qed.
Lemma lots_get_in m p : lots_ok m → (position_key p, p) ∈ m → lots_get (position_key p) m = Some p.
Proof.
  intros (Hk & _ & Hu) Hp. destruct (lots_get _ m) as [q|] eqn:E.
  - apply lots_get_Some in E as [H1 H2]; [|done]. specialize (Hu _ _ H1 Hp H2). by injection Hu as _ ->.
  - exfalso. eapply lots_get_None in E; [|done..]. apply E, same_cost_refl.
Qed.

(** Adding to the lot [p0], or a new one. *)
Lemma lots_assoc_new m q p :
  (∀ e, e ∈ m → e.1 = position_key e.2) → lots_get (position_key q) m = None →
  lots_assoc (position_key q) p m = m ++ [(position_key q, p)].
Proof.
  intros Hk Hn. assert (∀ e, e ∈ m → key_equiv e.1 (position_key q) = false) as Hf.
  { intros e He. destruct (key_equiv _ _) eqn:E; [|done]. exfalso. rewrite (Hk e He) in E.
    apply key_equiv_cost in E. by eapply lots_get_None. }
  clear Hn Hk. induction m as [|e m IH]; [done|]. cbn. rewrite (Hf e) by left. f_equal. apply IH. intros. apply Hf. by right.
Qed.
Lemma lots_assoc_old m q p p0 :
  (∀ e, e ∈ m → e.1 = position_key e.2) → lots_get (position_key q) m = Some p0 →
  ∃ m1 m2, m = m1 ++ (position_key p0, p0) :: m2 ∧
           lots_assoc (position_key q) p m = m1 ++ (position_key p0, p) :: m2 ∧
           same_cost (pos_cost p0) (pos_cost q).
Proof.
  induction m as [|e m IH]; intros Hk Hg; [done|].
  unfold lots_get in Hg. cbn [lots_assoc]. rewrite filter_cons in Hg.
  destruct (decide (key_equiv e.1 (position_key q) = true)) as [E|E].
  - injection Hg as <-. exists [], m. rewrite E. cbn.
    assert (e.1 = position_key e.2) as He by (apply Hk; left). rewrite He. rewrite He in E. apply key_equiv_cost in E.
    split; [|done]. f_equal. destruct e; cbn in *; by subst.
  - destruct IH as (m1 & m2 & H1 & H2 & H3); [|done|].
    { intros. apply Hk. by right. }
    exists (e :: m1), m2. apply not_true_is_false in E. rewrite E, H2. split; [|by split].
    cbn. f_equal. exact H1.
Qed.

(** ** Accumulating in one currency: [hist] is what was added *)
Definition sca_inv (r : rule) (cur : string) (hist : list position) (s : sca) : Prop :=
  match r, s with
  | RMerge, ScaMerge m =>
      lots_ok m ∧ (∀ e, e ∈ m → pos_cur e.2 = cur) ∧ (psum m.*2 == psum hist)%Q ∧
      (∀ c, (psum (filter (λ p, same_cost (pos_cost p) c) m.*2) == psum (filter (λ p, same_cost (pos_cost p) c) hist))%Q) ∧
      (∀ e, e ∈ m → ∃ p, p ∈ hist ∧ pos_cost p = pos_cost e.2)
  | RAppend, ScaAppend simple at_cost =>
      match simple with
      | Some p => pos_cost p = None ∧ pos_cur p = cur ∧ (pv p == psum (filter (λ p, pos_cost p = None) hist))%Q
      | None => filter (λ p, pos_cost p = None) hist = []
      end ∧
      at_cost = filter (λ p, pos_cost p ≠ None) hist ∧ (∀ p, p ∈ at_cost → pos_cur p = cur)
  | _, _ => False
  end.

Lemma add_units_spec p0 p1 p : add_units p0 p1 = Some p →
  pos_cur p = pos_cur p0 ∧ pos_cost p = pos_cost p0 ∧ (pv p == pv p0 + pv p1)%Q.
Proof.
  unfold add_units. destruct (cn_add _ _) as [u|] eqn:E; [|done]. cbn. intros [= <-]. cbn.
  split; [done|]. split; [done|]. by apply cn_add_value.
Qed.

Lemma sca_inv_new r cur : sca_inv r cur [] (new_sca r).
Proof.
  destruct r; cbn.
  - split; [split_and!|]; [by intros e ?%elem_of_nil|constructor|by intros e f ?%elem_of_nil|].
    split_and!; [by intros e ?%elem_of_nil|reflexivity|reflexivity|by intros e ?%elem_of_nil].
  - split_and!; [done|done|]. by intros p ?%elem_of_nil.
Qed.

Lemma psum_filter_snoc (P : position → Prop) `{!∀ p, Decision (P p)} l p :
  (psum (filter P (l ++ [p])) == psum (filter P l) + (if decide (P p) then pv p else 0))%Q.
Proof.
  rewrite filter_app, psum_app. cbn [filter list_filter]. destruct (decide (P p)).
  - rewrite psum_cons. change (psum []) with 0%Q. ring.
  - change (psum []) with 0%Q. ring.
Qed.

Lemma sca_inv_step r cur hist s p1 s' :
  sca_inv r cur hist s → pos_cur p1 = cur → sca_accumulate s p1 = Some s' → sca_inv r cur (hist ++ [p1]) s'.
Proof.
  destruct r, s as [m|simple at_cost]; try done.
  - intros ((Hk & Hn & Hu) & Hc & Hsum & Hsums & Hfrom) Hcur. cbn [sca_accumulate].
    destruct (lots_get (position_key p1) m) as [p0|] eqn:Eg.
    + destruct (add_units p0 p1) as [p|] eqn:Ea; [|done]. cbn. intros [= <-].
      apply add_units_spec in Ea as (Hpc & Hpk & Hpv).
      destruct (lots_assoc_old m p1 p p0 Hk Eg) as (m1 & m2 & -> & -> & Hs).
      assert (position_key p = position_key p0) as Hkey by (unfold position_key; by rewrite Hpk).
      set (mm := m1 ++ (position_key p0, p) :: m2).
      assert (∀ e, e ∈ mm → ∃ e', e' ∈ m1 ++ (position_key p0, p0) :: m2 ∧ e'.1 = e.1 ∧ pos_cost e'.2 = pos_cost e.2 ∧ pos_cur e'.2 = pos_cur e.2) as Hold.
      { intros e [He|[ ->|He]%elem_of_cons]%elem_of_app.
        - exists e. split; [|done]. mem.
        - exists (position_key p0, p0). cbn. split; [mem|]. by rewrite Hpk, Hpc.
        - exists e. split; [|done]. mem. }
      split; [split_and!|split_and!].
      * intros e He. destruct (Hold e He) as (e' & He' & <- & H2 & _). rewrite (Hk e' He'). unfold position_key. by rewrite H2.
      * unfold mm in *. rewrite fmap_app, fmap_cons in *. cbn in *. apply NoDup_app in Hn as (N1 & N2 & N3).
        apply NoDup_cons in N3 as [N3 N4].
        assert (∀ q, (q ∈ m1.*2 ∨ q ∈ m2.*2) → q ≠ p) as Hne.
        { intros q Hq ->. destruct Hq as [Hq|Hq]; apply elem_of_list_fmap in Hq as (e & -> & He).
          - assert (e = (position_key p0, p0)) as ->; [apply Hu; [mem|mem|cbn; rewrite Hpk; apply same_cost_refl]|].
            apply (N2 p0); [|mem]. apply elem_of_list_fmap. by exists (position_key p0, p0).
          - assert (e = (position_key p0, p0)) as ->; [apply Hu; [mem|mem|cbn; rewrite Hpk; apply same_cost_refl]|].
            apply N3. apply elem_of_list_fmap. by exists (position_key p0, p0). }
        apply NoDup_app. split_and!; [done| |].
        -- intros q Hq [ ->|Hq2]%elem_of_cons; [by eapply Hne; [left|]|]. apply (N2 q Hq). by right.
        -- constructor; [|done]. intros Hq. by eapply Hne; [right|].
      * assert (∀ e, e ∈ m1 ∨ e ∈ m2 → ¬ same_cost (pos_cost e.2) (pos_cost p)) as Hne.
        { intros e He Hsc. rewrite Hpk in Hsc.
          assert (e = (position_key p0, p0)) as ->; [apply Hu; [mem|mem|done]|].
          rewrite fmap_app, fmap_cons in Hn. cbn in Hn. apply NoDup_app in Hn as (N1 & N2 & N3).
          apply NoDup_cons in N3 as [N3 N4]. destruct He as [He|He].
          - apply (N2 p0); [|left]. apply elem_of_list_fmap. by exists (position_key p0, p0).
          - apply N3. apply elem_of_list_fmap. by exists (position_key p0, p0). }
        intros e f He Hf Hsc. unfold mm in He, Hf.
        apply elem_of_app in He as [He|[ ->|He]%elem_of_cons]; apply elem_of_app in Hf as [Hf|[ ->|Hf]%elem_of_cons]; try done.
        -- apply Hu; [mem..|done].
        -- exfalso. eapply Hne; [by left|done].
        -- apply Hu; [mem..|done].
        -- exfalso. eapply Hne; [by left|]. by apply same_cost_sym.
        -- exfalso. eapply Hne; [by right|]. by apply same_cost_sym.
        -- apply Hu; [mem..|done].
        -- exfalso. eapply Hne; [by right|done].
        -- apply Hu; [mem..|done].
      * intros e He. destruct (Hold e He) as (e' & He' & _ & _ & <-). by apply Hc.
      * unfold mm. rewrite fmap_app, fmap_cons in Hsum |- *. cbn [snd] in Hsum |- *.
        rewrite psum_app, psum_cons in Hsum |- *. rewrite psum_app, <- Hsum, Hpv. change (psum [p1]) with (pv p1 + 0)%Q. ring.
      * intros c. specialize (Hsums c). rewrite psum_filter_snoc, <- Hsums.
        unfold mm. rewrite !fmap_app, !fmap_cons, !filter_app. cbn [snd]. rewrite !filter_cons.
        assert (same_cost (pos_cost p1) c ↔ same_cost (pos_cost p0) c) as Hiff.
        { split; intros; [by eapply same_cost_trans|eapply same_cost_trans; [by apply same_cost_sym|done]]. }
        rewrite Hpk. destruct (decide (same_cost (pos_cost p0) c)), (decide (same_cost (pos_cost p1) c)); try tauto.
        -- rewrite !psum_app, !psum_cons, Hpv. ring.
        -- rewrite !psum_app. ring.
      * intros e He. destruct (Hold e He) as (e' & He' & _ & <- & _). destruct (Hfrom e' He') as (q & Hq & Hqc).
        exists q. split; [mem|done].
    + cbn. intros [= <-]. rewrite (lots_assoc_new m p1 p1 Hk Eg).
      pose proof (lots_get_None m p1 Hk Eg) as Hnone.
      split; [split_and!|split_and!].
      * intros e [He| ->%elem_of_list_singleton]%elem_of_app; [by apply Hk|done].
      * rewrite fmap_app. apply NoDup_app. split_and!; [done| |cbn; apply NoDup_singleton].
        intros q Hq ->%elem_of_list_singleton. apply elem_of_list_fmap in Hq as (e & He1 & He).
        apply (Hnone e He). rewrite <- He1. cbn. apply same_cost_refl.
      * intros e f [He| ->%elem_of_list_singleton]%elem_of_app [Hf| ->%elem_of_list_singleton]%elem_of_app Hsc; cbn in *.
        -- by apply Hu.
        -- exfalso. by eapply Hnone.
        -- exfalso. by eapply Hnone, same_cost_sym.
        -- done.
      * intros e [He| ->%elem_of_list_singleton]%elem_of_app; [by apply Hc|done].
      * rewrite fmap_app, !psum_app, Hsum. reflexivity.
      * intros c. rewrite fmap_app. cbn [fmap list_fmap snd]. rewrite !psum_filter_snoc. by rewrite Hsums.
      * intros e [He| ->%elem_of_list_singleton]%elem_of_app.
        -- destruct (Hfrom e He) as (q & Hq & Hqc). exists q. split; [mem|done].
        -- exists p1. split; [mem|done].
  - intros (Hs & Hat & Hac) Hcur. cbn [sca_accumulate]. destruct (pos_cost p1) as [c|] eqn:Ec.
    + intros [= <-]. cbn. rewrite !filter_app. cbn [filter list_filter].
      destruct (decide (pos_cost p1 = None)); [congruence|]. destruct (decide (pos_cost p1 ≠ None)); [|tauto].
      rewrite app_nil_r. split_and!; [done|by rewrite Hat|].
      intros q [?| ->%elem_of_list_singleton]%elem_of_app; auto.
    + assert (filter (λ p, pos_cost p ≠ None) (hist ++ [p1]) = filter (λ p, pos_cost p ≠ None) hist) as Hat'.
      { rewrite filter_app. cbn [filter list_filter]. destruct (decide (pos_cost p1 ≠ None)); [tauto|]. apply app_nil_r. }
      destruct simple as [p0|].
      * destruct (add_units p0 p1) as [p|] eqn:Ea; [|done]. cbn. intros [= <-].
        apply add_units_spec in Ea as (Hpc & Hpk & Hpv). destruct Hs as (H1 & H2 & H3). cbn.
        rewrite Hat'. split_and!; [congruence|congruence| |done|done].
        rewrite psum_filter_snoc, Hpv, H3. destruct (decide (pos_cost p1 = None)); [reflexivity|tauto].
      * intros [= <-]. cbn. rewrite Hat'. split_and!; [done|done| |done|done].
        rewrite psum_filter_snoc, Hs. destruct (decide (pos_cost p1 = None)); [|tauto]. change (psum []) with 0%Q. ring.
Qed.

Lemma sca_accumulate_fold r cur hist s :
  (∀ p, p ∈ hist → pos_cur p = cur) → fold_opt sca_accumulate (new_sca r) hist = Some s → sca_inv r cur hist s.
Proof.
  assert (∀ h0 h s0, (∀ p, p ∈ h → pos_cur p = cur) → sca_inv r cur h0 s0 →
    fold_opt sca_accumulate s0 h = Some s → sca_inv r cur (h0 ++ h) s) as Hg.
  { intros h0 h. revert h0. induction h as [|p h IH]; intros h0 s0 Hc Hi; cbn.
    - intros [= <-]. by rewrite app_nil_r.
    - destruct (sca_accumulate s0 p) as [s1|] eqn:E; [|done]. intros Hf.
      replace (h0 ++ p :: h) with ((h0 ++ [p]) ++ h) by by rewrite <- app_assoc.
      eapply IH; [|eapply sca_inv_step; [done| |done]|done].
      + intros. apply Hc. by right.
      + apply Hc. left. }
  intros Hc Hf. apply (Hg [] hist (new_sca r)); [done|apply sca_inv_new|done].
Qed.

(** ** Accumulating in all currencies *)
Definition of_cur (c : string) (l : list position) : list position := filter (λ p, pos_cur p = c) l.

Definition acc_inv (r : rule) (hist : list position) (i : inv_acc) : Prop :=
  ia_rule i = r ∧ ∀ c, match ia_scas i !! c with
                       | Some s => sca_inv r c (of_cur c hist) s
                       | None => of_cur c hist = []
                       end.
Lemma acc_inv_new r : acc_inv r [] (InvAcc r ∅).
Proof. split; [done|]. intros c. cbn [ia_scas]. by rewrite lookup_empty. Qed.
Lemma acc_inv_step r hist i p i' : acc_inv r hist i → accumulate i p = Some i' → acc_inv r (hist ++ [p]) i'.
Proof.
  intros [Hr Hi]. unfold accumulate. destruct (sca_accumulate _ p) as [s'|] eqn:E; [|done]. cbn. intros [= <-].
  split; [done|]. intros c. cbn. unfold of_cur in *. rewrite filter_app. cbn [filter list_filter].
  destruct (decide (pos_cur p = c)) as [<-|Hc].
  - rewrite lookup_insert. specialize (Hi (pos_cur p)).
    destruct (ia_scas i !! pos_cur p) as [s|]; cbn in E.
    + by eapply sca_inv_step.
    + rewrite Hi. eapply (sca_inv_step r _ []); [rewrite <- Hr; apply sca_inv_new|done|done].
  - rewrite lookup_insert_ne by done. rewrite app_nil_r. apply Hi.
Qed.

Section WithOrder.
Context (ho : list (ckey * position) → list (ckey * position)) (Hho : ∀ l, ho l ≡ₚ l).

(** What is listed for a currency. *)
Lemma lots_listed m : lots_ok m → sca_positions ho (ScaMerge m) ≡ₚ m.*2.
Proof using Hho.
  intros Hm. cbn. rewrite sort_by_perm.
  assert (∀ l, (∀ e, e ∈ l → e ∈ m) → omap (λ k, lots_get k m) ((λ e, e.1) <$> l) = l.*2) as Hl.
  { induction l as [|e l IH]; intros Hin; [done|]. cbn.
    assert (e ∈ m) as He by (apply Hin; left). destruct Hm as (Hk & Hn & Hu).
    assert (lots_get e.1 m = Some e.2) as ->.
    { rewrite (Hk e He). apply lots_get_in; [done|]. rewrite <- (Hk e He). by destruct e. }
    f_equal. apply IH. intros. apply Hin. by right. }
  rewrite Hl; [by rewrite Hho|]. intros e. by rewrite Hho.
Qed.
Lemma lots_order m : lots_ok m →
  StronglySorted (λ p q, compare_cost_keys (position_key p) (position_key q) ≠ Gt) (sca_positions ho (ScaMerge m)).
Proof using Hho.
  intros Hm. cbn. pose proof (sort_by_sorted _ good_cost_keys ((λ e, e.1) <$> ho m)) as Hs.
  assert (∀ k, k ∈ sort_by compare_cost_keys ((λ e, e.1) <$> ho m) →
    ∃ p, lots_get k m = Some p ∧ position_key p = k) as Hg.
  { intros k. rewrite sort_by_perm. intros (e & -> & He)%elem_of_list_fmap. rewrite Hho in He.
    exists e.2. destruct Hm as (Hk & Hn & Hu). split; [|by rewrite Hk].
    rewrite (Hk e He). apply lots_get_in; [done|]. rewrite <- (Hk e He). by destruct e. }
  induction Hs as [|k l Hs IH Hf]; [constructor|]. cbn.
  destruct (Hg k) as (p & -> & Hp); [left|]. constructor.
  - apply IH. intros. apply Hg. by right.
  - rewrite Forall_forall. intros q (k' & Hk' & Hq)%elem_of_list_omap.
    destruct (Hg k') as (q' & Hq' & Hqk); [by right|]. assert (q = q') as -> by congruence.
    rewrite Hp, Hqk. rewrite Forall_forall in Hf. by apply Hf.
Qed.

Lemma sca_positions_cur r c hist s : sca_inv r c hist s → ∀ p, p ∈ sca_positions ho s → pos_cur p = c.
Proof using Hho.
  destruct r, s as [m|simple at_cost]; try done.
  - intros (Hm & Hc & _) p. rewrite lots_listed by done. intros (e & -> & He)%elem_of_list_fmap. by apply Hc.
  - intros (Hs & Hat & Hac) p. cbn. destruct simple as [q|].
    + intros [ ->|Hp]%elem_of_cons; [naive_solver|auto].
    + auto.
Qed.
Lemma sca_positions_sum r c hist s : sca_inv r c hist s → (psum (sca_positions ho s) == psum hist)%Q.
Proof using Hho.
  destruct r, s as [m|simple at_cost]; try done.
  - intros (Hm & Hc & Hsum & _). rewrite psum_perm by by apply lots_listed. done.
  - intros (Hs & Hat & Hac). cbn [sca_positions].
    assert (psum hist == psum (filter (λ p, pos_cost p = None) hist) + psum (filter (λ p, pos_cost p ≠ None) hist))%Q as ->.
    { clear. induction hist as [|p l IH]; [reflexivity|]. rewrite !filter_cons.
      destruct (decide (pos_cost p = None)), (decide (pos_cost p ≠ None)); try tauto; rewrite !psum_cons, IH; ring. }
    destruct simple as [q|].
    + rewrite psum_cons, Hat. destruct Hs as (_ & _ & ->). reflexivity.
    + rewrite Hs, Hat. change (psum []) with 0%Q. ring.
Qed.

Definition nonzero (p : position) : Prop := cn_is_zero (pos_units p) = false.
Lemma psum_nonzero l : (psum (filter (λ p, cn_is_zero (pos_units p) = false) l) == psum l)%Q.
Proof using.
  induction l as [|p l IH]; [reflexivity|]. rewrite filter_cons. destruct (decide _) as [E|E].
  - by rewrite !psum_cons, IH.
  - rewrite psum_cons, IH. apply not_false_is_true, cn_is_zero_value in E. unfold pv. rewrite E. ring.
Qed.

(** The positions in one currency. *)
Lemma positions_of_cur r hist i c : acc_inv r hist i →
  of_cur c (positions ho i) =
  match ia_scas i !! c with
  | Some s => filter (λ p, cn_is_zero (pos_units p) = false) (sca_positions ho s)
  | None => []
  end.
Proof using Hho.
  intros [_ Hi]. unfold positions.
  set (curs := sort_strings _). assert (curs ≡ₚ (map_to_list (ia_scas i)).*1) as Hp by apply sort_strings_perm.
  assert (NoDup curs) as Hn by (rewrite Hp; apply NoDup_fst_map_to_list).
  set (f := λ cur, match ia_scas i !! cur with Some s => filter _ _ | None => [] end).
  assert (∀ c' p, p ∈ f c' → pos_cur p = c') as Hf.
  { intros c' p. unfold f. specialize (Hi c'). destruct (ia_scas i !! c') as [s|]; [|by intros ?%elem_of_nil].
    intros [_ Hp']%elem_of_list_filter. by eapply sca_positions_cur. }
  assert (∀ c', c' ≠ c → of_cur c (f c') = []) as Hother.
  { intros c' Hne. unfold of_cur. destruct (filter _ (f c')) as [|p l] eqn:E; [done|].
    assert (p ∈ filter (λ p, pos_cur p = c) (f c')) as Hin by (rewrite E; left).
    apply elem_of_list_filter in Hin as [H1 H2]. apply Hf in H2. congruence. }
  assert (of_cur c (f c) = f c) as Hsame.
  { unfold of_cur. specialize (Hf c). generalize (f c), Hf. clear. intros l Hf. induction l as [|p l IH]; [done|].
    rewrite filter_cons_True by (apply Hf; left). f_equal. apply IH. intros. apply Hf. by right. }
  change (of_cur c (mbind f curs) = f c).
  assert (∀ l, c ∉ l → of_cur c (mbind f l) = []) as Habsent.
  { induction l as [|c' l IH]; intros Hc; [done|]. apply not_elem_of_cons in Hc as [Hc1 Hc2].
    rewrite bind_cons. unfold of_cur in *. rewrite filter_app, IH, app_nil_r by done. apply Hother. congruence. }
  destruct (decide (c ∈ curs)) as [Hin|Hin].
  - apply elem_of_list_split in Hin as (l1 & l2 & Hl). rewrite Hl in *.
    apply NoDup_app in Hn as (N1 & N2 & N3). apply NoDup_cons in N3 as [N3 N4].
    rewrite bind_app, bind_cons. unfold of_cur in *. rewrite !filter_app.
    rewrite (Habsent l1), (Habsent l2); [|done|intros Hc; apply (N2 c Hc); left].
    rewrite app_nil_r. cbn. apply Hsame.
  - rewrite Habsent by done. unfold f. destruct (ia_scas i !! c) as [s|] eqn:E; [|done].
    exfalso. apply Hin. rewrite Hp. apply elem_of_list_fmap. exists (c, s). split; [done|]. by apply elem_of_map_to_list.
Qed.

Lemma positions_nonzero i p : p ∈ positions ho i → cn_is_zero (pos_units p) = false.
Proof using.
  unfold positions. intros (c & Hp & _)%elem_of_list_bind. destruct (ia_scas i !! c); [|by apply elem_of_nil in Hp].
  by apply elem_of_list_filter in Hp as [? _].
Qed.

Lemma positions_held r hist i c : acc_inv r hist i → (psum (of_cur c (positions ho i)) == psum (of_cur c hist))%Q.
Proof using Hho.
  intros Hi. rewrite (positions_of_cur r hist i c Hi). destruct Hi as [_ Hi]. specialize (Hi c).
  destruct (ia_scas i !! c) as [s|].
  - rewrite psum_nonzero. by eapply sca_positions_sum.
  - by rewrite Hi.
Qed.

(** Order of the whole list. *)
Lemma positions_sorted_gen (R : position → position → Prop) r hist i :
  acc_inv r hist i →
  (∀ p q, before (pos_cur p) (pos_cur q) → R p q) →
  (∀ c s, ia_scas i !! c = Some s → StronglySorted R (filter (λ p, cn_is_zero (pos_units p) = false) (sca_positions ho s))) →
  StronglySorted R (positions ho i).
Proof using Hho.
  intros [_ Hi] HR Hs. unfold positions. set (curs := sort_strings _).
  assert (StronglySorted before curs) as Hsort by (apply sort_strings_sorted, NoDup_fst_map_to_list).
  set (f := λ cur, match ia_scas i !! cur with Some s => filter _ _ | None => [] end).
  assert (∀ c' p, p ∈ f c' → pos_cur p = c') as Hf.
  { intros c' p. unfold f. specialize (Hi c'). destruct (ia_scas i !! c') as [s|]; [|by intros ?%elem_of_nil].
    intros [_ Hp']%elem_of_list_filter. by eapply sca_positions_cur. }
  change (StronglySorted R (mbind f curs)).
  assert (∀ l1 l2, StronglySorted R l1 → StronglySorted R l2 → (∀ x y, x ∈ l1 → y ∈ l2 → R x y) → StronglySorted R (l1 ++ l2)) as Happ.
  { clear. intros l1 l2 H1 H2 H. induction H1 as [|x l Hl IH Hf]; [done|]. cbn. constructor.
    - apply IH. intros. apply H; [by right|done].
    - apply Forall_app. split; [done|]. apply Forall_forall. intros. apply H; [left|done]. }
  induction Hsort as [|c l Hl IH Hfa]; [constructor|]. rewrite bind_cons. apply Happ.
  - unfold f. destruct (ia_scas i !! c) as [s|] eqn:E; [by eapply Hs|constructor].
  - apply IH.
  - intros x y Hx (c' & Hy & Hc')%elem_of_list_bind. apply HR. rewrite (Hf _ _ Hx), (Hf _ _ Hy).
    rewrite Forall_forall in Hfa. by apply Hfa.
Qed.
End WithOrder.
