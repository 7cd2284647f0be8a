(** When inventories and journals exist, and what journals contain. *)
From Coq Require Import Ascii QArith Sorted.
From stdpp Require Import prelude gmap strings.
From Verif Require Import DecModel LedgerTypes CljModel InventoryModel InventorySpec DecProofs OrderFacts InventoryFacts InventoryMain.
Local Open Scope nat_scope.

Lemma zsum_app a b : zsum (a ++ b) = (zsum a + zsum b)%Z.
Proof. induction a as [|x a IH]; cbn [zsum app]; lia. Qed.
Lemma whole_nonneg n : (0 <= whole n)%Z.
Proof. destruct n; cbn; lia. Qed.
Lemma zsum_whole_nonneg {A} (f : A → cnum) l : (0 <= zsum ((λ x, whole (f x)) <$> l))%Z.
Proof. induction l as [|x l IH]; cbn; [lia|]. pose proof (whole_nonneg (f x)). lia. Qed.

Definition wsum (l : list position) : Z := zsum ((λ p, whole (pos_units p)) <$> l).
Lemma wsum_app a b : wsum (a ++ b) = (wsum a + wsum b)%Z.
Proof. unfold wsum. by rewrite fmap_app, zsum_app. Qed.
Lemma wsum_nonneg l : (0 <= wsum l)%Z.
Proof. apply zsum_whole_nonneg. Qed.

Lemma cn_add_fits a b : (whole a + whole b < 2 ^ 63)%Z → ∃ c, cn_add a b = Some c ∧ (whole c <= whole a + whole b)%Z.
Proof.
  intros H. destruct a as [x|x|x], b as [y|y|y]; cbn [cn_add];
    try (eexists; split; [reflexivity|]; pose proof (whole_nonneg (CLong x)); cbn in *; lia).
  all: try (eexists; split; [reflexivity|]; cbn in *; lia).
  cbn [whole] in H. assert (fits_long (x + y) = true) as ->.
  { unfold fits_long. apply andb_true_iff. split; [apply Z.leb_le|apply Z.ltb_lt]; lia. }
  eexists. split; [done|]. cbn. lia.
Qed.

Definition sca_elems (s : sca) : list position :=
  match s with ScaMerge m => m.*2 | ScaAppend simple at_cost => option_list simple ++ at_cost end.
Definition small (b : Z) (s : sca) : Prop := ∀ p, p ∈ sca_elems s → (whole (pos_units p) <= b)%Z.

Lemma add_units_fits p0 p1 : (whole (pos_units p0) + whole (pos_units p1) < 2 ^ 63)%Z →
  ∃ p, add_units p0 p1 = Some p ∧ (whole (pos_units p) <= whole (pos_units p0) + whole (pos_units p1))%Z.
Proof. intros (c & Hc & Hl)%cn_add_fits. unfold add_units. rewrite Hc. by eexists. Qed.

Lemma lots_assoc_elems k v (m : lots) p : p ∈ (lots_assoc k v m).*2 → p = v ∨ p ∈ m.*2.
Proof.
  induction m as [|e m IH]; cbn; [set_solver|]. destruct (key_equiv e.1 k); cbn; set_solver.
Qed.
Lemma lots_get_elems k (m : lots) p : lots_get k m = Some p → p ∈ m.*2.
Proof.
  unfold lots_get. destruct (filter _ m) as [|e l] eqn:E; [done|]. intros [= <-].
  assert (e ∈ filter (λ e, key_equiv e.1 k = true) m) as He by (rewrite E; left).
  apply elem_of_list_filter in He as [_ He]. apply elem_of_list_fmap. by exists e.
Qed.

Lemma sca_accumulate_fits b s p1 :
  (0 <= b)%Z → small b s → (b + whole (pos_units p1) < 2 ^ 63)%Z →
  ∃ s', sca_accumulate s p1 = Some s' ∧ small (b + whole (pos_units p1)) s'.
Proof.
  intros Hb Hs Hlt. pose proof (whole_nonneg (pos_units p1)) as Hw.
  destruct s as [m|simple at_cost]; cbn [sca_accumulate].
  - destruct (lots_get _ m) as [p0|] eqn:E.
    + pose proof (Hs p0 (lots_get_elems _ _ _ E)) as H0.
      destruct (add_units_fits p0 p1) as (p & Hp & Hl); [lia|]. rewrite Hp. eexists. split; [reflexivity|].
      intros q [->|Hq]%lots_assoc_elems; [lia|]. specialize (Hs q Hq). lia.
    + eexists. split; [reflexivity|]. intros q [->|Hq]%lots_assoc_elems; [lia|]. specialize (Hs q Hq). lia.
  - destruct (pos_cost p1).
    + eexists. split; [reflexivity|]. intros q. cbn. rewrite app_assoc.
      intros [Hq| ->%elem_of_list_singleton]%elem_of_app; [specialize (Hs q Hq); lia|lia].
    + destruct simple as [p0|].
      * assert (whole (pos_units p0) <= b)%Z as H0 by (apply Hs; left).
        destruct (add_units_fits p0 p1) as (p & Hp & Hl); [lia|]. rewrite Hp. eexists. split; [reflexivity|].
        intros q. cbn. intros [->|Hq]%elem_of_cons; [lia|].
        assert (whole (pos_units q) <= b)%Z; [|lia]. apply Hs. by right.
      * eexists. split; [reflexivity|]. intros q. cbn. intros [->|Hq]%elem_of_cons; [lia|].
        assert (whole (pos_units q) <= b)%Z; [|lia]. by apply Hs.
Qed.

Definition acc_small (hist : list position) (i : inv_acc) : Prop :=
  ∀ c s, ia_scas i !! c = Some s → small (wsum (of_cur c hist)) s.
Lemma acc_small_new r : acc_small [] (InvAcc r ∅).
Proof. intros c s. cbn [ia_scas]. by rewrite lookup_empty. Qed.
Lemma accumulate_fits hist i p :
  acc_small hist i → (wsum (of_cur (pos_cur p) (hist ++ [p])) < 2 ^ 63)%Z →
  ∃ i', accumulate i p = Some i' ∧ acc_small (hist ++ [p]) i'.
Proof.
  intros Hi Hlt. unfold accumulate, of_cur in *. rewrite filter_app in Hlt. cbn [filter list_filter] in Hlt.
  destruct (decide (pos_cur p = pos_cur p)) as [_|]; [|done]. rewrite wsum_app in Hlt.
  change (wsum [p]) with (whole (pos_units p) + 0)%Z in Hlt. rewrite Z.add_0_r in Hlt.
  set (s := default _ _).
  assert (small (wsum (filter (λ q, pos_cur q = pos_cur p) hist)) s) as Hs.
  { unfold s. destruct (ia_scas i !! pos_cur p) as [s0|] eqn:E; cbn [default].
    - by apply Hi.
    - intros q Hq. exfalso. destruct (ia_rule i); cbn in Hq; by apply elem_of_nil in Hq. }
  destruct (sca_accumulate_fits _ s p (wsum_nonneg _) Hs Hlt) as (s' & -> & Hs').
  eexists. split; [reflexivity|]. intros c s0. cbn [ia_scas]. unfold of_cur. rewrite filter_app, wsum_app.
  cbn [filter list_filter]. destruct (decide (pos_cur p = c)) as [<-|Hne].
  - rewrite lookup_insert. intros [= <-]. change (wsum [p]) with (whole (pos_units p) + 0)%Z. by rewrite Z.add_0_r.
  - rewrite lookup_insert_ne by done. change (wsum []) with 0%Z. rewrite Z.add_0_r. apply Hi.
Qed.

Lemma wsum_cposting (ps : list cposting) : wsum (to_position <$> ps) = zsum ((λ p, whole (cp_units p)) <$> ps).
Proof. unfold wsum. by rewrite <- list_fmap_compose. Qed.

Lemma wsum_prefix (P : position → Prop) `{!∀ p, Decision (P p)} a b : (wsum (filter P a) <= wsum (filter P (a ++ b)))%Z.
Proof. rewrite filter_app, wsum_app. pose proof (wsum_nonneg (filter P b)). lia. Qed.

Section Exists.
Context (ho : list (ckey * position) → list (ckey * position)).

Lemma build_exists (booking : string → booking) ps :
  (∀ p, p ∈ ps → booking (cp_acc p) ≠ BAverage) → (∀ acc cur, in_range acc cur ps) →
  is_Some (inventory_build ho ps booking).
Proof.
  intros Hsup Hr. unfold inventory_build.
  assert (∀ p1 p0 m0, ps = p0 ++ p1 → (∀ acc i, m0 !! acc = Some i → acc_small (hist_of acc p0) i) →
    (∀ acc, m0 !! acc = None → filter (λ p, cp_acc p = acc) p0 = []) →
    is_Some (fold_opt (build_step booking) m0 p1)) as Hg.
  { induction p1 as [|p p1 IH]; intros p0 m0 Hps Hm Hm0; cbn; [by eexists|].
    assert (ps = (p0 ++ [p]) ++ p1) as Hps' by by rewrite <- app_assoc.
    assert (∃ i, (match m0 !! cp_acc p with Some i => Some i | None => accumulator (booking (cp_acc p)) end) = Some i
              ∧ acc_small (hist_of (cp_acc p) p0) i) as (i & Hi & His).
    { destruct (m0 !! cp_acc p) as [i|] eqn:E; [eauto|]. unfold accumulator.
      assert (booking (cp_acc p) ≠ BAverage) as Hne by (apply Hsup; rewrite Hps; mem).
      unfold hist_of. rewrite Hm0 by done.
      destruct (booking (cp_acc p)); try done; cbn [booking_rule fmap option_fmap option_map]; eexists; (split; [reflexivity|]); apply acc_small_new. }
    unfold build_step. rewrite Hi. cbn [mbind option_bind].
    destruct (accumulate_fits (hist_of (cp_acc p) p0) i (to_position p) His) as (i' & -> & Hi').
    { eapply Z.le_lt_trans; [|exact (Hr (cp_acc p) (cp_cur p))].
      assert (hist_of (cp_acc p) (p0 ++ [p]) = hist_of (cp_acc p) p0 ++ [to_position p]) as <-.
      { unfold hist_of. rewrite filter_app, fmap_app. cbn [filter list_filter]. by destruct (decide _). }
      cbn [pos_cur to_position].
      rewrite <- wsum_cposting, <- of_cur_hist. rewrite Hps'. unfold of_cur, hist_of.
      rewrite (filter_app _ (p0 ++ [p])), fmap_app. apply wsum_prefix. }
    cbn [mbind option_bind]. apply (IH (p0 ++ [p])); [done|..].
    - intros acc i0. unfold hist_of. rewrite filter_app, fmap_app. cbn [filter list_filter].
      destruct (decide (cp_acc p = acc)) as [<-|Hne].
      + rewrite lookup_insert. by intros [= <-].
      + rewrite lookup_insert_ne by done. rewrite app_nil_r. apply Hm.
    - intros acc. rewrite filter_app. cbn [filter list_filter]. destruct (decide (cp_acc p = acc)) as [<-|Hne].
      + by rewrite lookup_insert.
      + rewrite lookup_insert_ne by done. rewrite app_nil_r. apply Hm0. }
  destruct (Hg ps [] ∅) as [m Hm]; [done| | |].
  - intros acc i. by rewrite lookup_empty.
  - done.
  - unfold build_step in *. rewrite Hm. by eexists.
Qed.

(** ** Journals *)
Context (Hho : ∀ l, ho l ≡ₚ l).

Definition entry_ok (p : cposting) (before_it : list cposting) (e : cposting * list position) : Prop :=
  e.1 = without_cost p ∧ StronglySorted before (pos_cur <$> e.2) ∧
  Forall (λ q, pos_cost q = None ∧ ¬ cn_value (pos_units q) == 0)%Q e.2 ∧
  ∀ cur, (held cur e.2 == running cur (before_it ++ [p]))%Q.

Lemma simple_positions i hist :
  acc_inv RAppend hist i → Forall (λ p, pos_cost p = None) hist →
  StronglySorted before (pos_cur <$> positions ho i) ∧ Forall (λ q, pos_cost q = None) (positions ho i).
Proof using Hho.
  intros Hi Hn.
  assert (∀ c s, ia_scas i !! c = Some s → ∃ o, sca_positions ho s = option_list o ∧ ∀ p, o = Some p → pos_cost p = None) as Hone.
  { intros c s Hs. destruct Hi as [_ Hi]. specialize (Hi c). rewrite Hs in Hi. destruct s as [|simple at_cost]; [done|].
    destruct Hi as (H1 & H2 & _). assert (at_cost = []) as ->.
    { clear H1. rewrite H2. destruct (filter (λ p, pos_cost p ≠ None) (of_cur c hist)) as [|q l] eqn:E; [done|].
      assert (q ∈ filter (λ p, pos_cost p ≠ None) (of_cur c hist)) as Hq by (rewrite E; left).
      apply elem_of_list_filter in Hq as [Hq1 [_ Hq2]%elem_of_list_filter].
      rewrite Forall_forall in Hn. by apply Hn in Hq2. }
    exists simple. cbn [sca_positions option_list]. destruct simple as [q|]; [|by split]. split; [done|]. intros p [= <-]. by destruct H1. }
  split.
  - assert (StronglySorted (λ p q, before (pos_cur p) (pos_cur q)) (positions ho i)) as Hs.
    { eapply positions_sorted_gen; [done|done|done|]. intros c s Hs. destruct (Hone c s Hs) as (o & -> & _).
      destruct o as [q|]; cbn; [|constructor]. case_decide; repeat constructor. }
    induction Hs as [|p l Hl IH Hf]; [constructor|]. cbn. constructor; [done|].
    apply Forall_fmap. exact Hf.
  - apply Forall_forall. intros p. unfold positions. intros (c & Hp & _)%elem_of_list_bind.
    destruct (ia_scas i !! c) as [s|] eqn:E; [|by apply elem_of_nil in Hp].
    apply elem_of_list_filter in Hp as [_ Hp]. destruct (Hone c s E) as (o & Ho & Hc). rewrite Ho in Hp.
    destruct o as [q|]; [|by apply elem_of_nil in Hp]. apply elem_of_list_singleton in Hp as ->. by apply Hc.
Qed.

Lemma journal_from_ok st ps0 ps l :
  acc_inv RAppend ((λ p, to_position (without_cost p)) <$> ps0) st →
  journal_from ho st ps = Some l →
  length l = length ps ∧ ∀ n p, ps !! n = Some p → ∃ e, l !! n = Some e ∧ entry_ok p (ps0 ++ take n ps) e.
Proof using Hho.
  revert st ps0 l. induction ps as [|p ps IH]; intros st ps0 l Hi; cbn [journal_from].
  - intros [= <-]. done.
  - destruct (accumulate st (to_position (without_cost p))) as [st'|] eqn:Ea; [|done]. cbn [mbind option_bind].
    destruct (journal_from ho st' ps) as [r|] eqn:Er; [|done]. cbn [mbind option_bind]. intros [= <-].
    pose proof (acc_inv_step _ _ _ _ _ Hi Ea) as Hi'.
    change ([to_position (without_cost p)]) with ((λ p, to_position (without_cost p)) <$> [p]) in Hi'.
    rewrite <- fmap_app in Hi'.
    destruct (IH st' (ps0 ++ [p]) r Hi' Er) as [Hlen Hall]. split; [cbn; by rewrite Hlen|].
    intros [|n] q; cbn.
    + intros [= <-]. eexists. split; [reflexivity|]. rewrite app_nil_r. split; [done|].
      destruct (simple_positions _ _ Hi') as [H1 H2].
      { apply Forall_forall. by intros ? (x & -> & _)%elem_of_list_fmap. }
      split; [exact H1|]. split.
      * rewrite Forall_forall in H2 |- *. intros x Hx. split; [by apply H2|].
        intros Hz%cn_is_zero_value. apply positions_nonzero in Hx. cbn in *. congruence.
      * intros cur. unfold held. cbn [snd]. change (psum (of_cur cur (positions ho st')) == running cur (ps0 ++ [p]))%Q.
        rewrite (positions_held ho Hho _ _ _ cur Hi'). unfold running, psum, of_cur.
        assert (∀ ps, (pv <$> filter (λ p, pos_cur p = cur) ((λ p, to_position (without_cost p)) <$> ps)) =
                ((λ p, cn_value (cp_units p)) <$> filter (λ p, cp_cur p = cur) ps)) as ->; [|reflexivity].
        intros ps1. induction ps1 as [|x xs IHx]; [reflexivity|]. rewrite fmap_cons, !filter_cons. cbn [pos_cur to_position without_cost cp_cur].
        destruct (decide (cp_cur x = cur)); [|done]. rewrite !fmap_cons. by rewrite IHx.
    + intros Hq. destruct (Hall n q Hq) as (e & He & Hok). exists e. split; [done|].
      by rewrite <- app_assoc in Hok.
Qed.

Lemma journal_exists ps : (∀ cur, in_range_all cur ps) → is_Some (journal_build ho ps).
Proof using.
  intros Hr. unfold journal_build. cbn [accumulator booking_rule fmap option_fmap option_map mbind option_bind].
  assert (∀ p1 p0 st, ps = p0 ++ p1 → acc_small ((λ p, to_position (without_cost p)) <$> p0) st →
    is_Some (journal_from ho st p1)) as Hg.
  { induction p1 as [|p p1 IH]; intros p0 st Hps Hst; cbn [journal_from]; [by eexists|].
    destruct (accumulate_fits _ st (to_position (without_cost p)) Hst) as (st' & -> & Hst').
    { eapply Z.le_lt_trans; [|exact (Hr (cp_cur p))]. cbn [pos_cur to_position without_cost cp_cur].
      assert (∀ l, wsum (of_cur (cp_cur p) ((λ p, to_position (without_cost p)) <$> l)) =
        zsum ((λ p, whole (cp_units p)) <$> filter (λ q, cp_cur q = cp_cur p) l)) as <-.
      { intros l. unfold wsum, of_cur. f_equal. induction l as [|x xs IHx]; [done|].
        rewrite fmap_cons, !filter_cons. cbn [pos_cur to_position without_cost cp_cur].
        destruct (decide (cp_cur x = cp_cur p)); [|done]. rewrite !fmap_cons. by rewrite IHx. }
      rewrite Hps. replace (p0 ++ p :: p1) with ((p0 ++ [p]) ++ p1) by by rewrite <- app_assoc.
      rewrite (fmap_app _ (p0 ++ [p])), (fmap_app _ p0). apply wsum_prefix. }
    cbn [mbind option_bind]. destruct (IH (p0 ++ [p]) st') as [r ->].
    - by rewrite <- app_assoc.
    - by rewrite fmap_app.
    - by eexists. }
  destruct (Hg ps [] (InvAcc RAppend ∅)) as [l Hl]; [done|apply acc_small_new|]. by exists l.
Qed.

Lemma journal_ok ps l :
  journal_build ho ps = Some l →
  length l = length ps ∧ ∀ n p, ps !! n = Some p → ∃ e, l !! n = Some e ∧ entry_ok p (take n ps) e.
Proof using Hho. intros H. eapply (journal_from_ok _ []); [|exact H]. apply acc_inv_new. Qed.
End Exists.
