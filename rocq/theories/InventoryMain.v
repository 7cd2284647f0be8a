(** The theorems about inventories and journals. *)
From Coq Require Import Ascii QArith Sorted.
From stdpp Require Import prelude gmap strings.
From Verif Require Import DecModel LedgerTypes CljModel InventoryModel InventorySpec DecProofs OrderFacts InventoryFacts.
Local Open Scope nat_scope.

Definition hist_of (acc : string) (ps : list cposting) : list position :=
  to_position <$> filter (λ p, cp_acc p = acc) ps.

Lemma of_cur_hist acc cur ps :
  of_cur cur (hist_of acc ps) = to_position <$> filter (λ p, cp_acc p = acc ∧ cp_cur p = cur) ps.
Proof.
  unfold of_cur, hist_of. induction ps as [|p ps IH]; [done|]. rewrite !filter_cons.
  destruct (decide (cp_acc p = acc)), (decide (cp_acc p = acc ∧ cp_cur p = cur)) as [H|H]; try tauto.
  - rewrite fmap_cons, filter_cons_True by (cbn; tauto). by rewrite IH.
  - rewrite fmap_cons, filter_cons_False by (cbn; tauto). by rewrite IH.
Qed.
Lemma psum_posted acc cur ps : psum (of_cur cur (hist_of acc ps)) = posted acc cur ps.
Proof. rewrite of_cur_hist. unfold psum, posted. by rewrite <- list_fmap_compose. Qed.

Lemma fmap_to_position_filter (P : position → Prop) `{!∀ p, Decision (P p)} (Q : cposting → Prop) `{!∀ p, Decision (Q p)} (ps : list cposting) :
  (∀ p, P (to_position p) ↔ Q p) → filter P (to_position <$> ps) = to_position <$> filter Q ps.
Proof.
  intros HPQ. induction ps as [|p ps IH]; [done|]. rewrite fmap_cons, !filter_cons, IH.
  specialize (HPQ p). destruct (decide _), (decide (Q p)); tauto.
Qed.
Lemma filter_and {A} (P Q R : A → Prop) `{!∀ p, Decision (P p), !∀ p, Decision (Q p), !∀ p, Decision (R p)} (l : list A) :
  (∀ x, R x ↔ Q x ∧ P x) → filter P (filter Q l) = filter R l.
Proof.
  intros HR. induction l as [|x l IH]; [done|]. specialize (HR x). rewrite !filter_cons.
  destruct (decide (Q x)), (decide (R x)); rewrite ?filter_cons, ?IH; destruct (decide (P x)); tauto.
Qed.

Section Build.
Context (ho : list (ckey * position) → list (ckey * position)) (Hho : ∀ l, ho l ≡ₚ l).
Context (booking : string → booking).

Definition build_inv (ps : list cposting) (m : gmap string inv_acc) : Prop :=
  ∀ acc, match m !! acc with
         | Some i => ∃ r, booking_rule (booking acc) = Some r ∧ acc_inv r (hist_of acc ps) i
         | None => filter (λ p, cp_acc p = acc) ps = []
         end.
Lemma build_inv_fold ps m : fold_opt (build_step booking) ∅ ps = Some m → build_inv ps m.
Proof.
  assert (∀ p1 p0 m0, build_inv p0 m0 → fold_opt (build_step booking) m0 p1 = Some m → build_inv (p0 ++ p1) m) as Hg.
  { induction p1 as [|p p1 IH]; intros p0 m0 Hi; cbn.
    - intros [= <-]. by rewrite app_nil_r.
    - destruct (build_step booking m0 p) as [m1|] eqn:E; [|done]. intros Hf.
      replace (p0 ++ p :: p1) with ((p0 ++ [p]) ++ p1) by by rewrite <- app_assoc.
      apply (IH _ m1); [|done]. clear IH Hf. unfold build_step in E.
      destruct (match m0 !! cp_acc p with Some i => Some i | None => accumulator (booking (cp_acc p)) end) as [i|] eqn:Ei; [|done].
      cbn in E. destruct (accumulate i (to_position p)) as [i'|] eqn:Ea; [|done]. cbn in E. injection E as <-.
      intros acc. specialize (Hi acc). unfold hist_of in *. rewrite filter_app. cbn [filter list_filter].
      destruct (decide (cp_acc p = acc)) as [<-|Hne].
      + rewrite lookup_insert. rewrite fmap_app. cbn [fmap list_fmap].
        destruct (m0 !! cp_acc p) as [i0|].
        * injection Ei as ->. destruct Hi as (r & Hr & Hi). exists r. split; [done|]. by eapply acc_inv_step.
        * unfold accumulator in Ei. destruct (booking_rule (booking (cp_acc p))) as [r|]; [|done]. injection Ei as <-.
          exists r. split; [done|]. rewrite Hi. cbn [fmap list_fmap]. eapply (acc_inv_step r []); [apply acc_inv_new|done].
      + rewrite lookup_insert_ne by done. rewrite app_nil_r. done. }
  intros Hf. apply (Hg ps [] ∅); [|done]. intros acc. by rewrite lookup_empty.
Qed.

Context (ps : list cposting) (inv : gmap string (list position)).
Context (Hb : inventory_build ho ps booking = Some inv).

Lemma holding_positions acc :
  (∃ i r, booking_rule (booking acc) = Some r ∧ acc_inv r (hist_of acc ps) i ∧ holding inv acc = positions ho i) ∨
  (filter (λ p, cp_acc p = acc) ps = [] ∧ holding inv acc = []).
Proof using Hb.
  unfold inventory_build in Hb. destruct (fold_opt _ _ ps) as [m|] eqn:E; [|done]. injection Hb as <-.
  apply build_inv_fold in E. specialize (E acc). unfold holding. rewrite lookup_omap.
  destruct (m !! acc) as [i|]; [|by right]. left. destruct E as (r & Hr & Hi). exists i, r. split; [done|]. split; [done|].
  cbn. by destruct (positions ho i).
Qed.

Lemma held_is_posted acc cur : (held cur (holding inv acc) == posted acc cur ps)%Q.
Proof using Hb Hho.
  destruct (holding_positions acc) as [(i & r & Hr & Hi & ->)|[H ->]].
  - unfold held. change (psum (of_cur cur (positions ho i)) == posted acc cur ps)%Q.
    rewrite <- psum_posted. by eapply positions_held.
  - rewrite <- psum_posted. unfold hist_of. by rewrite H.
Qed.
Lemma no_empty_positions acc l p : inv !! acc = Some l → l ≠ [] ∧ (p ∈ l → ¬ cn_value (pos_units p) == 0)%Q.
Proof using Hb.
  unfold inventory_build in Hb. destruct (fold_opt _ _ ps) as [m|] eqn:E; [|done]. injection Hb as <-.
  rewrite lookup_omap. destruct (m !! acc) as [i|]; [|done]. cbn.
  destruct (positions ho i) as [|q l'] eqn:Ep; [done|]. intros [= <-]. split; [done|].
  rewrite <- Ep. intros Hp%positions_nonzero Hz%cn_is_zero_value. congruence.
Qed.

Lemma same_cost_filter_ext c (l : list cposting) :
  filter (λ p, same_cost (pos_cost p) c) (to_position <$> l) =
  to_position <$> filter (λ p, same_cost (cp_cost p) c) l.
Proof using. apply fmap_to_position_filter. done. Qed.

Lemma psum_posted_at acc cur cost :
  psum (filter (λ p, same_cost (pos_cost p) cost) (of_cur cur (hist_of acc ps))) = posted_at acc cur cost ps.
Proof using.
  rewrite of_cur_hist, same_cost_filter_ext. unfold psum, posted_at. rewrite <- list_fmap_compose.
  rewrite (filter_and _ _ (λ p, cp_acc p = acc ∧ cp_cur p = cur ∧ same_cost (cp_cost p) cost)); [done|]. tauto.
Qed.

Lemma unique_filter (P : position → Prop) `{!∀ p, Decision (P p)} (l : list _) :
  NoDup l → (∀ p q, p ∈ l → q ∈ l → P p → P q → p = q) → filter P l = [] ∨ ∃ p, filter P l = [p].
Proof using.
  intros Hn Hu. destruct (filter P l) as [|p l'] eqn:E; [by left|]. right. exists p. f_equal.
  destruct l' as [|q l']; [done|]. exfalso.
  assert (NoDup (filter P l)) as Hn' by by apply NoDup_filter.
  assert (∀ x, x ∈ filter P l → x ∈ l ∧ P x) as Hx by (intros x; rewrite elem_of_list_filter; tauto).
  rewrite E in Hn', Hx. assert (p = q) as ->.
  { destruct (Hx p) as [? ?]; [left|]. destruct (Hx q) as [? ?]; [right; left|]. by apply Hu. }
  apply NoDup_cons in Hn' as [Hn' _]. apply Hn'. left.
Qed.

Lemma merged acc cur cost :
  merges (booking acc) = true →
  one_unless_zero (posted_at acc cur cost ps)
    (filter (λ p, pos_cur p = cur ∧ same_cost (pos_cost p) cost) (holding inv acc)).
Proof using Hb Hho.
  intros Hm. rewrite <- (filter_and (λ p, same_cost (pos_cost p) cost) (λ p, pos_cur p = cur) (λ p, pos_cur p = cur ∧ same_cost (pos_cost p) cost)) by tauto.
  rewrite <- psum_posted_at.
  destruct (holding_positions acc) as [(i & r & Hr & Hi & ->)|[H ->]].
  2:{ left. split; [|done]. unfold hist_of. by rewrite H. }
  change (filter (λ p, pos_cur p = cur) (positions ho i)) with (of_cur cur (positions ho i)).
  rewrite (positions_of_cur ho Hho r _ i cur Hi). destruct Hi as [_ Hi]. specialize (Hi cur).
  destruct (ia_scas i !! cur) as [s|]; [|left; by rewrite Hi].
  assert (r = RMerge) as -> by (destruct (booking acc); try done; cbn in Hr; congruence).
  destruct s as [m|]; [|done]. destruct Hi as (Hok & Hc & Hsum & Hsums & Hfrom).
  specialize (Hsums cost). pose proof (lots_listed ho Hho m Hok) as Hl.
  assert (psum (filter (λ p, same_cost (pos_cost p) cost) (sca_positions ho (ScaMerge m))) ==
          psum (filter (λ p, same_cost (pos_cost p) cost) (of_cur cur (hist_of acc ps))))%Q as Hs.
  { rewrite <- Hsums. apply psum_perm. by rewrite Hl. }
  destruct Hok as (Hk & Hn & Hu).
  destruct (unique_filter (λ p, same_cost (pos_cost p) cost) (sca_positions ho (ScaMerge m))) as [He|[p He]].
  { by rewrite Hl. }
  { intros p q. rewrite Hl. intros (e & -> & He)%elem_of_list_fmap (f & -> & Hf)%elem_of_list_fmap H1 H2.
    f_equal. apply Hu; [done..|]. eapply same_cost_trans; [done|]. by apply same_cost_sym. }
  - rewrite He in Hs. left. split; [rewrite <- Hs; reflexivity|].
    rewrite (filter_and _ _ (λ p, cn_is_zero (pos_units p) = false ∧ same_cost (pos_cost p) cost)) by tauto.
    rewrite <- (filter_and (λ p, cn_is_zero (pos_units p) = false) (λ p, same_cost (pos_cost p) cost) (λ p, cn_is_zero (pos_units p) = false ∧ same_cost (pos_cost p) cost)) by tauto.
    by rewrite He.
  - rewrite He in Hs.
    rewrite (filter_and _ _ (λ p, cn_is_zero (pos_units p) = false ∧ same_cost (pos_cost p) cost)) by tauto.
    rewrite <- (filter_and (λ p, cn_is_zero (pos_units p) = false) (λ p, same_cost (pos_cost p) cost) (λ p, cn_is_zero (pos_units p) = false ∧ same_cost (pos_cost p) cost)) by tauto.
    rewrite He. rewrite psum_cons in Hs. change (psum []) with 0%Q in Hs. rewrite Qplus_0_r in Hs.
    cbn [filter list_filter]. destruct (decide (cn_is_zero (pos_units p) = false)) as [E|E].
    + right. split; [|exists p; split; [done|exact Hs]]. rewrite <- Hs. intros Hz%cn_is_zero_value. congruence.
    + left. split; [|done]. rewrite <- Hs. by apply cn_is_zero_value, not_false_is_true.
Qed.

Lemma kept_apart acc cur :
  keeps_apart (booking acc) = true →
  ∃ simple,
    filter (λ p, pos_cur p = cur) (holding inv acc) =
    simple ++ filter (λ p, ¬ (cn_value (pos_units p) == 0)%Q)
      (to_position <$> filter (λ p, cp_acc p = acc ∧ cp_cur p = cur ∧ cp_cost p ≠ None) ps) ∧
    one_unless_zero (posted_at acc cur None ps) simple ∧ Forall (λ p, pos_cost p = None) simple.
Proof using Hb Hho.
  intros Hm.
  assert (∀ l : list position, filter (λ p, ¬ (cn_value (pos_units p) == 0)%Q) l = filter (λ p, cn_is_zero (pos_units p) = false) l) as Hnz.
  { induction l as [|p l IH]; [done|]. rewrite !filter_cons, IH.
    pose proof (cn_is_zero_value (pos_units p)).
    destruct (decide (¬ _)), (decide (cn_is_zero _ = false)), (cn_is_zero (pos_units p)); try done; naive_solver. }
  rewrite Hnz. rewrite <- psum_posted_at.
  assert (to_position <$> filter (λ p, cp_acc p = acc ∧ cp_cur p = cur ∧ cp_cost p ≠ None) ps =
          filter (λ p, pos_cost p ≠ None) (of_cur cur (hist_of acc ps))) as ->.
  { rewrite of_cur_hist. rewrite (fmap_to_position_filter _ (λ p, cp_cost p ≠ None)) by done.
    rewrite (filter_and _ _ (λ p, cp_acc p = acc ∧ cp_cur p = cur ∧ cp_cost p ≠ None)); [done|]. tauto. }
  destruct (holding_positions acc) as [(i & r & Hr & Hi & ->)|[H ->]].
  2:{ exists []. unfold hist_of. rewrite H. split; [done|]. split; [by left|constructor]. }
  change (filter (λ p, pos_cur p = cur) (positions ho i)) with (of_cur cur (positions ho i)).
  rewrite (positions_of_cur ho Hho r _ i cur Hi). destruct Hi as [_ Hi]. specialize (Hi cur).
  destruct (ia_scas i !! cur) as [s|].
  2:{ exists []. rewrite Hi. split; [done|]. split; [by left|constructor]. }
  assert (r = RAppend) as -> by (destruct (booking acc); try done; cbn in Hr; congruence).
  destruct s as [m|simple at_cost]; [done|]. destruct Hi as (Hs & Hat & Hac).
  assert (∀ l : list position, filter (λ p, same_cost (pos_cost p) None) l = filter (λ p, pos_cost p = None) l) as Hsame.
  { induction l as [|p l IH]; [done|]. rewrite !filter_cons, IH.
    destruct (pos_cost p) eqn:E, (decide (same_cost _ None)), (decide (_ = None)); try done; cbn in *; tauto. }
  rewrite Hsame. cbn [sca_positions]. destruct simple as [p|].
  - destruct Hs as (H1 & H2 & H3). rewrite filter_cons, Hat.
    destruct (decide (cn_is_zero (pos_units p) = false)) as [E|E].
    + exists [p]. split; [done|]. split; [|by repeat constructor].
      right. split; [|by exists p]. rewrite <- H3. intros Hz%cn_is_zero_value. congruence.
    + exists []. split; [done|]. split; [|constructor]. left. split; [|done].
      rewrite <- H3. by apply cn_is_zero_value, not_false_is_true.
  - exists []. rewrite Hs, Hat. split; [done|]. split; [by left|constructor].
Qed.

(** Order. *)
Lemma not_Gt_key a b : compare_cost_keys (position_key a) (position_key b) = Gt ↔
  absent_first cheaper (pos_cost b) (pos_cost a).
Proof using.
  rewrite (gc_sym _ good_cost_keys (position_key b) (position_key a)).
  assert (∀ c, CompOpp c = Gt ↔ c = Lt) as -> by by intros [].
  unfold position_key, compare_cost_keys, absent_first, cheaper.
  destruct (pos_cost b) as [x|], (pos_cost a) as [y|]; try done.
  assert (∀ c d, different_or c d = Lt ↔ c = Lt ∨ (c = Eq ∧ d = Lt)) as Hd by (intros [] []; cbn; naive_solver).
  assert (∀ l1 l2, compare_nil_first str_compare l1 l2 = Lt ↔ absent_first before l1 l2) as Hl.
  { intros [l1|] [l2|]; cbn; try done. apply str_compare_lt. }
  assert (∀ l1 l2, compare_nil_first str_compare l1 l2 = Eq ↔ l1 = l2) as Hl'.
  { intros [l1|] [l2|]; cbn; try done. rewrite str_compare_eq. naive_solver. }
  assert (∀ m1 m2, compare_nil_first bool_compare m1 m2 = Lt ↔ absent_first (λ x y, x = false ∧ y = true) m1 m2) as Hb'.
  { intros [[]|] [[]|]; cbn; naive_solver. }
  rewrite !Hd, Hl, Hl', Hb', date_compare_lt, date_compare_eq, str_compare_lt, str_compare_eq, !cn_compare_value, <- Qlt_alt, <- Qeq_alt.
  done.
Qed.

Lemma StronglySorted_filter {A} (R : A → A → Prop) (P : A → Prop) `{!∀ p, Decision (P p)} (l : list _) :
  StronglySorted R l → StronglySorted R (filter P l).
Proof using.
  induction 1 as [|x l Hs IH Hf]; [constructor|]. rewrite filter_cons. destruct (decide _); [|done].
  constructor; [done|]. rewrite Forall_forall in Hf |- *. intros y [_ Hy]%elem_of_list_filter. auto.
Qed.

Lemma before_irrefl s : ¬ before s s.
Proof using. intros H%str_compare_lt. rewrite (gc_refl _ good_str) in H. done. Qed.
Lemma before_asym s t : before s t → ¬ before t s.
Proof using. intros H%str_compare_lt H'%str_compare_lt. rewrite (gc_sym _ good_str s t), H in H'. done. Qed.

Lemma listed_in_order acc :
  merges (booking acc) = true →
  StronglySorted (λ p q, ¬ position_before q p) (holding inv acc).
Proof using Hb Hho.
  intros Hm. destruct (holding_positions acc) as [(i & r & Hr & Hi & ->)|[H ->]]; [|constructor].
  eapply positions_sorted_gen; [done|done| |].
  - intros p q Hpq [H|[H _]]; [by eapply before_asym|]. rewrite H in Hpq. by eapply before_irrefl.
  - intros c s Hs. apply StronglySorted_filter. destruct Hi as [_ Hi]. specialize (Hi c). rewrite Hs in Hi.
    assert (r = RMerge) as -> by (destruct (booking acc); try done; cbn in Hr; congruence).
    destruct s as [m|]; [|done]. pose proof (sca_positions_cur ho Hho _ _ _ _ Hi) as Hcur. destruct Hi as (Hok & _).
    pose proof (lots_order ho Hho m Hok) as Ho. revert Hcur. clear -Ho.
    induction Ho as [|p l Hl IH Hf]; intros Hcur; [constructor|]. constructor.
    + apply IH. intros. apply Hcur. by right.
    + rewrite Forall_forall in Hf |- *. intros q Hq [H|[_ H]].
      * rewrite (Hcur p), (Hcur q) in H by (first [left | by right]). by eapply before_irrefl.
      * apply (Hf q Hq). by apply not_Gt_key.
Qed.
Lemma listed_in_order_append acc :
  keeps_apart (booking acc) = true →
  StronglySorted (λ p q, ¬ (before (pos_cur q) (pos_cur p) ∨ (pos_cur q = pos_cur p ∧ pos_cost q = None))) (holding inv acc).
Proof using Hb Hho.
  intros Hm. destruct (holding_positions acc) as [(i & r & Hr & Hi & ->)|[H ->]]; [|constructor].
  eapply positions_sorted_gen; [done|done| |].
  - intros p q Hpq [H|[H _]]; [by eapply before_asym|]. rewrite H in Hpq. by eapply before_irrefl.
  - intros c s Hs. apply StronglySorted_filter. destruct Hi as [_ Hi]. specialize (Hi c). rewrite Hs in Hi.
    assert (r = RAppend) as -> by (destruct (booking acc); try done; cbn in Hr; congruence).
    destruct s as [|simple at_cost]; [done|]. pose proof (sca_positions_cur ho Hho _ _ _ _ Hi) as Hcur.
    destruct Hi as (H1 & H2 & H3).
    assert (∀ p q, p ∈ sca_positions ho (ScaAppend simple at_cost) → q ∈ at_cost →
      ¬ (before (pos_cur q) (pos_cur p) ∨ (pos_cur q = pos_cur p ∧ pos_cost q = None))) as Hr'.
    { intros p q Hp Hq [H|[_ H]].
      - rewrite (Hcur p), (H3 q) in H by done. by eapply before_irrefl.
      - rewrite H2 in Hq. apply elem_of_list_filter in Hq as [Hq _]. done. }
    assert (∀ l, (∀ q, q ∈ l → q ∈ at_cost ∧ q ∈ sca_positions ho (ScaAppend simple at_cost)) →
      StronglySorted (λ p q, ¬ (before (pos_cur q) (pos_cur p) ∨ (pos_cur q = pos_cur p ∧ pos_cost q = None))) l) as Hl.
    { induction l as [|q l IH]; intros Hq; constructor.
      - apply IH. intros. apply Hq. by right.
      - apply Forall_forall. intros q' Hq'. apply Hr'; [apply Hq; left|apply Hq; by right]. }
    cbn [sca_positions] in *. destruct simple as [p|]; [|by apply Hl].
    constructor.
    + apply Hl. intros q Hq. split; [done|by right].
    + apply Forall_forall. intros q Hq. apply Hr'; [left|done].
Qed.
End Build.

