(** Proofs that hash map orders do not show in the client's reports. *)
From Coq Require Import Ascii QArith Sorted.
From stdpp Require Import prelude gmap strings.
From Verif Require Import DecModel LedgerTypes CljModel InventoryModel InventorySpec DecProofs OrderFacts InventoryFacts InventoryMain InventoryKinds
  RollupModel RollupSpec RollupFacts RollupMain.
Local Open Scope nat_scope.

(** ** Sorting *)
Lemma sorted_perm_eq {A} (R : A → A → Prop) (l1 l2 : list A) :
  (∀ x y, x ∈ l1 → y ∈ l1 → R x y → R y x → x = y) →
  StronglySorted R l1 → StronglySorted R l2 → l1 ≡ₚ l2 → l1 = l2.
Proof.
  intros Ha H1. revert l2 Ha. induction H1 as [|x l1 H1 IH Hx]; intros l2 Ha H2 Hp.
  { symmetry. by apply Permutation_nil. }
  destruct l2 as [|y l2]; [by apply Permutation_sym, Permutation_nil_cons in Hp|].
  apply StronglySorted_inv in H2 as [H2 Hy].
  assert (x = y) as ->.
  { assert (y ∈ x :: l1) as Hyl by (rewrite Hp; left).
    assert (x ∈ y :: l2) as Hxl by (rewrite <- Hp; left).
    rewrite Forall_forall in Hx, Hy.
    apply elem_of_cons in Hyl as [?|Hyl]; [done|]. apply elem_of_cons in Hxl as [?|Hxl]; [done|].
    apply Ha; [left|by right|by apply Hx|by apply Hy]. }
  f_equal. apply IH; [|done|by apply Permutation_cons_inv in Hp]. intros a b Hb Hc. apply Ha; by right.
Qed.
Lemma sort_by_perm_eq {A} (cmp : A → A → comparison) l1 l2 : good_cmp cmp →
  (∀ x y, x ∈ l1 → y ∈ l1 → cmp x y = Eq → x = y) → l1 ≡ₚ l2 → sort_by cmp l1 = sort_by cmp l2.
Proof.
  intros G He Hp. apply (sorted_perm_eq (λ a b, cmp a b ≠ Gt)); [|by apply sort_by_sorted..|by rewrite !sort_by_perm].
  intros x y Hx Hy H1 H2. rewrite sort_by_perm in Hx, Hy. apply He; [done..|].
  rewrite (gc_sym _ G x y) in H2. by destruct (cmp x y).
Qed.

(** ** Lots *)
Lemma cost_keys_equal p q : compare_cost_keys (position_key p) (position_key q) = Eq → equal_cost (pos_cost p) (pos_cost q).
Proof.
  unfold position_key, compare_cost_keys, equal_cost.
  destruct (pos_cost p) as [x|], (pos_cost q) as [y|]; try done.
  assert (∀ c d, different_or c d = Eq ↔ c = Eq ∧ d = Eq) as Hd by (intros [] []; cbn; naive_solver).
  assert (∀ l1 l2, compare_nil_first str_compare l1 l2 = Eq ↔ l1 = l2) as Hl'.
  { intros [l1|] [l2|]; cbn; try done. rewrite str_compare_eq. naive_solver. }
  assert (∀ m1 m2, compare_nil_first bool_compare m1 m2 = Eq ↔ m1 = m2) as Hb'.
  { intros [[]|] [[]|]; cbn; naive_solver. }
  rewrite !Hd, Hl', Hb', date_compare_eq, str_compare_eq, cn_compare_value, <- Qeq_alt. done.
Qed.

Section Two.
Context (ho1 ho2 : list (ckey * position) → list (ckey * position)) (H1 : ∀ l, ho1 l ≡ₚ l) (H2 : ∀ l, ho2 l ≡ₚ l).
Lemma sca_positions_same r cur hist s : sca_inv r cur hist s →
  (r = RMerge → ∀ p q, p ∈ hist → q ∈ hist → equal_cost (pos_cost p) (pos_cost q) → cost_kind (pos_cost p) = cost_kind (pos_cost q)) →
  sca_positions ho1 s = sca_positions ho2 s.
Proof using H1 H2.
  intros Hi Hk. destruct s as [m|]; [|done]. destruct r; [|done]. destruct Hi as (Hok&_&_&_&Hf).
  specialize (Hk eq_refl). cbn [sca_positions]. f_equal. destruct Hok as (Hkey&_&Hu).
  apply sort_by_perm_eq; [apply good_cost_keys| |by rewrite H1, H2].
  intros x y (e&->&He)%elem_of_list_fmap (f&->&Hf')%elem_of_list_fmap. rewrite H1 in He, Hf'.
  rewrite (Hkey e He), (Hkey f Hf'). intros Hc%cost_keys_equal.
  assert (e = f) as ->; [|done]. apply Hu; [done..|]. apply kind_same; [|done].
  destruct (Hf e He) as (p&Hp&Ep), (Hf f Hf') as (q&Hq&Eq). rewrite <- Ep, <- Eq. apply Hk; [done..|]. by rewrite Ep, Eq.
Qed.
Lemma positions_same r hist i : acc_inv r hist i →
  (r = RMerge → ∀ p q, p ∈ hist → q ∈ hist → pos_cur p = pos_cur q → equal_cost (pos_cost p) (pos_cost q) →
     cost_kind (pos_cost p) = cost_kind (pos_cost q)) →
  positions ho1 i = positions ho2 i.
Proof using H1 H2.
  intros [_ Hi] Hk. unfold positions. generalize (sort_strings ((λ e, e.1) <$> map_to_list (ia_scas i))). intros l.
  induction l as [|c l IH]; [done|]. cbn [mbind list_bind]. rewrite IH. f_equal. specialize (Hi c).
  destruct (ia_scas i !! c) as [s|]; [|done]. rewrite (sca_positions_same _ _ _ _ Hi); [done|].
  intros Hr p q. unfold of_cur. rewrite !elem_of_list_filter. intros [Hp ?] [Hq ?] He. apply Hk; [done..|congruence|done].
Qed.
Lemma inventory_same ps booking :
  (∀ p q, p ∈ ps → q ∈ ps → cp_acc p = cp_acc q → cp_cur p = cp_cur q → merges (booking (cp_acc p)) = true →
     equal_cost (cp_cost p) (cp_cost q) → cost_kind (cp_cost p) = cost_kind (cp_cost q)) →
  inventory_build ho1 ps booking = inventory_build ho2 ps booking.
Proof using H1 H2.
  intros Hk. unfold inventory_build. destruct (fold_opt _ _ ps) as [m|] eqn:E; [|done]. cbn [fmap option_fmap option_map]. f_equal.
  apply build_inv_fold in E. apply map_eq. intros acc. rewrite !lookup_omap. specialize (E acc).
  destruct (m !! acc) as [i|]; [|done]. destruct E as (r&Hr&Hi). cbn [mbind option_bind].
  rewrite (positions_same _ _ _ Hi); [done|]. intros -> p q.
  unfold hist_of. intros (x&->&[Hx Hx']%elem_of_list_filter)%elem_of_list_fmap (y&->&[Hy Hy']%elem_of_list_filter)%elem_of_list_fmap. cbn.
  intros Hc. apply Hk; [done..|congruence|done|]. rewrite Hx. by destruct (booking acc).
Qed.
Lemma journal_from_same st ps hist : acc_inv RAppend hist st → journal_from ho1 st ps = journal_from ho2 st ps.
Proof using H1 H2.
  revert st hist. induction ps as [|p ps IH]; intros st hist Hi; [done|]. cbn [journal_from].
  destruct (accumulate st _) as [st'|] eqn:E; [|done]. cbn [mbind option_bind].
  pose proof (acc_inv_step _ _ _ _ _ Hi E) as Hi'. rewrite (IH _ _ Hi').
  rewrite (positions_same _ _ _ Hi'); [done|discriminate].
Qed.
Lemma journal_same ps : journal_build ho1 ps = journal_build ho2 ps.
Proof using H1 H2. unfold journal_build. cbn. apply (journal_from_same _ _ []). apply acc_inv_new. Qed.
End Two.

(** ** Rollups *)
Lemma fold_left_perm {A B} (f : A → B → A) l1 l2 : (∀ r x y, f (f r x) y = f (f r y) x) → l1 ≡ₚ l2 → ∀ r, fold_left f l1 r = fold_left f l2 r.
Proof.
  intros Hf. induction 1 as [|x l1 l2 _ IH|x y l|l1 l2 l3 _ IH1 _ IH2]; intros r; cbn; [done|done|by rewrite Hf|by rewrite IH1].
Qed.
Section Rollup.
Context (ho1 ho2 : list (string * dec) → list (string * dec)) (H1 : ∀ l, ho1 l ≡ₚ l) (H2 : ∀ l, ho2 l ≡ₚ l).
Lemma total_units_same items : total_units ho1 items = total_units ho2 items.
Proof using H1 H2.
  unfold total_units. apply fold_left_perm; [|by rewrite H1, H2].
  intros r [k x] [k' y]. cbn. destruct (decide (k = k')) as [<-|Hne].
  - rewrite !lookup_insert, !insert_insert. cbn. rewrite <- !dec_add_assoc, (dec_add_comm y x). done.
  - rewrite !lookup_insert_ne by done. by apply insert_commute.
Qed.
Lemma max_depth_same items : max_depth ho1 items = max_depth ho2 items.
Proof using H1 H2. unfold max_depth. apply fold_left_perm; [lia|by rewrite H1, H2]. Qed.
Lemma rollup_build_same inv cur : rollup_build ho1 inv cur = rollup_build ho2 inv cur.
Proof using H1 H2.
  unfold rollup_build. cbv zeta. rewrite total_units_same, max_depth_same.
  apply fold_left_perm; [|by rewrite !H1, !H2].
  intros r x y. destruct (decide (x = y)) as [->|Hne]; [done|]. by apply insert_commute.
Qed.
Lemma max_key_unique l x : x ∈ l → (∀ e, e ∈ l → e ≠ x → e.2 < x.2) → max_key l = Some x.
Proof using.
  intros Hx Hm. destruct (max_key l) as [m|] eqn:E.
  - apply max_key_spec in E as [Hl Hg]. f_equal. destruct (decide (m = x)) as [?|Hne]; [done|].
    specialize (Hm m Hl Hne). specialize (Hg x Hx). lia.
  - destruct l; [inversion Hx|done].
Qed.
End Rollup.
