(** Lots whose costs are numerically equal, and the comparison of costs. *)
From Coq Require Import Ascii QArith Sorted.
From stdpp Require Import prelude gmap strings.
From Verif Require Import DecModel LedgerTypes CljModel InventoryModel InventorySpec DecProofs OrderFacts InventoryFacts InventoryMain.
Local Open Scope nat_scope.

Lemma same_cost_refl a : same_cost a a.
Proof. destruct a; cbn; [|done]. unfold same_number. naive_solver reflexivity. Qed.
Lemma same_cost_equal a b : same_cost a b → equal_cost a b.
Proof. destruct a, b; cbn; unfold same_number; naive_solver. Qed.
Lemma equal_cost_sym a b : equal_cost a b → equal_cost b a.
Proof. destruct a, b; cbn; [|done..]. intros (?&?&?&?&?). split_and!; by symmetry. Qed.
Lemma equal_cost_trans a b c : equal_cost a b → equal_cost b c → equal_cost a c.
Proof. destruct a, b, c; cbn; try done. intros (?&?&?&?&?) (?&?&?&?&?). split_and!; by etransitivity. Qed.
Lemma kind_same a b : cost_kind a = cost_kind b → equal_cost a b → same_cost a b.
Proof. destruct a, b; cbn; unfold same_number; naive_solver. Qed.

Lemma same_cost_kind a b : same_cost a b → cost_kind a = cost_kind b.
Proof. destruct a, b; cbn; try done. intros (_&_&[H _]&_). by rewrite H. Qed.

Lemma filter_ext_in {A} (P Q : A → Prop) `{!∀ x, Decision (P x), !∀ x, Decision (Q x)} (l : list A) :
  (∀ x, x ∈ l → P x ↔ Q x) → filter P l = filter Q l.
Proof.
  induction l as [|x l IH]; intros Hx; [done|]. rewrite !filter_cons.
  rewrite IH by (intros y Hy; apply Hx; by right).
  destruct (decide (P x)) as [p|p], (decide (Q x)) as [q|q]; try done; exfalso.
  - apply q, Hx; [by left|done].
  - apply p, Hx; [by left|done].
Qed.

Lemma filter_nil_not_elem_of' {A} (P : A → Prop) `{!∀ x, Decision (P x)} (l : list A) :
  (∀ x, x ∈ l → ¬ P x) → filter P l = [].
Proof.
  induction l as [|x l IH]; intros Hx; [done|]. rewrite filter_cons, decide_False by (apply Hx; by left).
  apply IH. intros y Hy. apply Hx. by right.
Qed.

Section Kinds.
Context (ho : list (ckey * position) → list (ckey * position)) (Hho : ∀ l, ho l ≡ₚ l).
Context (booking : string → booking).
Context (ps : list cposting) (inv : gmap string (list position)).
Context (Hb : inventory_build ho ps booking = Some inv).

Lemma position_posted acc q :
  merges (booking acc) = true → q ∈ holding inv acc →
  ∃ p, p ∈ ps ∧ cp_acc p = acc ∧ cp_cur p = pos_cur q ∧ same_cost (cp_cost p) (pos_cost q).
Proof using All.
  intros Hm Hq. pose proof (merged ho Hho booking ps inv Hb acc (pos_cur q) (pos_cost q) Hm) as M.
  unfold posted_at in M.
  destruct (filter (λ p, cp_acc p = acc ∧ cp_cur p = pos_cur q ∧ same_cost (cp_cost p) (pos_cost q)) ps) as [|p l] eqn:E.
  - destruct M as [[_ M]|[M _]]; [|exfalso; apply M; reflexivity].
    assert (q ∈ filter (λ p, pos_cur p = pos_cur q ∧ same_cost (pos_cost p) (pos_cost q)) (holding inv acc)) as Hin.
    { apply elem_of_list_filter. split; [split; [done|apply same_cost_refl]|done]. }
    rewrite M in Hin. inversion Hin.
  - exists p. assert (p ∈ p :: l) as Hp by by left. rewrite <- E in Hp.
    apply elem_of_list_filter in Hp as [(?&?&?) ?]. naive_solver.
Qed.

(** The cost of a position is exactly that of a posting. *)
Lemma position_cost_posted acc q :
  merges (booking acc) = true → q ∈ holding inv acc →
  ∃ p, p ∈ ps ∧ cp_acc p = acc ∧ cp_cur p = pos_cur q ∧ cp_cost p = pos_cost q.
Proof using All.
  intros Hm Hq. destruct (holding_positions ho booking ps inv Hb acc) as [(i&r&Hr&Hi&Hh)|[_ Hh]];
    [|rewrite Hh in Hq; by apply elem_of_nil in Hq].
  rewrite Hh in Hq. assert (q ∈ of_cur (pos_cur q) (positions ho i)) as Hc.
  { unfold of_cur. by apply elem_of_list_filter. }
  rewrite (positions_of_cur ho Hho r (hist_of acc ps) i (pos_cur q) Hi) in Hc.
  destruct Hi as [_ Hi]. specialize (Hi (pos_cur q)).
  destruct (ia_scas i !! pos_cur q) as [s|]; [|by apply elem_of_nil in Hc].
  apply elem_of_list_filter in Hc as [_ Hc].
  assert (r = RMerge) as -> by (destruct (booking acc); cbn in *; congruence).
  destruct s as [m|]; [|done]. destruct Hi as (Hok&_&_&_&He).
  rewrite (lots_listed ho Hho m Hok) in Hc. apply elem_of_list_fmap in Hc as (e&->&Hin).
  destruct (He e Hin) as (p&Hp&Hcost). rewrite of_cur_hist in Hp. apply elem_of_list_fmap in Hp as (p'&->&Hp').
  apply elem_of_list_filter in Hp' as [[Ha Hc'] Hp']. exists p'. split_and!; done.
Qed.
(** Lots with one posting keep its total. *)
Lemma single_lot acc q :
  merges (booking acc) = true → q ∈ holding inv acc →
  (∀ p p' i j, ps !! i = Some p → ps !! j = Some p' → cp_acc p = acc → cp_acc p' = acc →
     cp_cur p = cp_cur p' → same_cost (cp_cost p) (cp_cost p') → i = j) →
  ∃ p, p ∈ ps ∧ cp_acc p = acc ∧ cp_cur p = pos_cur q ∧ cp_cost p = pos_cost q ∧ (cn_value (cp_units p) == cn_value (pos_units q))%Q.
Proof using All.
  intros Hm Hq Hone. destruct (position_cost_posted acc q Hm Hq) as (p&Hp&Ha&Hc&Hcost).
  exists p. split_and!; try done.
  pose proof (merged ho Hho booking ps inv Hb acc (pos_cur q) (pos_cost q) Hm) as M. unfold posted_at in M.
  assert (q ∈ filter (λ p, pos_cur p = pos_cur q ∧ same_cost (pos_cost p) (pos_cost q)) (holding inv acc)) as Hin.
  { apply elem_of_list_filter. split; [split; [done|apply same_cost_refl]|done]. }
  destruct M as [[_ M]|[_ (q'&M&Hv)]]; rewrite M in Hin; [by apply elem_of_nil in Hin|].
  apply elem_of_list_singleton in Hin as <-. rewrite Hv.
  assert (filter (λ p, cp_acc p = acc ∧ cp_cur p = pos_cur q ∧ same_cost (cp_cost p) (pos_cost q)) ps = [p]) as ->; [|cbn; ring].
  clear M Hv Hm Hb. apply elem_of_list_split in Hp as (l1&l2&Hs). rewrite Hs.
  rewrite filter_app, filter_cons, decide_True by (split_and!; [done..|rewrite Hcost; apply same_cost_refl]).
  rewrite (filter_nil_not_elem_of' _ l1), (filter_nil_not_elem_of' _ l2); [done| |].
  - intros x Hx (Hxa&Hxc&Hxs). apply elem_of_list_lookup in Hx as [k Hk].
    assert (length l1 = length l1 + S k) as E; [|lia].
    apply (Hone p x); try done; [rewrite Hs; by apply list_lookup_middle| |congruence|].
    + rewrite Hs. rewrite lookup_app_r by lia. replace (length l1 + S k - length l1) with (S k) by lia. done.
    + rewrite Hcost. destruct (cp_cost x), (pos_cost q); cbn in *; try done. unfold same_number in *.
      destruct Hxs as (?&?&[? ?]&?&?). split_and!; by symmetry.
  - intros x Hx (Hxa&Hxc&Hxs). apply elem_of_list_lookup in Hx as [k Hk].
    assert (k = length l1) as E.
    { apply (Hone x p); try done; [| |congruence|by rewrite Hcost].
      - rewrite Hs. by apply lookup_app_l_Some.
      - rewrite Hs. by apply list_lookup_middle. }
    apply lookup_lt_Some in Hk. lia.
Qed.

Lemma equal_merged acc cur cost :
  merges (booking acc) = true →
  (∀ p q, p ∈ ps → q ∈ ps → cp_acc p = acc → cp_acc q = acc → cp_cur p = cur → cp_cur q = cur →
    equal_cost (cp_cost p) (cp_cost q) → cost_kind (cp_cost p) = cost_kind (cp_cost q)) →
  one_unless_zero (posted_equal acc cur cost ps)
    (filter (λ p, pos_cur p = cur ∧ equal_cost (pos_cost p) cost) (holding inv acc)).
Proof using All.
  intros Hm Hk. unfold posted_equal.
  destruct (filter (λ p, cp_acc p = acc ∧ cp_cur p = cur ∧ equal_cost (cp_cost p) cost) ps) as [|p l] eqn:E.
  - left. split; [reflexivity|]. apply filter_nil_not_elem_of' . intros q Hq [Hc He].
    destruct (position_posted acc q Hm Hq) as (p&Hp&Ha&Hc'&Hs).
    assert (p ∈ filter (λ p, cp_acc p = acc ∧ cp_cur p = cur ∧ equal_cost (cp_cost p) cost) ps) as Hin.
    { apply elem_of_list_filter. split; [|done]. split_and!; [done|congruence|].
      eapply equal_cost_trans; [by apply same_cost_equal|done]. }
    rewrite E in Hin. inversion Hin.
  - assert (p ∈ ps ∧ cp_acc p = acc ∧ cp_cur p = cur ∧ equal_cost (cp_cost p) cost) as (Hp&Ha&Hc&He).
    { assert (p ∈ p :: l) as Hp by by left. rewrite <- E in Hp. apply elem_of_list_filter in Hp. tauto. }
    pose proof (merged ho Hho booking ps inv Hb acc cur (cp_cost p) Hm) as M. unfold posted_at in M.
    rewrite <- E.
    rewrite (filter_ext_in _ (λ q, cp_acc q = acc ∧ cp_cur q = cur ∧ same_cost (cp_cost q) (cp_cost p)) ps).
    2:{ intros q Hq. split.
        - intros (Ha'&Hc'&He'). split_and!; [done..|].
          assert (equal_cost (cp_cost q) (cp_cost p)) as Heq by (eapply equal_cost_trans; [done|by apply equal_cost_sym]).
          apply kind_same; [|done]. by apply Hk.
        - intros (Ha'&Hc'&He'). split_and!; [done..|]. eapply equal_cost_trans; [by apply same_cost_equal|done]. }
    rewrite (filter_ext_in _ (λ q, pos_cur q = cur ∧ same_cost (pos_cost q) (cp_cost p)) (holding inv acc)); [done|].
    intros q Hq. split.
    + intros [Hc' He']. split; [done|].
      destruct (position_posted acc q Hm Hq) as (p'&Hp'&Ha''&Hc''&Hs').
      assert (equal_cost (cp_cost p') (cp_cost p)) as Heq.
      { eapply equal_cost_trans; [by apply same_cost_equal|]. eapply equal_cost_trans; [done|by apply equal_cost_sym]. }
      apply kind_same; [|eapply equal_cost_trans; [done|by apply equal_cost_sym]].
      rewrite <- (Hk p' p); [|congruence..|done].
      symmetry. by apply same_cost_kind.
    + intros [Hc' He']. split; [done|]. eapply equal_cost_trans; [by apply same_cost_equal|done].
Qed.
End Kinds.

(** ** The comparison of lots *)

Definition cmp_position (p q : position) : comparison :=
  different_or (str_compare (pos_cur p) (pos_cur q)) (compare_cost_keys (position_key p) (position_key q)).
Lemma good_position : good_cmp cmp_position.
Proof.
  apply (good_lex (λ p q, str_compare (pos_cur p) (pos_cur q)) (λ p q, compare_cost_keys (position_key p) (position_key q))).
  - apply (good_map pos_cur), good_str.
  - apply (good_map position_key), good_cost_keys.
Qed.
Lemma position_before_cmp p q : position_before p q ↔ cmp_position q p = Gt.
Proof.
  unfold position_before, cmp_position. rewrite <- not_Gt_key.
  destruct (str_compare (pos_cur q) (pos_cur p)) eqn:E; cbn.
  - apply str_compare_eq in E. rewrite E. split; [|by right].
    intros [H|[_ H]]; [|done]. by apply before_irrefl in H.
  - apply str_compare_lt in E. split; [|done]. intros [H|[H _]].
    + exfalso. eapply before_asym; eassumption.
    + rewrite H in E. by apply before_irrefl in E.
  - split; [done|]. intros _. left. apply str_compare_lt.
    by rewrite (gc_sym _ good_str (pos_cur q) (pos_cur p)), E.
Qed.
Lemma position_before_weak_order :
  (∀ p q, position_before p q → ¬ position_before q p) ∧
  (∀ p q r, position_before p q → position_before q r → position_before p r) ∧
  (∀ p q r, ¬ position_before p q → ¬ position_before q r → ¬ position_before p r).
Proof.
  setoid_rewrite position_before_cmp. split_and!.
  - intros p q. rewrite (gc_sym _ good_position p q). by destruct (cmp_position p q).
  - intros p q r H1 H2. rewrite (gc_sym _ good_position p r).
    rewrite (gc_sym _ good_position p q) in H1. rewrite (gc_sym _ good_position q r) in H2.
    rewrite (gc_lt_trans _ good_position p q r); [done| |].
    + by destruct (cmp_position p q).
    + by destruct (cmp_position q r).
  - intros p q r H1 H2. exact (gc_trans _ good_position r q p H2 H1).
Qed.
