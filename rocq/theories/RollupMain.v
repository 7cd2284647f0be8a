From Coq Require Import Ascii QArith Sorted.
From stdpp Require Import prelude gmap strings.
From Verif Require Import DecModel DecProofs LedgerTypes CljModel InventoryModel InventorySpec OrderFacts InventoryFacts
  InventoryMain ClientSpec ClientFacts RollupModel RollupSpec RollupFacts.
Local Open Scope nat_scope.

Lemma count_bind {A} (f : A → list string) (l : list A) c :
  count c (x ← l; f x) = sum_list ((λ x, count c (f x)) <$> l).
Proof.
  induction l as [|x l IH]; [done|]. cbn [mbind list_bind fmap list_fmap]. unfold count in *. rewrite filter_app, app_length.
  cbn [sum_list]. by rewrite IH.
Qed.
Lemma count_nodup c l : NoDup l → count c l = if decide (c ∈ l) then 1 else 0.
Proof.
  induction 1 as [|x l Hx _ IH]; [done|]. unfold count in *. rewrite filter_cons. destruct (decide (x = c)) as [->|Hne].
  - cbn [length]. rewrite IH, decide_False by done. by rewrite decide_True by (by left).
  - rewrite IH. destruct (decide (c ∈ l)), (decide (c ∈ x :: l)) as [Hin|Hin]; try done.
    + destruct Hin. by right.
    + apply elem_of_cons in Hin as [?|?]; congruence.
Qed.
Lemma count_holders inv cur : count cur (e ← map_to_list inv; currencies_of e.2) = holders inv cur.
Proof.
  rewrite count_bind. unfold holders. induction (map_to_list inv) as [|e l IH]; [done|].
  cbn [fmap list_fmap sum_list]. rewrite filter_cons, IH, count_nodup by apply currencies_of_nodup.
  destruct (decide (cur ∈ currencies_of e.2)) as [H|H], (decide (Exists _ e.2)) as [H'|H']; try done.
  - destruct H'. by apply currencies_of_spec.
  - destruct H. by apply currencies_of_spec.
Qed.
Lemma cur_freq_spec inv cur :
  cur_freq inv !! cur = if decide (holders inv cur = 0) then None else Some (holders inv cur).
Proof. unfold cur_freq. rewrite freq_fold, count_holders. done. Qed.

Lemma max_key_spec l m : max_key l = Some m → m ∈ l ∧ ∀ e, e ∈ l → e.2 ≤ m.2.
Proof.
  destruct l as [|x l]; [done|]. cbn [max_key]. intros [= <-].
  assert (∀ l x, let m := fold_left (λ m e : string * nat, if m.2 <=? e.2 then e else m) l x in
    (m = x ∨ m ∈ l) ∧ x.2 ≤ m.2 ∧ ∀ e, e ∈ l → e.2 ≤ m.2) as H.
  { clear. induction l as [|y l IH]; intros x; cbn [fold_left].
    - split_and!; [by left|done|]. intros e He. by apply elem_of_nil in He.
    - cbn zeta in IH. destruct (IH (if x.2 <=? y.2 then y else x)) as (H1&H2&H3). cbn zeta.
      destruct (Nat.leb_spec x.2 y.2) as [Hle|Hgt]; split_and!.
      + right. destruct H1 as [->|H1]; [by left|by right].
      + lia.
      + intros e He. apply elem_of_cons in He as [->|He]; [done|by apply H3].
      + destruct H1 as [->|H1]; [by left|right; by right].
      + done.
      + intros e He. apply elem_of_cons in He as [->|He]; [lia|by apply H3]. }
  destruct (H l x) as (H1&H2&H3). split.
  - destruct H1 as [->|H1]; [by left|by right].
  - intros e He. apply elem_of_cons in He as [->|He]; [done|by apply H3].
Qed.

Section Rollup.
Context (ho : list (string * dec) → list (string * dec)) (hof : list (string * nat) → list (string * nat)).
Context (Hho : ∀ l, ho l ≡ₚ l) (Hhof : ∀ l, hof l ≡ₚ l).
Context (inv : gmap string (list position)).

Lemma rollup_none : rollup ho hof inv = None ↔ ∀ acc l, inv !! acc = Some l → l = [].
Proof using Hhof.
  unfold rollup. split.
  - intros H acc l Hl. destruct l as [|p l]; [done|]. exfalso.
    destruct (hof (map_to_list (cur_freq inv))) as [|x r] eqn:E; [|done].
    assert (map_to_list (cur_freq inv) = []) as E'.
    { apply Permutation_nil. rewrite <- E. apply Hhof. }
    apply map_to_list_empty_iff in E'. pose proof (cur_freq_spec inv (pos_cur p)) as Hc. rewrite E', lookup_empty in Hc.
    destruct (decide (holders inv (pos_cur p) = 0)) as [H0|]; [|done]. unfold holders in H0. apply nil_length_inv in H0.
    assert ((acc, p :: l) ∈ filter (λ e : string * list position, Exists (λ q, pos_cur q = pos_cur p) e.2) (map_to_list inv)) as Hin.
    { apply elem_of_list_filter. split; [by left|]. by apply elem_of_map_to_list. }
    rewrite H0 in Hin. by apply elem_of_nil in Hin.
  - intros H. assert (cur_freq inv = ∅) as ->; [|].
    { apply map_eq. intros c. rewrite lookup_empty, cur_freq_spec, decide_True; [done|]. unfold holders.
      assert (filter (λ e : string * list position, Exists (λ q, pos_cur q = c) e.2) (map_to_list inv) = []) as ->; [|done].
      destruct (filter _ (map_to_list inv)) as [|[a l] r] eqn:E; [done|].
      assert ((a, l) ∈ filter (λ e : string * list position, Exists (λ q, pos_cur q = c) e.2) (map_to_list inv)) as Hin by (rewrite E; by left).
      apply elem_of_list_filter in Hin as [He Hin]. apply elem_of_map_to_list in Hin. rewrite (H a l Hin) in He. by apply Exists_nil in He. }
    rewrite map_to_list_empty. assert (hof [] = []) as ->; [|done]. apply Permutation_nil. symmetry. apply Hhof.
Qed.
Lemma rollup_some acc l :
  inv !! acc = Some l → l ≠ [] →
  ∃ cur, rollup ho hof inv = Some (rollup_build ho inv cur) ∧ 0 < holders inv cur ∧ ∀ c, holders inv c ≤ holders inv cur.
Proof using Hhof.
  intros Hl Hne. destruct (rollup ho hof inv) as [r|] eqn:E.
  - unfold rollup in E. destruct (max_key _) as [[cur n]|] eqn:Em; [|done]. injection E as <-. cbn [fst] in *. exists cur. split; [done|].
    apply max_key_spec in Em as [Hin Hmax]. rewrite (Hhof _) in Hin. apply elem_of_map_to_list in Hin. rewrite cur_freq_spec in Hin.
    destruct (decide (holders inv cur = 0)); [done|]. injection Hin as <-. split; [lia|]. intros c.
    destruct (decide (holders inv c = 0)) as [H0|H0]; [lia|]. apply (Hmax (c, holders inv c)). rewrite (Hhof _).
    apply elem_of_map_to_list. rewrite cur_freq_spec. by destruct (decide (holders inv c = 0)).
  - pose proof (proj1 rollup_none E acc l Hl). done.
Qed.

Context (cur : string) (Hwn : well_named inv).

Lemma listed acc : is_Some (rollup_build ho inv cur !! acc) ↔ ∃ a, under acc a ∧ ¬ (own inv cur a == 0)%Q.
Proof using Hho Hwn.
  rewrite rollup_lookup by done. pose proof (totals_spec ho Hho inv cur Hwn acc) as H.
  destruct (total_units ho (item_units inv cur) !! acc) as [u|].
  - destruct H as [(a&Ha&Hu) _]. split; [intros _|by eexists]. exists a. split; [done|]. by apply items_own.
  - split; [by intros [? ?]|]. intros (a&Hu&Ha). apply items_own in Ha. by destruct (H a Ha).
Qed.
Lemma entry_item acc e : rollup_build ho inv cur !! acc = Some e →
  match e_item e with
  | Some (u, c) => (dec_value u == own inv cur acc ∧ ¬ own inv cur acc == 0)%Q ∧ c = max_depth ho (item_units inv cur)
  | None => (own inv cur acc == 0)%Q
  end.
Proof using Hho Hwn.
  rewrite rollup_lookup by done. destruct (total_units _ _ !! acc) as [u|]; [|done]. intros [= <-]. cbn [e_item].
  pose proof (item_units_spec inv cur acc) as H. destruct (item_units inv cur !! acc) as [v|]; cbn [fmap option_fmap option_map].
  - tauto.
  - done.
Qed.
Lemma entry_total acc e : rollup_build ho inv cur !! acc = Some e →
  match e_total e with
  | Some (u, c) => (dec_value u == together inv cur acc)%Q ∧ c = colons acc ∧
      (own inv cur acc == 0 ∨ ¬ together inv cur acc == own inv cur acc)%Q ∧
      (e_item e ≠ None → colons acc < max_depth ho (item_units inv cur))
  | None => (¬ own inv cur acc == 0 ∧ together inv cur acc == own inv cur acc)%Q
  end.
Proof using Hho Hwn.
  rewrite rollup_lookup by done. destruct (total_units _ _ !! acc) as [u|] eqn:Et; [|done]. intros [= <-]. cbn [e_total e_item].
  pose proof (same_units_spec ho Hho inv cur Hwn acc u Et) as Hs.
  destruct (same_units _ _) eqn:Es; [done|]. pose proof (totals_spec ho Hho inv cur Hwn acc) as Ht. rewrite Et in Ht.
  split; [apply Ht|]. split; [apply depth_colons|]. split; [done|]. intros _.
  destruct (total_column ho Hho inv cur Hwn acc u Et Es) as [?|(b&Hb&Hz&Hne)]; [done|].
  destruct (max_depth_spec ho Hho inv cur) as [Hd _]. pose proof (under_colons acc b Hb (not_eq_sym Hne)).
  apply items_own in Hz. specialize (Hd b Hz). lia.
Qed.
Lemma depth_spec :
  (∀ a, ¬ (own inv cur a == 0)%Q → colons a ≤ max_depth ho (item_units inv cur)) ∧
  ((∀ a, (own inv cur a == 0)%Q) ∨ ∃ a, ¬ (own inv cur a == 0)%Q ∧ max_depth ho (item_units inv cur) = colons a).
Proof using Hho.
  destruct (max_depth_spec ho Hho inv cur) as [H1 H2]. split.
  - intros a Ha. by apply H1, items_own.
  - destruct H2 as [[H2 _]|(a&Ha&E)].
    + left. intros a. pose proof (item_units_spec inv cur a) as H. by rewrite H2 in H.
    + right. exists a. split; [by apply items_own|done].
Qed.

Lemma cells acc e k u : rollup_build ho inv cur !! acc = Some e →
  entry_cells e !! k = Some (Some u) ↔ e_total e = Some (u, k) ∨ e_item e = Some (u, k).
Proof using Hho Hwn.
  intros He. pose proof (entry_item acc e He) as Hi. pose proof (entry_total acc e He) as Ht. unfold entry_cells.
  destruct (e_total e) as [[t c]|], (e_item e) as [[i d]|].
  - destruct Hi as [_ ->], Ht as (_&->&_&Hlt). specialize (Hlt ltac:(done)). set (D := max_depth _ _) in *.
    rewrite lookup_app. rewrite lookup_app. destruct (decide (k < colons acc)) as [Hk|Hk].
    + rewrite lookup_replicate_2 by done. split; [done|]. intros [H|H]; injection H; lia.
    + rewrite (proj2 (lookup_ge_None (replicate (colons acc) _) _)) by (rewrite replicate_length; lia).
      rewrite replicate_length, app_length, replicate_length. cbn [length].
      destruct (decide (k = colons acc)) as [->|Hk'].
      * rewrite Nat.sub_diag. cbn. split; [intros H; left; congruence|]. intros [H|H]; [congruence|injection H; lia].
      * destruct (k - colons acc) as [|n] eqn:En; [lia|]. assert ([Some t] !! S n = None) as En0 by by destruct n. rewrite En0, lookup_app.
        destruct (decide (k < D)) as [Hd|Hd].
        -- rewrite lookup_replicate_2 by lia. split; [done|]. intros [H|H]; injection H; lia.
        -- rewrite (proj2 (lookup_ge_None _ _)) by (rewrite replicate_length; lia). rewrite replicate_length.
           destruct (decide (k = D)) as [->|HD].
           ++ replace (D - (colons acc + 1) - (D - S (colons acc))) with 0 by lia. cbn.
              split; [intros H; right; congruence|]. intros [H|H]; [injection H; lia|congruence].
           ++ destruct (k - (colons acc + 1) - (D - S (colons acc))) as [|n'] eqn:En'; [lia|]. cbn.
              split; [by rewrite ?lookup_nil|]. intros [H|H]; injection H; lia.
  - destruct Ht as (_&->&_&_). rewrite app_nil_r, lookup_app. destruct (decide (k < colons acc)) as [Hk|Hk].
    + rewrite lookup_replicate_2 by done. split; [done|]. intros [H|H]; [injection H; lia|done].
    + rewrite (proj2 (lookup_ge_None (replicate (colons acc) _) _)) by (rewrite replicate_length; lia). rewrite replicate_length.
      destruct (decide (k = colons acc)) as [->|Hk'].
      * rewrite Nat.sub_diag. cbn. split; [intros H; left; congruence|]. intros [H|H]; [congruence|done].
      * destruct (k - colons acc) as [|n] eqn:En; [lia|]. cbn. split; [done|]. intros [H|H]; [injection H; lia|done].
  - destruct Hi as [_ ->]. set (D := max_depth _ _) in *. cbn [app]. rewrite Nat.sub_0_r, lookup_app. destruct (decide (k < D)) as [Hk|Hk].
    + rewrite lookup_replicate_2 by done. split; [done|]. intros [H|H]; [done|injection H; lia].
    + rewrite (proj2 (lookup_ge_None (replicate D _) _)) by (rewrite replicate_length; lia). rewrite replicate_length.
      destruct (decide (k = D)) as [->|Hk'].
      * rewrite Nat.sub_diag. cbn. split; [intros H; right; congruence|]. intros [H|H]; [done|congruence].
      * destruct (k - D) as [|n] eqn:En; [lia|]. cbn. split; [done|]. intros [H|H]; [done|injection H; lia].
  - cbn. rewrite lookup_nil. split; [done|]. intros [H|H]; done.
Qed.
End Rollup.
