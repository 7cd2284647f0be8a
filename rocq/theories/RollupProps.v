(** Roll-ups.  [ho], [hof] and [lo] are the orders in which hash maps list their
    entries. *)
From Coq Require Import Ascii QArith Sorted.
From stdpp Require Import prelude gmap strings.
From Verif Require Import DecModel LedgerTypes CljModel InventoryModel InventorySpec InventoryMain ClientSpec RollupModel RollupSpec
  RollupFacts RollupMain.
Local Open Scope nat_scope.

Definition sample_pst (acc : string) (u : cnum) (cur : string) : cposting :=
  CPosting (Some (Date 2024 5 1)) None None None acc u cur None.
Definition rollup_postings : list cposting :=
  [ sample_pst "Assets:Bank" (CDec (Dec 150 1)) "EUR"; sample_pst "Assets:Bank:Savings" (CLong 20) "EUR";
    sample_pst "Assets:Cash" (CLong 5) "EUR"; sample_pst "Assets:Cash" (CLong 7) "USD";
    sample_pst "Income:Work" (CLong (-40)) "EUR"; sample_pst "Expenses:A" (CLong 3) "EUR"; sample_pst "Expenses:B" (CLong (-3)) "EUR" ].
Definition rollup_inventory : gmap string (list position) :=
  default ∅ (inventory_build (λ l, rev l) rollup_postings (λ _, BStrict)).
Lemma rollup_inventory_built : inventory_build (λ l, rev l) rollup_postings (λ _, BStrict) = Some rollup_inventory.
Proof.
  assert (match inventory_build (λ l, rev l) rollup_postings (λ _, BStrict) with Some _ => true | None => false end = true) as H by (vm_compute; reflexivity).
  unfold rollup_inventory. destruct (inventory_build _ _ _); [reflexivity|discriminate H].
Qed.
Lemma rollup_inventory_keys acc : is_Some (rollup_inventory !! acc) →
  acc ∈ ["Assets:Bank"; "Assets:Bank:Savings"; "Assets:Cash"; "Income:Work"; "Expenses:A"; "Expenses:B"].
Proof.
  intros [l Hl]. apply elem_of_map_to_list in Hl.
  assert (forallb (λ e : string * list position, existsb (String.eqb e.1) ["Assets:Bank"; "Assets:Bank:Savings"; "Assets:Cash"; "Income:Work"; "Expenses:A"; "Expenses:B"])
    (map_to_list rollup_inventory) = true) as H by (vm_compute; reflexivity).
  rewrite forallb_forall in H. apply elem_of_list_In in Hl. specialize (H _ Hl). apply existsb_exists in H as (x&Hx&E).
  apply String.eqb_eq in E. cbn in E. subst. by apply elem_of_list_In.
Qed.
Lemma rollup_inventory_named : well_named rollup_inventory.
Proof.
  intros acc Ha [p Hp]. apply rollup_inventory_keys in Ha.
  assert (∀ p, last (String.list_ascii_of_string (p +:+ ":")) = Some ":"%char) as Hlast.
  { clear. induction p as [|c p IH]; [reflexivity|]. rewrite append_cons. cbn [String.list_ascii_of_string].
    destruct (String.list_ascii_of_string (p +:+ ":")); [discriminate IH|exact IH]. }
  specialize (Hlast p). rewrite <- Hp in Hlast. clear Hp.
  repeat (apply elem_of_cons in Ha as [->|Ha]; [vm_compute in Hlast; discriminate Hlast|]). by apply elem_of_nil in Ha.
Qed.

(** ** C43: totals *)

Theorem C43_accounts_listed :
  ∀ ho inv cur, (∀ l, ho l ≡ₚ l) → well_named inv →
    ∀ acc, is_Some (rollup_build ho inv cur !! acc) ↔ ∃ a, under acc a ∧ ¬ (own inv cur a == 0)%Q.
Proof. intros ho inv cur H Hn acc. exact (listed ho H inv cur Hn acc). Qed.
Print Assumptions C43_accounts_listed.

Theorem C43_items :
  ∀ ho inv cur, (∀ l, ho l ≡ₚ l) → well_named inv →
    ∀ acc e, rollup_build ho inv cur !! acc = Some e →
      (e_item e = None ↔ (own inv cur acc == 0)%Q) ∧ ∀ u c, e_item e = Some (u, c) → (dec_value u == own inv cur acc)%Q.
Proof.
  intros ho inv cur H Hn acc e He. pose proof (entry_item ho H inv cur Hn acc e He) as Hi.
  destruct (e_item e) as [[u c]|].
  - destruct Hi as [[H1 H2] _]. split; [split; [done|intros ?; contradiction]|]. intros ? ? [= <- <-]. done.
  - split; [done|]. done.
Qed.
Print Assumptions C43_items.

Theorem C43_totals :
  ∀ ho inv cur, (∀ l, ho l ≡ₚ l) → well_named inv →
    ∀ acc e, rollup_build ho inv cur !! acc = Some e →
      (is_Some (e_total e) ↔ (own inv cur acc == 0 ∨ ¬ together inv cur acc == own inv cur acc)%Q) ∧
      ∀ u c, e_total e = Some (u, c) → (dec_value u == together inv cur acc)%Q.
Proof.
  intros ho inv cur H Hn acc e He. pose proof (entry_total ho H inv cur Hn acc e He) as Hi.
  destruct (e_total e) as [[u c]|].
  - destruct Hi as (H1&_&H2&_). split; [split; [done|by eexists]|]. intros ? ? [= <- <-]. done.
  - destruct Hi as [H1 H2]. split; [|done]. split; [by intros [? ?]|]. intros [?|?]; contradiction.
Qed.
Print Assumptions C43_totals.

(** In terms of the postings of which the inventory was made. *)
Theorem C43_totals_of_postings :
  ∀ ho lo booking ps inv cur,
    (∀ l, ho l ≡ₚ l) → (∀ l, lo l ≡ₚ l) → inventory_build lo ps booking = Some inv → well_named inv →
    ∀ acc e u c, rollup_build ho inv cur !! acc = Some e → e_total e = Some (u, c) →
      (dec_value u == posted_under acc cur ps)%Q.
Proof.
  intros ho lo booking ps inv cur H Hl Hb Hn acc e u c He Ht.
  rewrite <- (together_posted lo Hl booking ps inv acc cur Hb).
  exact (proj2 (C43_totals ho inv cur H Hn acc e He) u c Ht).
Qed.
Print Assumptions C43_totals_of_postings.

Example C43_example :
  well_named rollup_inventory ∧
  let r := rollup_build (λ l, rev l) rollup_inventory "EUR" in
  r !! "Assets" = Some (Entry None (Some (Dec 400 1, 0))) ∧
  r !! "Assets:Bank" = Some (Entry (Some (Dec 150 1, 2)) (Some (Dec 350 1, 1))) ∧
  r !! "Assets:Bank:Savings" = Some (Entry (Some (Dec 20 0, 2)) None) ∧
  r !! "Expenses" = Some (Entry None (Some (Dec 0 0, 0))) ∧
  r !! "Equity" = None.
Proof. split; [exact rollup_inventory_named|]. vm_compute. auto. Qed.

(** ** C67: columns *)

(** A line of the table has at most two numbers.  What an account itself holds is in
    the column given by the deepest account with a holding; the total of an account
    is in the column given by its own depth. *)
Theorem C67_columns :
  ∀ ho inv cur, (∀ l, ho l ≡ₚ l) → well_named inv →
    ∃ depth,
      (∀ a, ¬ (own inv cur a == 0)%Q → colons a ≤ depth) ∧
      ((∃ a, ¬ (own inv cur a == 0)%Q) → ∃ a, ¬ (own inv cur a == 0)%Q ∧ colons a = depth) ∧
      ∀ acc e, rollup_build ho inv cur !! acc = Some e →
        (¬ (own inv cur acc == 0)%Q → ∃ u, entry_cells e !! depth = Some (Some u) ∧ (dec_value u == own inv cur acc)%Q) ∧
        ((own inv cur acc == 0 ∨ ¬ together inv cur acc == own inv cur acc)%Q →
           (∃ u, entry_cells e !! colons acc = Some (Some u) ∧ (dec_value u == together inv cur acc)%Q) ∧
           (¬ (own inv cur acc == 0)%Q → colons acc < depth)) ∧
        ∀ k u, entry_cells e !! k = Some (Some u) →
          (k = depth ∧ ¬ (own inv cur acc == 0)%Q) ∨
          (k = colons acc ∧ (own inv cur acc == 0 ∨ ¬ together inv cur acc == own inv cur acc)%Q).
Proof.
  intros ho inv cur H Hn. exists (max_depth ho (item_units inv cur)). destruct (depth_spec ho H inv cur) as [D1 D2].
  split; [exact D1|]. split.
  { intros [a Ha]. destruct D2 as [D2|(b&Hb&E)]; [by destruct (Ha (D2 a))|]. exists b. split; [done|]. by symmetry. }
  intros acc e He. pose proof (entry_item ho H inv cur Hn acc e He) as Hi. pose proof (entry_total ho H inv cur Hn acc e He) as Ht.
  pose proof (λ k u, cells ho H inv cur Hn acc e k u He) as Hc. split_and!.
  - intros Hz. destruct (e_item e) as [[u c]|]; [|contradiction]. destruct Hi as [[Hu _] ->].
    exists u. split; [|done]. apply Hc. by right.
  - intros Hs. destruct (e_total e) as [[u c]|]; [|destruct Ht; tauto]. destruct Ht as (Hu&->&_&Hlt). split.
    + exists u. split; [|done]. apply Hc. by left.
    + intros Hz. apply Hlt. destruct (e_item e); [done|contradiction].
  - intros k u Hk. apply Hc in Hk as [Hk|Hk].
    + rewrite Hk in Ht. right. tauto.
    + rewrite Hk in Hi. left. tauto.
Qed.
Print Assumptions C67_columns.

Example C67_example :
  let r := rollup_build (λ l, rev l) rollup_inventory "EUR" in
  (entry_cells <$> r !! "Assets") = Some [Some (Dec 400 1)] ∧
  (entry_cells <$> r !! "Assets:Bank") = Some [None; Some (Dec 350 1); Some (Dec 150 1)] ∧
  (entry_cells <$> r !! "Assets:Cash") = Some [None; None; Some (Dec 5 0)].
Proof. vm_compute. auto. Qed.

(** ** C44: the primary currency *)

(** A ledger without postings. *)
Theorem C44_refuted :
  ∃ inv, (∀ lo booking, inventory_build lo [] booking = Some inv) ∧
    ∀ ho hof, (∀ l, hof l ≡ₚ l) → rollup ho hof inv = None.
Proof.
  exists ∅. split; [intros lo booking; unfold inventory_build; cbn [fold_opt fmap option_fmap option_map]; by rewrite omap_empty|]. intros ho hof H. apply rollup_none; [done|]. intros acc l Hl. by rewrite lookup_empty in Hl.
Qed.
Print Assumptions C44_refuted.

(** Missing: inventories without positions. *)
Theorem C44_primary_currency_partial :
  ∀ ho hof inv acc p, (∀ l, hof l ≡ₚ l) → p ∈ holding inv acc →
    ∃ cur, rollup ho hof inv = Some (rollup_build ho inv cur) ∧ 0 < holders inv cur ∧ ∀ c, holders inv c ≤ holders inv cur.
Proof.
  intros ho hof inv acc p H Hp. unfold holding in Hp. destruct (inv !! acc) as [l|] eqn:E; [|by apply elem_of_nil in Hp].
  apply (rollup_some ho hof H inv acc l E). intros ->. by apply elem_of_nil in Hp.
Qed.
Print Assumptions C44_primary_currency_partial.

Theorem C44_only_without_positions :
  ∀ ho hof inv, (∀ l, hof l ≡ₚ l) → (rollup ho hof inv = None ↔ ∀ acc, holding inv acc = []).
Proof.
  intros ho hof inv H. rewrite rollup_none by done. unfold holding. split.
  - intros Hn acc. destruct (inv !! acc) as [l|] eqn:E; [exact (Hn acc l E)|done].
  - intros Hn acc l Hl. specialize (Hn acc). by rewrite Hl in Hn.
Qed.
Print Assumptions C44_only_without_positions.

Example C44_example :
  holders rollup_inventory "EUR" = 6 ∧ holders rollup_inventory "USD" = 1 ∧
  length (holding rollup_inventory "Assets:Cash") = 2 ∧
  ((λ r : gmap string entry, r !! "Income") <$> rollup (λ l, rev l) (λ l, rev l) rollup_inventory) = Some (Some (Entry None (Some (Dec (-40) 0, 0)))).
Proof. vm_compute. auto. Qed.
