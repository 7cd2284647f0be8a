(** Inventories and journals.  [ho] is the order in which a hash map lists its
    entries, [booking] the booking method of each account. *)
From Coq Require Import Ascii QArith Sorted.
From stdpp Require Import prelude gmap strings.
From Verif Require Import DecModel LedgerTypes CljModel InventoryModel InventorySpec InventoryMain InventoryTotal InventoryKinds
  OrderFacts RollupFacts.
Local Open Scope nat_scope.

(** Cash in two currencies, and lots which are bought, added to and sold. *)
Definition at_cost (y : Z) (u : cnum) (l : option string) : option ccost :=
  Some (CCost (Date y 1 1) "USD" u u l None).
Definition pst (acc : string) (u : cnum) (cur : string) (c : option ccost) : cposting :=
  CPosting (Some (Date 2024 5 1)) None (Some "n") None acc u cur c.
Definition sample_postings : list cposting :=
  [ pst "A" (CLong 5) "USD" None;
    pst "A" (CLong 10) "HOOL" (at_cost 2023 (CLong 7) None);
    pst "A" (CDec (Dec 250 2)) "EUR" None;
    pst "A" (CLong (-3)) "HOOL" (at_cost 2022 (CDec (Dec 65 1)) (Some "x"));
    pst "A" (CDec (Dec 15 1)) "HOOL" (at_cost 2023 (CLong 7) None);
    pst "B" (CLong 1) "HOOL" (at_cost 2023 (CLong 7) None);
    pst "A" (CLong 4) "HOOL" None;
    pst "B" (CLong 2) "HOOL" (at_cost 2023 (CLong 7) None);
    pst "A" (CLong (-5)) "USD" None;
    pst "C" (CLong 0) "USD" None ].
Definition sample_booking (acc : string) : booking := if String.eqb acc "B" then BNone else BStrict.
Definition is_some {A} (o : option A) : bool := match o with Some _ => true | None => false end.
Definition sample_inventory : gmap string (list position) :=
  default ∅ (inventory_build (λ l, rev l) sample_postings sample_booking).
Example sample_builds :
  inventory_build (λ l, rev l) sample_postings sample_booking = Some sample_inventory ∧
  holding sample_inventory "A" =
    [ Position (CDec (Dec 250 2)) "EUR" None;
      Position (CLong 4) "HOOL" None;
      Position (CLong (-3)) "HOOL" (at_cost 2022 (CDec (Dec 65 1)) (Some "x"));
      Position (CDec (Dec 115 1)) "HOOL" (at_cost 2023 (CLong 7) None) ] ∧
  holding sample_inventory "B" =
    [ Position (CLong 1) "HOOL" (at_cost 2023 (CLong 7) None);
      Position (CLong 2) "HOOL" (at_cost 2023 (CLong 7) None) ].
Proof.
  split; [|vm_compute; split; reflexivity].
  assert (is_some (inventory_build (λ l, rev l) sample_postings sample_booking) = true) as H by (vm_compute; reflexivity).
  unfold sample_inventory. destruct (inventory_build _ _ _); [reflexivity|discriminate H].
Qed.

(** ** C36: units are conserved *)

Theorem C36_units_conserved :
  ∀ ho booking ps inv,
    (∀ l, ho l ≡ₚ l) → inventory_build ho ps booking = Some inv →
    ∀ acc cur, (held cur (holding inv acc) == posted acc cur ps)%Q.
Proof. intros ho booking ps inv H Hb acc cur. exact (held_is_posted ho H booking ps inv Hb acc cur). Qed.
Print Assumptions C36_units_conserved.

Theorem C36_no_empty_positions :
  ∀ ho booking ps inv,
    inventory_build ho ps booking = Some inv →
    ∀ acc l, inv !! acc = Some l → l ≠ [] ∧ ∀ p, p ∈ l → ¬ (cn_value (pos_units p) == 0)%Q.
Proof.
  intros ho booking ps inv Hb acc l Hl. split.
  - exact (proj1 (no_empty_positions ho booking ps inv Hb acc l (Position cn_zero "" None) Hl)).
  - intros p. exact (proj2 (no_empty_positions ho booking ps inv Hb acc l p Hl)).
Qed.
Print Assumptions C36_no_empty_positions.

Example C36_example :
  (held "HOOL" (holding sample_inventory "A") == 25 # 2)%Q ∧ (posted "A" "HOOL" sample_postings == 25 # 2)%Q ∧
  holding sample_inventory "C" = [].
Proof. vm_compute. auto. Qed.

(** Positions collapsed to their units, as for display. *)
Theorem C36_collapsed_units :
  ∀ l,
    StronglySorted before ((λ e, e.2) <$> positions_units l) ∧
    (∀ c, c ∈ (λ e, e.2) <$> positions_units l ↔ ∃ p, p ∈ l ∧ pos_cur p = c) ∧
    ∀ u c, (u, c) ∈ positions_units l → (dec_value u == held c l)%Q.
Proof.
  intros l.
  assert ((λ e : dec * string, e.2) <$> positions_units l = currencies_of l) as E.
  { unfold positions_units. assert (∀ c, c ∈ currencies_of l → is_Some (units_by_currency l !! c)) as Hc.
    { intros c Hc. apply currencies_of_spec, Exists_exists in Hc as (p&Hp&E). pose proof (units_by_currency_spec l c) as Hs.
      destruct (units_by_currency l !! c); [by eexists|]. by destruct (Hs p Hp). }
    revert Hc. generalize (currencies_of l). intros cs. induction cs as [|c cs IH]; intros Hc; [done|].
    destruct (Hc c ltac:(by left)) as [u Hu]. cbn [omap list_omap]. rewrite Hu.
    cbn [fmap option_fmap option_map list_fmap snd]. f_equal. apply IH. intros x Hx. apply Hc. by right. }
  split_and!.
  - rewrite E. unfold currencies_of. apply sort_strings_sorted, NoDup_fst_map_to_list.
  - intros c. rewrite E, currencies_of_spec, Exists_exists. done.
  - intros u c Hin. unfold positions_units in Hin. apply elem_of_list_omap in Hin as (c'&_&Hu).
    pose proof (units_by_currency_spec l c') as Hs. destruct (units_by_currency l !! c'); [|done]. injection Hu as <- <-. apply Hs.
Qed.
Print Assumptions C36_collapsed_units.

Example C36_collapsed_example :
  positions_units (holding sample_inventory "A") = [(Dec 250 2, "EUR"); (Dec 125 1, "HOOL")].
Proof. vm_compute. reflexivity. Qed.

(** ** C37: lots *)

Theorem C37_lots_merged :
  ∀ ho booking ps inv,
    (∀ l, ho l ≡ₚ l) → inventory_build ho ps booking = Some inv →
    ∀ acc cur cost, merges (booking acc) = true →
      one_unless_zero (posted_at acc cur cost ps)
        (filter (λ p, pos_cur p = cur ∧ same_cost (pos_cost p) cost) (holding inv acc)).
Proof. intros ho booking ps inv H Hb acc cur cost. exact (merged ho H booking ps inv Hb acc cur cost). Qed.
Print Assumptions C37_lots_merged.

(** [simple] is what is held without cost. *)
Theorem C37_lots_kept_apart :
  ∀ ho booking ps inv,
    (∀ l, ho l ≡ₚ l) → inventory_build ho ps booking = Some inv →
    ∀ acc cur, keeps_apart (booking acc) = true →
    ∃ simple,
      filter (λ p, pos_cur p = cur) (holding inv acc) =
      simple ++ filter (λ p, ¬ (cn_value (pos_units p) == 0)%Q)
        ((λ p, Position (cp_units p) (cp_cur p) (cp_cost p)) <$>
           filter (λ p, cp_acc p = acc ∧ cp_cur p = cur ∧ cp_cost p ≠ None) ps) ∧
      one_unless_zero (posted_at acc cur None ps) simple ∧ Forall (λ p, pos_cost p = None) simple.
Proof. intros ho booking ps inv H Hb acc cur. exact (kept_apart ho H booking ps inv Hb acc cur). Qed.
Print Assumptions C37_lots_kept_apart.

Example C37_example :
  merges (sample_booking "A") = true ∧ keeps_apart (sample_booking "B") = true ∧
  (posted_at "A" "HOOL" (at_cost 2023 (CLong 7) None) sample_postings == 23 # 2)%Q ∧
  length (filter (λ p, pos_cur p = "HOOL") (holding sample_inventory "B")) = 2.
Proof. vm_compute. auto. Qed.

(** ** C38: numerically equal costs *)

(** Bought at 7, and at 7.00: two positions. *)
Theorem C38_refuted :
  ∃ ps inv, inventory_build id ps (λ _, BStrict) = Some inv ∧
  ∃ p q, ps = [p; q] ∧ cp_acc p = cp_acc q ∧ cp_cur p = cp_cur q ∧ equal_cost (cp_cost p) (cp_cost q) ∧
    length (holding inv (cp_acc p)) = 2.
Proof.
  set (p := pst "A" (CLong 1) "HOOL" (at_cost 2023 (CLong 7) None)).
  set (q := pst "A" (CLong 2) "HOOL" (at_cost 2023 (CDec (Dec 700 2)) None)).
  exists [p; q], (default ∅ (inventory_build id [p; q] (λ _, BStrict))). split.
  - assert (is_some (inventory_build id [p; q] (λ _, BStrict)) = true) as H by (vm_compute; reflexivity).
    destruct (inventory_build _ _ _); [reflexivity|discriminate H].
  - exists p, q. vm_compute. auto 10.
Qed.
Print Assumptions C38_refuted.

(** Missing: costs of which one is written as a whole number and the other with a
    point. *)
Theorem C38_equal_costs_partial :
  ∀ ho booking ps inv,
    (∀ l, ho l ≡ₚ l) → inventory_build ho ps booking = Some inv →
    ∀ acc cur cost,
      merges (booking acc) = true →
      (∀ p q, p ∈ ps → q ∈ ps → cp_acc p = acc → cp_acc q = acc → cp_cur p = cur → cp_cur q = cur →
        equal_cost (cp_cost p) (cp_cost q) → cost_kind (cp_cost p) = cost_kind (cp_cost q)) →
      one_unless_zero (posted_equal acc cur cost ps)
        (filter (λ p, pos_cur p = cur ∧ equal_cost (pos_cost p) cost) (holding inv acc)).
Proof. intros ho booking ps inv H Hb acc cur cost. exact (equal_merged ho H booking ps inv Hb acc cur cost). Qed.
Print Assumptions C38_equal_costs_partial.

Example C38_example :
  let ps := [pst "A" (CLong 1) "HOOL" (at_cost 2023 (CDec (Dec 70 1)) None);
             pst "A" (CLong 2) "HOOL" (at_cost 2023 (CDec (Dec 700 2)) None)] in
  (∀ p q, p ∈ ps → q ∈ ps → cp_acc p = "A" → cp_acc q = "A" → cp_cur p = "HOOL" → cp_cur q = "HOOL" →
        equal_cost (cp_cost p) (cp_cost q) → cost_kind (cp_cost p) = cost_kind (cp_cost q)) ∧
  map_to_list <$> inventory_build id ps (λ _, BStrict) = Some [("A", [Position (CLong 3) "HOOL" (at_cost 2023 (CDec (Dec 70 1)) None)])].
Proof.
  split; [|vm_compute; reflexivity]. intros p q Hp Hq _ _ _ _ _.
  repeat (apply elem_of_cons in Hp as [Hp|Hp]); repeat (apply elem_of_cons in Hq as [Hq|Hq]); subst;
    try reflexivity; set_solver.
Qed.

(** ** C39: order *)

(** No position comes after one which it should come before. *)
Theorem C39_listed_in_order :
  ∀ ho booking ps inv,
    (∀ l, ho l ≡ₚ l) → inventory_build ho ps booking = Some inv →
    ∀ acc, merges (booking acc) = true →
      StronglySorted (λ p q, ¬ position_before q p) (holding inv acc).
Proof. intros ho booking ps inv H Hb acc. exact (listed_in_order ho H booking ps inv Hb acc). Qed.
Print Assumptions C39_listed_in_order.

(** Lots which are kept apart are listed as they were posted (C37), after what is
    held without cost, and by currency. *)
Theorem C39_kept_apart_in_order :
  ∀ ho booking ps inv,
    (∀ l, ho l ≡ₚ l) → inventory_build ho ps booking = Some inv →
    ∀ acc, keeps_apart (booking acc) = true →
      StronglySorted (λ p q, ¬ (before (pos_cur q) (pos_cur p) ∨ (pos_cur q = pos_cur p ∧ pos_cost q = None)))
        (holding inv acc).
Proof. intros ho booking ps inv H Hb acc. exact (listed_in_order_append ho H booking ps inv Hb acc). Qed.
Print Assumptions C39_kept_apart_in_order.

Theorem C39_order_is_weak_order :
  (∀ p q, position_before p q → ¬ position_before q p) ∧
  (∀ p q r, position_before p q → position_before q r → position_before p r) ∧
  (∀ p q r, ¬ position_before p q → ¬ position_before q r → ¬ position_before p r).
Proof. exact position_before_weak_order. Qed.
Print Assumptions C39_order_is_weak_order.

(** The comparison function itself decides this order. *)
Theorem C39_comparison :
  ∀ a b, compare_cost_keys (position_key a) (position_key b) = Gt ↔ absent_first cheaper (pos_cost b) (pos_cost a).
Proof. exact not_Gt_key. Qed.
Print Assumptions C39_comparison.

Example C39_example :
  position_before (Position (CLong 4) "HOOL" None) (Position (CLong (-3)) "HOOL" (at_cost 2022 (CDec (Dec 65 1)) (Some "x"))) ∧
  position_before (Position (CLong (-3)) "HOOL" (at_cost 2022 (CDec (Dec 65 1)) (Some "x"))) (Position (CLong 4) "HOOL" (at_cost 2023 (CLong 7) None)).
Proof. split; right; (split; [reflexivity|]); [exact I|]. left. left. vm_compute. reflexivity. Qed.

(** ** C45: journals *)

Theorem C45_journal :
  ∀ ho ps l,
    (∀ l, ho l ≡ₚ l) → journal_build ho ps = Some l →
    length l = length ps ∧
    ∀ n p, ps !! n = Some p → ∃ bal,
      l !! n = Some (CPosting (cp_date p) (cp_payee p) (cp_narration p) (cp_flag p) (cp_acc p) (cp_units p) (cp_cur p) None, bal) ∧
      StronglySorted before (pos_cur <$> bal) ∧
      Forall (λ q, pos_cost q = None ∧ ¬ (cn_value (pos_units q) == 0)%Q) bal ∧
      ∀ cur, (held cur bal == running cur (take (S n) ps))%Q.
Proof.
  intros ho ps l H Hj. destruct (journal_ok ho H ps l Hj) as [Hl He]. split; [exact Hl|].
  intros n p Hp. destruct (He n p Hp) as ([e1 e2]&Hn&Hb&Hs&Hf&Hc). exists e2.
  cbn in *. subst e1. split; [exact Hn|]. split; [exact Hs|]. split; [exact Hf|].
  intros cur. rewrite (take_S_r ps n p Hp). exact (Hc cur).
Qed.
Print Assumptions C45_journal.

Theorem C45_journal_exists :
  ∀ ho ps, (∀ cur, in_range_all cur ps) → is_Some (journal_build ho ps).
Proof. exact journal_exists. Qed.
Print Assumptions C45_journal_exists.

Example C45_example :
  let ps := [pst "A" (CLong 5) "USD" None; pst "B" (CDec (Dec 25 1)) "EUR" (at_cost 2023 (CLong 7) None); pst "C" (CLong (-5)) "USD" None] in
  snd <$> default [] (journal_build id ps) =
  [ [Position (CLong 5) "USD" None];
    [Position (CDec (Dec 25 1)) "EUR" None; Position (CLong 5) "USD" None];
    [Position (CDec (Dec 25 1)) "EUR" None] ].
Proof. vm_compute. reflexivity. Qed.
