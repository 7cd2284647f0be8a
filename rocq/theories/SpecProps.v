(** Theorems about the specification of directives, against which the client checks
    directives when plugins are run. *)
From Coq Require Import Ascii QArith.
From stdpp Require Import prelude gmap strings.
From Verif Require Import DecModel LedgerTypes IsoModel JsonModel WireModel WireSpec WireFacts WireSamples CljModel InventoryModel ClientModel ClientDecode
  FormatModel PluginModel PluginSpec PluginProps SpecModel SpecSpec SpecFacts AutoModel AutoProps SampleLedgers.
Local Open Scope nat_scope.

(** * C69 *)
(** Each directive which the server sends meets the specification, if its whole
    numbers fit into 64 bits and its tolerance, if any, has a decimal point.  Missing:
    the others, see below. *)
Theorem C69_raw_partial ord d :
  any_order ord → directive_dates d → directive_numbers modest d →
  (∀ t, tolerance_of (d_variant d) = Some t → dec_scale t ≠ 0) →
  directive_spec false (decode None (put_directive ord d)) = true.
Proof. intros Ho Hd Hn Ht. apply directive_ok; [done..|]. unfold tolerance_with_point. destruct (tolerance_of _); cbn; auto. Qed.
Print Assumptions C69_raw_partial.
Theorem C69_booked_partial ord b :
  any_order ord → booked_dates b → booked_numbers modest b →
  (∀ t, booked_tolerance (b_variant b) = Some t → dec_scale t ≠ 0) →
  directive_spec true (decode None (put_bdirective ord b)) = true.
Proof. intros Ho Hd Hn Ht. apply booked_ok; [done..|]. unfold tolerance_with_point. destruct (booked_tolerance _); cbn; auto. Qed.
Print Assumptions C69_booked_partial.
Definition a_wire_balance (t : dec) : directive :=
  Directive (Some (Span 0 0 9)) (Date 2024 1 2) None None None (DBalance (Balance "Assets:Cash" (Dec 5 0) "NZD" (Some t))).
Example C69_raw_example :
  any_order plain_order ∧ directive_dates (a_wire_balance (Dec 1 2)) ∧ directive_numbers modest (a_wire_balance (Dec 1 2)) ∧
  (∀ t, tolerance_of (d_variant (a_wire_balance (Dec 1 2))) = Some t → dec_scale t ≠ 0) ∧
  directive_dates wire_txn ∧ directive_numbers modest wire_txn.
Proof.
  split; [done|]. split; [done|]. split; [done|]. split; [by intros t [= <-]|]. split.
  - split; [done|]. split.
    + intros k v H. apply lookup_insert_Some in H as [[<- <-]|[_ H]]; [done|]. by apply lookup_singleton_Some in H as [<- <-].
    + by repeat constructor.
  - split.
    + intros k v H. apply lookup_insert_Some in H as [[<- <-]|[_ H]]; [done|]. by apply lookup_singleton_Some in H as [<- <-].
    + repeat constructor; cbn; intros; done.
Qed.
Definition a_booked : bdirective :=
  BDirective 3 (Date 2024 1 2) None None None
    (BVTransaction (BTransaction "*" None None [Posting None None "Assets:Cash" (Dec 12 1) "NZD" (Some (Cost (Date 2024 1 2) (Dec 3 0) (Dec 36 1) "USD" None false)) None None None None])).
Example C69_booked_example :
  booked_dates a_booked ∧ booked_numbers modest a_booked ∧ (∀ t, booked_tolerance (b_variant a_booked) = Some t → dec_scale t ≠ 0).
Proof. split_and!; try done; repeat constructor; cbn; intros; done. Qed.

(** A balance with a tolerance which is a whole number does not meet it. *)
Theorem C69_tolerance_refuted ord d t :
  tolerance_of (d_variant d) = Some t → dec_scale t = 0 →
  directive_spec false (decode None (put_directive ord d)) = false.
Proof. apply tolerance_not_ok. Qed.
Print Assumptions C69_tolerance_refuted.
Example C69_tolerance_example : tolerance_of (d_variant (a_wire_balance (Dec 1 0))) = Some (Dec 1 0).
Proof. done. Qed.
(** Neither does one whose units are a whole number beyond 64 bits. *)
Theorem C69_large_refuted ord d b :
  d_variant d = DBalance b → dec_scale (bal_units b) = 0 → (2 ^ 63 <= dec_mant (bal_units b))%Z →
  directive_spec false (decode None (put_directive ord d)) = false.
Proof. intros Hv Hs Hn. eapply units_not_ok; [done|]. intros Hm. destruct (Hm Hs). lia. Qed.
Print Assumptions C69_large_refuted.

(** In such a ledger no raw plugin has any effect: whatever the plugins are, running
    them fails. *)
Theorem C69_plugins_fail code ord ps d t ds :
  (∀ i j, code i = code j → i = j) →
  tolerance_of (d_variant d) = Some t → dec_scale t = 0 → decode None (put_directive ord d) ∈ ds →
  run_plugins code (directive_spec false) ps false ds = None.
Proof.
  intros Hinj Ht Hs Hd. rewrite C50_chain by done.
  assert (acceptable (directive_spec false) ds = false) as ->; [|done].
  unfold acceptable. apply not_true_iff_false. intros H. rewrite forallb_forall in H. apply elem_of_list_In in Hd.
  specialize (H _ Hd). rewrite (C69_tolerance_refuted _ _ _ Ht Hs), orb_false_r in H.
  unfold erroneous in H. by rewrite no_error in H.
Qed.
Print Assumptions C69_plugins_fail.
Example C69_plugins_fail_example :
  (∀ i j : nat, id i = id j → i = j) ∧
  decode None (put_directive plain_order (a_wire_balance (Dec 1 0))) ∈ [decode None (put_directive plain_order (a_wire_balance (Dec 1 0)))].
Proof. split; [done|]. by left. Qed.
Example C69_large_example :
  dec_scale (Dec (2 ^ 63) 0) = 0 ∧ (2 ^ 63 <= dec_mant (Dec (2 ^ 63) 0))%Z.
Proof. split; [done|]. cbn [dec_mant]. lia. Qed.
