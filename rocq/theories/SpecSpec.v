(** The numbers of a directive: vocabulary for [SpecProps.v]. *)
From Coq Require Import Ascii QArith.
From stdpp Require Import prelude gmap strings.
From Verif Require Import DecModel LedgerTypes WireSpec.

(** A whole number of at most 64 bits, or one with a decimal point. *)
Definition modest (d : dec) : Prop := dec_scale d = 0%nat → (- 2 ^ 63 <= dec_mant d < 2 ^ 63)%Z.

Section Numbers.
Context (P : dec → Prop).
(** All numbers satisfy [P]. *)
Definition meta_numbers (v : meta_value) : Prop := match v with MVAmount u _ => P u | MVNumber n => P n | _ => True end.
Definition metadata_numbers (m : gmap string meta_value) : Prop := ∀ k v, m !! k = Some v → meta_numbers v.
Definition cost_spec_numbers (c : cost_spec) : Prop := all_opt P (cs_per_unit c) ∧ all_opt P (cs_total c).
Definition price_spec_numbers (p : price_spec) : Prop := all_opt P (prs_per_unit p) ∧ all_opt P (prs_total p).
Definition price_numbers (p : price) : Prop := P (pr_per_unit p) ∧ all_opt P (pr_total p).
Definition cost_numbers (c : cost) : Prop := P (c_per_unit c) ∧ P (c_total c).
Definition posting_spec_numbers (p : posting_spec) : Prop :=
  all_opt P (ps_units p) ∧ all_opt cost_spec_numbers (ps_cost p) ∧ all_opt price_spec_numbers (ps_price p) ∧
  all_opt metadata_numbers (ps_metadata p).
Definition posting_numbers (p : posting) : Prop :=
  P (p_units p) ∧ all_opt cost_numbers (p_cost p) ∧ all_opt price_numbers (p_price p) ∧ all_opt metadata_numbers (p_metadata p).
(** All but the tolerance. *)
Definition directive_numbers (d : directive) : Prop :=
  all_opt metadata_numbers (d_metadata d) ∧
  match d_variant d with
  | DTransaction t => Forall posting_spec_numbers (tx_postings t)
  | DPrice p => price_numbers (pd_price p)
  | DBalance b => P (bal_units b)
  | DCustom c => Forall meta_numbers (cu_values c)
  | _ => True
  end.
Definition booked_numbers (d : bdirective) : Prop :=
  all_opt metadata_numbers (b_metadata d) ∧
  match b_variant d with
  | BVTransaction t => Forall posting_numbers (bt_postings t)
  | BVPrice p => price_numbers (pd_price p)
  | BVBalance b => P (bal_units (bb_raw b))
  | BVCustom c => Forall meta_numbers (cu_values c)
  | _ => True
  end.
(** The tolerance. *)
Definition tolerance_of (v : directive_variant) : option dec := match v with DBalance b => bal_tolerance b | _ => None end.
Definition booked_tolerance (v : bvariant) : option dec := match v with BVBalance b => bal_tolerance (bb_raw b) | _ => None end.
End Numbers.

(** All dates exist. *)
Definition meta_dates (v : meta_value) : Prop := match v with MVDate d => ok_date d | _ => True end.
Definition metadata_dates (m : gmap string meta_value) : Prop := ∀ k v, m !! k = Some v → meta_dates v.
Definition directive_dates (d : directive) : Prop :=
  ok_date (d_date d) ∧ all_opt metadata_dates (d_metadata d) ∧
  match d_variant d with
  | DTransaction t => Forall (λ p, all_opt (λ c, all_opt ok_date (cs_date c)) (ps_cost p) ∧ all_opt metadata_dates (ps_metadata p)) (tx_postings t)
  | DCustom c => Forall meta_dates (cu_values c)
  | _ => True
  end.
Definition booked_dates (d : bdirective) : Prop :=
  ok_date (b_date d) ∧ all_opt metadata_dates (b_metadata d) ∧
  match b_variant d with
  | BVTransaction t => Forall (λ p, all_opt (λ c, ok_date (c_date c)) (p_cost p) ∧ all_opt metadata_dates (p_metadata p)) (bt_postings t)
  | BVCustom c => Forall meta_dates (cu_values c)
  | _ => True
  end.
