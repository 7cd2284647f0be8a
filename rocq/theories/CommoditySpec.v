(** Renaming the commodities of a ledger. *)
From Coq Require Import Ascii QArith.
From stdpp Require Import prelude gmap strings.
From Verif Require Import DecModel LedgerTypes BookModel BookSpec CljModel InventoryModel ClientModel.

(** ** The ledger with other names for its commodities *)
Section Commodities.
Context (r : string → string).
Definition recur_meta (m : meta_value) : meta_value :=
  match m with
  | MVAmount u c => MVAmount u (r c)
  | MVCurrency c => MVCurrency (r c)
  | MVString _ | MVAccount _ | MVTag _ | MVLink _ | MVDate _ | MVBool _ | MVNumber _ | MVNull => m
  end.
Definition recur_metadata (m : metadata_t) : metadata_t :=
  match m with Some l => Some ((λ v, recur_meta v) <$> l) | None => None end.
Definition recur_cost_spec (c : cost_spec) : cost_spec :=
  CostSpec (cs_per_unit c) (cs_total c) (r <$> cs_cur c) (cs_date c) (cs_label c) (cs_merge c).
Definition recur_price_spec (p : price_spec) : price_spec := PriceSpec (prs_per_unit p) (prs_total p) (r <$> prs_cur p).
Definition recur_price (p : price) : price := Price (pr_per_unit p) (pr_total p) (r (pr_cur p)).
Definition recur_posting_spec (x : posting_spec) : posting_spec :=
  PostingSpec (ps_span x) (ps_flag x) (ps_acc x) (ps_units x) (r <$> ps_cur x) (recur_cost_spec <$> ps_cost x) (recur_price_spec <$> ps_price x)
    (ps_tags x) (ps_links x) (recur_metadata (ps_metadata x)).
Definition recur_balance (b : balance) : balance := Balance (bal_acc b) (bal_units b) (r (bal_cur b)) (bal_tolerance b).
Definition recur_open (o : open) : open := Open (op_acc o) (match op_currencies o with Some l => Some (set_map r l) | None => None end) (op_booking o).
Definition recur_price_dct (p : price_dct) : price_dct := PriceDct (r (pd_cur p)) (recur_price (pd_price p)).
Definition recur_custom (c : custom) : custom := Custom (cu_type c) (recur_meta <$> cu_values c).
Definition recur_variant (v : directive_variant) : directive_variant :=
  match v with
  | DTransaction t => DTransaction (Transaction (tx_flag t) (tx_payee t) (tx_narration t) (recur_posting_spec <$> tx_postings t))
  | DPrice p => DPrice (recur_price_dct p)
  | DBalance b => DBalance (recur_balance b)
  | DOpen o => DOpen (recur_open o)
  | DCommodity c => DCommodity (r c)
  | DCustom c => DCustom (recur_custom c)
  | DClose _ | DPad _ | DDocument _ _ | DNote _ _ | DEvent _ _ | DQuery _ _ => v
  end.
Definition recur (d : directive) : directive :=
  Directive (d_span d) (d_date d) (d_tags d) (d_links d) (recur_metadata (d_metadata d)) (recur_variant (d_variant d)).

(** ** What is booked, with other names *)
Definition recur_cost (c : cost) : cost := Cost (c_date c) (c_per_unit c) (c_total c) (r (c_cur c)) (c_label c) (c_merge c).
Definition recur_posting (q : posting) : posting :=
  Posting (p_idx q) (p_flag q) (p_acc q) (p_units q) (r (p_cur q)) (recur_cost <$> p_cost q) (recur_price <$> p_price q)
    (p_tags q) (p_links q) (recur_metadata (p_metadata q)).
Definition recur_booked_variant (v : bvariant) : bvariant :=
  match v with
  | BVTransaction t => BVTransaction (BTransaction (bt_flag t) (bt_payee t) (bt_narration t) (recur_posting <$> bt_postings t))
  | BVPrice p => BVPrice (recur_price_dct p)
  | BVBalance b => BVBalance (BBalance (recur_balance (bb_raw b)) (bb_unused_pad b) (bb_margin b))
  | BVOpen o => BVOpen (recur_open o)
  | BVCommodity c => BVCommodity (r c)
  | BVCustom c => BVCustom (recur_custom c)
  | BVClose _ | BVPad _ | BVDocument _ _ | BVNote _ _ | BVEvent _ _ | BVQuery _ _ => v
  end.
Definition recur_booked (b : bdirective) : bdirective :=
  BDirective (b_idx b) (b_date b) (b_tags b) (b_links b) (recur_metadata (b_metadata b)) (recur_booked_variant (b_variant b)).
Definition recur_item (it : citem) : citem := CItem (it_date it) (it_acc it) (r <$> it_cur it) (it_payee it) (it_narration it).
Definition recur_interpolated (i : interpolated) : interpolated :=
  Interpolated (in_units i) (r (in_currency i)) (match in_cost i with Some l => Some ((λ x, (r x.1, x.2)) <$> l) | None => None end) (recur_price <$> in_price i).
End Commodities.

(** Error reports which differ in their text only, which quotes the commodity. *)
Definition same_but_text (e e' : report) : Prop :=
  r_idx e' = r_idx e ∧ r_related e' = r_related e ∧ r_annotation e' = r_annotation e.

(** The library takes the names of commodities as they are.  [L] is the library set up for
    the ledger and [L'] the library set up for the renamed one, since the tolerances which
    it is given go by commodity; [f] renames the commodities in what an account holds. *)
Record lib_renamed {P P'} (r : string → string) (f : P → P') (L : booking_lib P) (L' : booking_lib P') : Prop := {
  lr_empty : lib_empty L' = f (lib_empty L);
  lr_units : ∀ p c, lib_units L' (f p) !! r c = lib_units L p !! c;
  lr_accumulate : ∀ p u c, lib_accumulate L' (f p) u (r c) = f (lib_accumulate L p u c);
  lr_book : ∀ dt ps inv inv' bk bk', (∀ a, inv' a = f <$> inv a) → (∀ a, bk' a = bk a) →
    match lib_book L dt ps inv bk with
    | LibOk ips upd => lib_book L' dt (recur_posting_spec r <$> ps) inv' bk' = LibOk (recur_interpolated r <$> ips) ((λ x, (x.1, f x.2)) <$> upd)
    | _ => ∀ ips upd, lib_book L' dt (recur_posting_spec r <$> ps) inv' bk' ≠ LibOk ips upd
    end;
  lr_supported : ∀ b, lib_supported L' b = lib_supported L b;
  lr_default : lib_default_booking L' = lib_default_booking L;
  lr_multiplier : lib_multiplier L' = lib_multiplier L;
  lr_show : ∀ b, lib_show_booking L' b = lib_show_booking L b }.
