(** Renaming the accounts of a ledger. *)
From Coq Require Import Ascii QArith.
From stdpp Require Import prelude gmap strings.
From Verif Require Import DecModel LedgerTypes BookModel BookSpec CljModel InventoryModel ClientModel.

(** ** The ledger with other names for its accounts *)
Section Renaming.
Context (r : string → string).
Definition rename_posting (x : posting_spec) : posting_spec :=
  PostingSpec (ps_span x) (ps_flag x) (r (ps_acc x)) (ps_units x) (ps_cur x) (ps_cost x) (ps_price x) (ps_tags x) (ps_links x) (ps_metadata x).
Definition rename_variant (v : directive_variant) : directive_variant :=
  match v with
  | DTransaction t => DTransaction (Transaction (tx_flag t) (tx_payee t) (tx_narration t) (rename_posting <$> tx_postings t))
  | DBalance b => DBalance (Balance (r (bal_acc b)) (bal_units b) (bal_cur b) (bal_tolerance b))
  | DOpen o => DOpen (Open (r (op_acc o)) (op_currencies o) (op_booking o))
  | DClose a => DClose (r a)
  | DPad p => DPad (Pad (r (pad_acc p)) (r (pad_source p)))
  | DDocument a p => DDocument (r a) p
  | DNote a c => DNote (r a) c
  | DPrice _ | DCommodity _ | DEvent _ _ | DQuery _ _ | DCustom _ => v
  end.
Definition rename (d : directive) : directive :=
  Directive (d_span d) (d_date d) (d_tags d) (d_links d) (d_metadata d) (rename_variant (d_variant d)).

(** ** What is booked, with other names *)
Definition rename_booked_posting (q : posting) : posting :=
  Posting (p_idx q) (p_flag q) (r (p_acc q)) (p_units q) (p_cur q) (p_cost q) (p_price q) (p_tags q) (p_links q) (p_metadata q).
Definition rename_booked_variant (v : bvariant) : bvariant :=
  match v with
  | BVTransaction t => BVTransaction (BTransaction (bt_flag t) (bt_payee t) (bt_narration t) (rename_booked_posting <$> bt_postings t))
  | BVBalance b => BVBalance (BBalance (Balance (r (bal_acc (bb_raw b))) (bal_units (bb_raw b)) (bal_cur (bb_raw b)) (bal_tolerance (bb_raw b))) (bb_unused_pad b) (bb_margin b))
  | BVOpen o => BVOpen (Open (r (op_acc o)) (op_currencies o) (op_booking o))
  | BVClose a => BVClose (r a)
  | BVPad p => BVPad (Pad (r (pad_acc p)) (r (pad_source p)))
  | BVDocument a p => BVDocument (r a) p
  | BVNote a c => BVNote (r a) c
  | BVPrice _ | BVCommodity _ | BVEvent _ _ | BVQuery _ _ | BVCustom _ => v
  end.
Definition rename_booked (b : bdirective) : bdirective :=
  BDirective (b_idx b) (b_date b) (b_tags b) (b_links b) (b_metadata b) (rename_booked_variant (b_variant b)).
Definition rename_item (it : citem) : citem := CItem (it_date it) (r <$> it_acc it) (it_cur it) (it_payee it) (it_narration it).
End Renaming.

(** The accounts which a directive names. *)
Definition names_of (d : directive) : list string :=
  match d_variant d with
  | DTransaction t => ps_acc <$> tx_postings t
  | DBalance b => [bal_acc b]
  | DOpen o => [op_acc o]
  | DClose a => [a]
  | DPad p => [pad_acc p; pad_source p]
  | DDocument a _ | DNote a _ => [a]
  | _ => []
  end.
(** The new names are below each other as the old ones are; no two become the same. *)
Definition keeps_hierarchy (r : string → string) (ds : list directive) : Prop :=
  ∀ a b, a ∈ ds ≫= names_of → b ∈ ds ≫= names_of → under (r a) (r b) = under a b.

(** Error reports on the same directive or posting, referring to the same others, with the
    same table but for the accounts in it. *)
Definition row_but_account (d : diag_row) : date * bool * dec * dec * option string :=
  (dr_date d, match dr_acc d with Some _ => true | None => false end, dr_units d, dr_total d, dr_description d).
Definition same_place (e e' : report) : Prop :=
  r_idx e' = r_idx e ∧ r_related e' = r_related e ∧ map row_but_account <$> r_annotation e' = map row_but_account <$> r_annotation e.

(** The library takes the names of accounts as they are: under other names it books the
    same, or refuses as well. *)
Definition lib_nameless {P} (L : booking_lib P) : Prop := ∀ (r : string → string) dt ps inv inv' bk bk',
  (∀ a b, a ∈ ps_acc <$> ps → b ∈ ps_acc <$> ps → r a = r b → a = b) →
  (∀ a, a ∈ ps_acc <$> ps → inv' (r a) = inv a ∧ bk' (r a) = bk a) →
  match lib_book L dt ps inv bk with
  | LibOk ips upd => lib_book L dt (rename_posting r <$> ps) inv' bk' = LibOk ips ((λ x, (r x.1, x.2)) <$> upd)
  | _ => ∀ ips upd, lib_book L dt (rename_posting r <$> ps) inv' bk' ≠ LibOk ips upd
  end.
