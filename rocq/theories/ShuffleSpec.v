(** Ledgers which differ in the order of transactions, and what the booking library has to
    do with it. *)
From Coq Require Import Ascii QArith.
From stdpp Require Import prelude gmap strings.
From Verif Require Import DecModel LedgerTypes BookModel BookSpec BookLib.

(** A transaction none of whose postings is at cost. *)
Definition costless (ps : list posting_spec) : Prop := Forall (λ p, ps_cost p = None) ps.
Definition costless_transaction (d : directive) : Prop := ∃ t, d_variant d = DTransaction t ∧ costless (tx_postings t).

(** The same ledger but for the order of transactions without costs which follow each
    other: no other directive, and none with costs, is between them. *)
Inductive reordered : list directive → list directive → Prop :=
| RO_same ds : reordered ds ds
| RO_swap ds1 a b ds2 : costless_transaction a → costless_transaction b →
    reordered (ds1 ++ a :: b :: ds2) (ds1 ++ b :: a :: ds2)
| RO_step ds ds' ds'' : reordered ds ds' → reordered ds' ds'' → reordered ds ds''.

(** Booked postings which are the same but for how the number is written. *)
Record posting_alike (p q : posting) : Prop := {
  pa_units : (dec_value (p_units p) == dec_value (p_units q))%Q;
  pa_rest : p_idx p = p_idx q ∧ p_flag p = p_flag q ∧ p_acc p = p_acc q ∧ p_cur p = p_cur q ∧ p_cost p = p_cost q ∧
    p_price p = p_price q ∧ p_tags p = p_tags q ∧ p_links p = p_links q ∧ p_metadata p = p_metadata q }.
(** Booked directives which are the same but for their number in the ledger and how the
    numbers of postings are written. *)
Definition variant_alike (v w : bvariant) : Prop :=
  match v, w with
  | BVTransaction t, BVTransaction u =>
      bt_flag t = bt_flag u ∧ bt_payee t = bt_payee u ∧ bt_narration t = bt_narration u ∧
      Forall2 posting_alike (bt_postings t) (bt_postings u)
  | BVTransaction _, _ | _, BVTransaction _ => False
  | _, _ => v = w
  end.
Record booked_alike (b c : bdirective) : Prop := {
  ba_date : b_date b = b_date c; ba_tags : b_tags b = b_tags c; ba_links : b_links b = b_links c;
  ba_metadata : b_metadata b = b_metadata c; ba_variant : variant_alike (b_variant b) (b_variant c) }.
Definition same_but_order (bs cs : list bdirective) : Prop := ∃ ms, bs ≡ₚ ms ∧ Forall2 booked_alike ms cs.

(** The inventories after the library has updated some. *)
Definition after {P} (inv : string → option P) (upd : list (string * P)) (n : string) : option P :=
  match (list_to_map upd : gmap string P) !! n with Some p => Some p | None => inv n end.
(** The library does not mind in which order transactions without costs come: what they
    are completed to is the same, and so are the holdings afterwards, as far as it or
    anyone can tell. *)
Record reorders {P} (L : booking_lib P) (same : P → P → Prop) : Prop := {
  (** what is equal is the same *)
  ro_refl : ∀ p, same p p;
  (** the same holdings have the same units *)
  ro_units : ∀ p p' cur, same p p' → (held L p cur == held L p' cur)%Q;
  (** they are the same after the same has been added *)
  ro_accumulate : ∀ p p' u u' c, same p p' → (dec_value u == dec_value u')%Q → same (lib_accumulate L p u c) (lib_accumulate L p' u' c);
  (** transactions are booked in the same way on the same holdings *)
  ro_book : ∀ dt ps inv inv' bk ips upd, (∀ n, option_Forall2 same (inv n) (inv' n)) →
    lib_book L dt ps inv bk = LibOk ips upd →
    ∃ upd', lib_book L dt ps inv' bk = LibOk ips upd' ∧
      ∀ n, option_Forall2 same ((list_to_map upd : gmap string P) !! n) ((list_to_map upd' : gmap string P) !! n);
  (** two transactions without costs on accounts which there are *)
  ro_swap : ∀ dt ps ips upd dt' ps' ips' upd' inv bk, costless ps → costless ps' →
    (∀ a, a ∈ ps_acc <$> ps ++ ps' → is_Some (inv a)) →
    lib_book L dt ps inv bk = LibOk ips upd → lib_book L dt' ps' (after inv upd) bk = LibOk ips' upd' →
    ∃ upd1 upd2, lib_book L dt' ps' inv bk = LibOk ips' upd1 ∧ lib_book L dt ps (after inv upd1) bk = LibOk ips upd2 ∧
      ∀ n, option_Forall2 same (after (after inv upd) upd' n) (after (after inv upd1) upd2 n) }.
