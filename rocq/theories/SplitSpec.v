(** Two sets of books in one ledger. *)
From Coq Require Import Ascii QArith.
From stdpp Require Import prelude gmap strings.
From Verif Require Import DecModel LedgerTypes BookModel BookSpec.

(** All accounts in which the directive does or checks something are on side [s]; [mine]
    tells which accounts are on the first side. *)
Definition about (mine : string → bool) (s : bool) (d : directive) : Prop :=
  match d_variant d with
  | DTransaction t => Forall (λ ps, mine (ps_acc ps) = s) (tx_postings t)
  | DBalance b => mine (bal_acc b) = s
  | DOpen o => mine (op_acc o) = s
  | DClose a => mine a = s
  | DPad p => mine (pad_acc p) = s ∧ mine (pad_source p) = s
  | _ => True
  end.
(** The ledger is of two sets of books: every directive belongs to one of them, and a
    balance assertion is not on an account which has sub-accounts of the other. *)
Definition two_books (mine : string → bool) (side : directive → bool) (ds : list directive) : Prop :=
  (∀ d, d ∈ ds → about mine (side d) d) ∧
  (∀ d d' b o, d ∈ ds → d' ∈ ds → d_variant d = DBalance b → d_variant d' = DOpen o →
     under (bal_acc b) (op_acc o) = true → mine (bal_acc b) = mine (op_acc o)).
(** The directives of one of them. *)
Definition books (side : directive → bool) (s : bool) (ds : list directive) : list directive := filter (λ d, side d = s) ds.

(** Booked directives have the number of theirs in the ledger; it is left out here. *)
Definition unnumbered (b : bdirective) : bdirective := BDirective 0 (b_date b) (b_tags b) (b_links b) (b_metadata b) (b_variant b).
(** Those booked for the directives of one side of the ledger. *)
Definition booked_for (side : directive → bool) (s : bool) (ds : list directive) (bs : list bdirective) : list bdirective :=
  filter (λ b, side <$> ds !! b_idx b = Some s) bs.

(** The library looks only at the accounts of the postings. *)
Definition lib_local {P} (L : booking_lib P) : Prop := ∀ dt ps inv inv' bk bk',
  (∀ a, a ∈ ps_acc <$> ps → inv a = inv' a ∧ bk a = bk' a) → lib_book L dt ps inv bk = lib_book L dt ps inv' bk'.
