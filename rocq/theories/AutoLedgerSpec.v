(** A ledger in which missing opens are filled in: the specification of
    [AutoLedgerProps.v], in terms of ledger directives only. *)
From Coq Require Import Ascii QArith Sorted.
From stdpp Require Import prelude gmap strings.
From Verif Require Import DecModel LedgerTypes InventorySpec.

(** Directive [d] opens account [a]; it is a transaction with a posting to [a]. *)
Definition opening_of (d : directive) (a : string) : Prop := ∃ o, d_variant d = DOpen o ∧ op_acc o = a.
Definition posting_to (d : directive) (a : string) : Prop :=
  ∃ t q, d_variant d = DTransaction t ∧ q ∈ tx_postings t ∧ ps_acc q = a.
(** An open for all currencies on a date, with the metadata [auto:]. *)
Definition filled_in (day : date) (a : string) : directive :=
  Directive None day None None (Some {[ "auto" := MVNull ]}) (DOpen (Open a None None)).
(** [l] is the ledger [ds] where before each transaction those of its accounts are
    opened, on the same date and in the order of their names, which no directive of [ds]
    before it opens or posts to. *)
Definition opens_filled_in (ds l : list directive) : Prop :=
  ∃ accs : list (list string), length accs = length ds ∧
    l = mjoin (zip_with (λ as_ d, (filled_in (d_date d) <$> as_) ++ [d]) accs ds) ∧
    ∀ i d as_, ds !! i = Some d → accs !! i = Some as_ →
      StronglySorted before as_ ∧
      ∀ a, a ∈ as_ ↔ posting_to d a ∧ ∀ j e, j < i → ds !! j = Some e → ¬ opening_of e a ∧ ¬ posting_to e a.
