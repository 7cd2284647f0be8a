(** What it means that booking has nothing left to do, said of the booking library and
    of the ledger which the booked directives are when they are written down. *)
From Coq Require Import Ascii QArith.
From stdpp Require Import prelude gmap strings.
From Verif Require Import DecModel LedgerTypes BookModel BookSpec BookLib.
Local Open Scope nat_scope.

(** A posting with all that the library knows of it: one for each lot, at the cost of a
    unit, and one at the price of a unit if there are no lots. *)
Definition completed (ip : interpolated) (ps : posting_spec) : list posting_spec :=
  let as_spec u c p := PostingSpec None (ps_flag ps) (ps_acc ps) (Some u) (Some (in_currency ip)) c p (ps_tags ps) (ps_links ps) (ps_metadata ps) in
  match in_cost ip with
  | Some lots =>
      (λ lot : string * posting_cost,
         as_spec (pc_units lot.2)
           (Some (CostSpec (Some (pc_per_unit lot.2)) None (Some lot.1) (Some (pc_date lot.2)) (pc_label lot.2) (pc_merge lot.2))) None) <$> lots
  | None => [as_spec (in_units ip) None ((λ p, PriceSpec (Some (pr_per_unit p)) None (Some (pr_cur p))) <$> in_price ip)]
  end.
Definition all_completed (ips : list interpolated) (pss : list posting_spec) : list posting_spec := concat (zip_with completed ips pss).
(** The library knows no more of the posting than it says. *)
Definition repeats (ps : posting_spec) (ip : interpolated) : Prop := completed ip ps = [ps].

(** The library has nothing to add to a transaction which it has completed: with
    holdings which are the same as far as it can tell, it takes the completed postings
    as they are, and the holdings are the same afterwards. *)
Record settles {P} (L : booking_lib P) (same : P → P → Prop) : Prop := {
  (** new accounts hold the same *)
  st_empty : same (lib_empty L) (lib_empty L);
  (** the same holdings have the same units *)
  st_units : ∀ p p' cur, same p p' → (held L p cur == held L p' cur)%Q;
  (** completed postings are booked as they are *)
  st_book : ∀ dt ps inv inv' bk bk' ips upd,
    (∀ n, option_Forall2 same (inv n) (inv' n)) → (∀ n, bk n = bk' n) →
    lib_book L dt ps inv bk = LibOk ips upd →
    ∃ ips' upd',
      lib_book L dt (all_completed ips ps) inv' bk' = LibOk ips' upd' ∧
      Forall2 repeats (all_completed ips ps) ips' ∧
      NoDup upd.*1 ∧ NoDup upd'.*1 ∧
      ∀ n, option_Forall2 same ((list_to_map upd : gmap string P) !! n) ((list_to_map upd' : gmap string P) !! n) }.
