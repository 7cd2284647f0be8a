(** When the same ledger is to give the same reports. *)
From Coq Require Import Ascii QArith.
From stdpp Require Import prelude gmap strings.
From Verif Require Import DecModel LedgerTypes CljModel InventoryModel InventorySpec ClientModel LoaderModel RollupSpec.

(** Where lots are merged, costs of one account and currency which agree in value have
    their prices all written with a point, or all without. *)
Definition written_alike (booking : string → booking) (ps : list cposting) : Prop :=
  ∀ p q, p ∈ ps → q ∈ ps → cp_acc p = cp_acc q → cp_cur p = cp_cur q → merges (booking (cp_acc p)) = true →
    equal_cost (cp_cost p) (cp_cost q) → cost_kind (cp_cost p) = cost_kind (cp_cost q).

(** One currency is held by more accounts than any other. *)
Definition most_held (inv : gmap string (list position)) (cur : string) : Prop :=
  ∀ c, c ≠ cur → (holders inv c < holders inv cur)%nat.

(** What the reports are made from after a ledger was loaded. *)
Definition beans_of (m : loaded) : option beans :=
  vs ← l_directives m; ds ← mapM view_directive vs; Some (Beans ds (default VNil (l_options m))).
