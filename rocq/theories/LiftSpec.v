(** What the user sees of two ledgers. *)
From Coq Require Import Ascii QArith.
From stdpp Require Import prelude gmap strings.
From Verif Require Import DecModel LedgerTypes CljModel InventoryModel InventorySpec ClientModel RenameSpec.

(** With these filters every account holds the same of every currency. *)
Definition same_inventories (filters : list (citem → bool)) (b b' : beans) : Prop :=
  ∀ co co' inv inv', (∀ l, co_lots co l ≡ₚ l) → (∀ l, co_lots co' l ≡ₚ l) →
    inventory co b filters = Some inv → inventory co' b' filters = Some inv' →
    ∀ acc cur, (held cur (holding inv acc) == held cur (holding inv' acc))%Q.
(** With these filters the journals have the same rows, with the same balances. *)
Definition same_journals (filters : list (citem → bool)) (b b' : beans) : Prop :=
  ∀ co co' l l', (∀ l, co_lots co l ≡ₚ l) → (∀ l, co_lots co' l ≡ₚ l) →
    journal co b filters = Some l → journal co' b' filters = Some l' →
    length l = length l' ∧
    ∀ n row bal, l !! n = Some (row, bal) → ∃ row' bal', l' !! n = Some (row', bal') ∧
      item_of_posting row = item_of_posting row' ∧ (cn_value (cp_units row) == cn_value (cp_units row'))%Q ∧
      ∀ cur, (held cur bal == held cur bal')%Q.
(** The same but for payees, narrations and other annotations of the rows. *)
Definition same_amounts (filters : list (citem → bool)) (b b' : beans) : Prop :=
  ∀ co co' l l', (∀ l, co_lots co l ≡ₚ l) → (∀ l, co_lots co' l ≡ₚ l) →
    journal co b filters = Some l → journal co' b' filters = Some l' →
    length l = length l' ∧
    ∀ n row bal, l !! n = Some (row, bal) → ∃ row' bal', l' !! n = Some (row', bal') ∧
      cp_date row = cp_date row' ∧ cp_acc row = cp_acc row' ∧ cp_cur row = cp_cur row' ∧ (cn_value (cp_units row) == cn_value (cp_units row'))%Q ∧
      ∀ cur, (held cur bal == held cur bal')%Q.
(** The second shows under the new names of accounts what the first shows. *)
Definition renamed_inventories (r : string → string) (accounts : list string) (filters filters' : list (citem → bool)) (b b' : beans) : Prop :=
  ∀ co co' inv inv', (∀ l, co_lots co l ≡ₚ l) → (∀ l, co_lots co' l ≡ₚ l) →
    inventory co b filters = Some inv → inventory co' b' filters' = Some inv' →
    ∀ acc cur, acc ∈ accounts → (held cur (holding inv' (r acc)) == held cur (holding inv acc))%Q.
Definition renamed_journals (r : string → string) (filters filters' : list (citem → bool)) (b b' : beans) : Prop :=
  ∀ co co' l l', (∀ l, co_lots co l ≡ₚ l) → (∀ l, co_lots co' l ≡ₚ l) →
    journal co b filters = Some l → journal co' b' filters' = Some l' →
    length l' = length l ∧
    ∀ n row bal, l !! n = Some (row, bal) → ∃ row' bal', l' !! n = Some (row', bal') ∧
      item_of_posting row' = rename_item r (item_of_posting row) ∧ (cn_value (cp_units row') == cn_value (cp_units row))%Q ∧
      ∀ cur, (held cur bal' == held cur bal)%Q.
