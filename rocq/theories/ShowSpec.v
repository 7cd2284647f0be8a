(** What [show] is to print. *)
From Coq Require Import Ascii QArith.
From stdpp Require Import prelude gmap strings pretty.
From Verif Require Import DecModel LedgerTypes IsoModel JsonModel JsonText WireModel CljModel InventoryModel ClientModel FormatModel CellModel.

(** The texts in a cell, from left to right and from top to bottom. *)
Fixpoint cell_texts (c : cell) : list string :=
  match c with
  | CEmpty => []
  | CStack l | CRow l _ => concat (map cell_texts l)
  | CAligned s | CAnchored s _ => [s]
  end.
(** The texts of a value: those of everything in it, and of the keys of maps. *)
Fixpoint value_texts (v : cval) : list string :=
  match v with
  | VNil | VThrow => []
  | VBool b => [if b then "true" else "false"]
  | VNum n => [num_text n]
  | VStr s => [s]
  | VKw k => [":" +:+ k]
  | VDate d => [fmt_date d]
  | VVec l | VSet l => concat (map value_texts l)
  | VMap fs => concat (map (λ kv, (":" +:+ kv.1) :: value_texts kv.2) fs)
  end.
(** How many maps, vectors and sets are inside one another. *)
Fixpoint levels (v : cval) : nat :=
  match v with
  | VVec l | VSet l => S (max_list (map levels l))
  | VMap fs => S (max_list (map (λ kv, levels kv.2) fs))
  | _ => 0
  end.
(** Texts are lined up at one of their characters. *)
Fixpoint anchored_well (c : cell) : Prop :=
  match c with
  | CEmpty | CAligned _ => True
  | CStack l | CRow l _ => foldr (λ c P, anchored_well c ∧ P) True l
  | CAnchored s i => (0 ≤ i)%Z
  end.
