(** When two values which the client has are the same: the specification of
    [EqualProps.v]. *)
From Coq Require Import Ascii QArith.
From stdpp Require Import prelude gmap strings.
From Verif Require Import DecModel LedgerTypes CljModel ClientModel.

(** The same leaves, the same elements of vectors in the same order, the same elements of sets
    in any order, and the same values under the same keys of maps. *)
Inductive same_value : cval → cval → Prop :=
| E_nil : same_value VNil VNil
| E_bool b : same_value (VBool b) (VBool b)
| E_num n : same_value (VNum n) (VNum n)
| E_str s : same_value (VStr s) (VStr s)
| E_kw s : same_value (VKw s) (VKw s)
| E_date d : same_value (VDate d) (VDate d)
| E_throw : same_value VThrow VThrow
| E_vec l l' : Forall2 same_value l l' → same_value (VVec l) (VVec l')
| E_set l l' : l ≡ₚ l' → same_value (VSet l) (VSet l')
| E_map fs gs : (∀ k, option_Forall2 same_value (vfield k fs) (vfield k gs)) → same_value (VMap fs) (VMap gs).
(** No map in it has a key twice. *)
Inductive keys_once : cval → Prop :=
| O_leaf v : (match v with VVec _ | VMap _ => False | _ => True end) → keys_once v
| O_vec l : Forall keys_once l → keys_once (VVec l)
| O_map fs : NoDup fs.*1 → Forall keys_once fs.*2 → keys_once (VMap fs).
