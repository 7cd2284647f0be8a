(** What a roll-up shows, said without the hash maps. *)
From Coq Require Import Ascii QArith.
From stdpp Require Import prelude gmap strings.
From Verif Require Import DecModel LedgerTypes CljModel InventoryModel InventorySpec ClientSpec.

Definition ends_with_colon (s : string) : Prop := ∃ p, s = p +:+ ":".
(** Accounts as the parser allows them. *)
Definition well_named (inv : gmap string (list position)) : Prop :=
  ∀ acc, is_Some (inv !! acc) → ¬ ends_with_colon acc.

(** What an account holds itself. *)
Definition own (inv : gmap string (list position)) (cur acc : string) : Q := held cur (holding inv acc).
Fixpoint starts_with (p s : string) : bool :=
  match p, s with
  | EmptyString, _ => true
  | String a p', String b s' => Ascii.eqb a b && starts_with p' s'
  | _, EmptyString => false
  end.
Definition is_under (base name : string) : bool := String.eqb name base || starts_with (base +:+ ":") name.
(** What it and all accounts below it hold together. *)
Definition together (inv : gmap string (list position)) (cur acc : string) : Q :=
  qsum ((λ e, held cur e.2) <$> filter (λ e, is_under acc e.1 = true) (map_to_list inv)).
(** What has been posted to it and to all accounts below it. *)
Definition posted_under (acc cur : string) (ps : list cposting) : Q :=
  qsum ((λ p, cn_value (cp_units p)) <$> filter (λ p, is_under acc (cp_acc p) = true ∧ cp_cur p = cur) ps).
(** Number of colons. *)
Fixpoint colons (s : string) : nat :=
  match s with EmptyString => 0 | String c s' => if Ascii.eqb c ":" then S (colons s') else colons s' end.
(** Number of accounts which hold a currency. *)
Definition holders (inv : gmap string (list position)) (cur : string) : nat :=
  length (filter (λ e : string * list position, Exists (λ p, pos_cur p = cur) e.2) (map_to_list inv)).
