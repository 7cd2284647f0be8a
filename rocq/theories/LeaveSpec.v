(** Leaving directives out of a ledger. *)
From Coq Require Import Ascii QArith.
From stdpp Require Import prelude gmap strings.
From Verif Require Import DecModel LedgerTypes BookModel BookSpec.

(** The directive says something about the ledger, but does nothing. *)
Definition comment_only (d : directive) : Prop :=
  match d_variant d with
  | DPrice _ | DCommodity _ | DDocument _ _ | DNote _ _ | DEvent _ _ | DQuery _ _ | DCustom _ => True
  | DTransaction _ | DBalance _ | DOpen _ | DClose _ | DPad _ => False
  end.
(** Before the directive at [i] there is a pad on the account, and no balance assertion on
    it between the two. *)
Definition pad_waits (ds : list directive) (i : nat) (a : string) : Prop :=
  ∃ j d p, j < i ∧ ds !! j = Some d ∧ d_variant d = DPad p ∧ pad_acc p = a ∧
    ∀ k d' b, j < k → k < i → ds !! k = Some d' → d_variant d' = DBalance b → bal_acc b ≠ a.
(** The balance assertion at [i] is only a check: no pad waits for it. *)
Definition check_only (ds : list directive) (i : nat) (d : directive) : Prop :=
  ∃ b, d_variant d = DBalance b ∧ ¬ pad_waits ds i (bal_acc b).

(** The elements of the list, the first of them having number [i], whose numbers are not
    among those which are left out. *)
Fixpoint left_from {A} (gone : nat → bool) (i : nat) (l : list A) : list A :=
  match l with
  | [] => []
  | x :: l => if gone i then left_from gone (S i) l else x :: left_from gone (S i) l
  end.
Definition without (gone : nat → bool) (ds : list directive) : list directive := left_from gone 0 ds.
(** What is booked for the directives which are not left out. *)
Definition booked_without (gone : nat → bool) (bs : list bdirective) : list bdirective := filter (λ b, gone (b_idx b) = false) bs.
