(** What the user's reports should show of the booked ledger, said in terms of the
    booked directives of the server alone. *)
From Coq Require Import Ascii QArith Sorted.
From stdpp Require Import prelude gmap strings.
From Verif Require Import DecModel LedgerTypes IsoModel InventoryModel InventorySpec ClientModel.

(** The booked postings in order, each with what a filter of the user can see of it: the
    date, payee and narration of its transaction, its account and its currency. *)
Definition booked_entries (bs : list bdirective) : list (citem * posting) :=
  b ← bs;
  match b_variant b with
  | BVTransaction t =>
      (λ p, (CItem (Some (b_date b)) (Some (p_acc p)) (Some (p_cur p)) (bt_payee t) (bt_narration t), p)) <$> bt_postings t
  | _ => []
  end.
(** Those which pass all filters. *)
Definition entries_selected (filters : list (citem → bool)) (bs : list bdirective) : list (citem * posting) :=
  filter (λ e, Forall (λ f, f e.1 = true) filters) (booked_entries bs).
(** The units of those entries which have the currency. *)
Definition entry_units (cur : string) (es : list (citem * posting)) : Q :=
  qsum ((λ e, dec_value (p_units e.2)) <$> filter (λ e, p_cur e.2 = cur) es).
(** Of these, those posted to the account. *)
Definition to_account (acc : string) (es : list (citem * posting)) : list (citem * posting) :=
  filter (λ e, p_acc e.2 = acc) es.

(** All units of a currency in an inventory. *)
Definition held_in_all (cur : string) (inv : gmap string (list position)) : Q :=
  qsum ((λ e, held cur e.2) <$> map_to_list inv).

(** The transactions before position [n] are those before the day [D]. *)
Definition divided_by (D : date) (n : nat) (bs : list bdirective) : Prop :=
  ∀ j b t, bs !! j = Some b → b_variant b = BVTransaction t → (j < n)%nat ↔ earlier (b_date b) D.

(** The order of a ledger: no directive is before one with an earlier date, and the
    balance assertions of a day are before its transactions and pads. *)
Definition moves (d : directive) : Prop := match d_variant d with DTransaction _ | DPad _ => True | _ => False end.
Definition asserts (d : directive) : Prop := match d_variant d with DBalance _ => True | _ => False end.
Definition may_precede (d d' : directive) : Prop :=
  ¬ earlier (d_date d') (d_date d) ∧ (asserts d' → moves d → earlier (d_date d) (d_date d')).
Definition in_ledger_order (ds : list directive) : Prop := StronglySorted may_precede ds.
