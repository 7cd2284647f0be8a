(** Periods of time, and reports of them, said without filters. *)
From Coq Require Import ZArith Sorted.
From stdpp Require Import prelude gmap strings.
From Verif Require Import LedgerTypes InventorySpec InventoryModel ClientModel.

Definition not_later (a b : date) : Prop := ¬ earlier b a.
(** The financial year of a day is named after the calendar year in which it begins, on
    the first of April. *)
Definition financial_year (d : date) : Z :=
  if (4 <=? date_month d)%Z then date_year d else (date_year d - 1)%Z.

(** The periods between consecutive days; a period has its first day and not its last. *)
Fixpoint periods (b : date) (ends : list date) : list (date * date) :=
  match ends with [] => [] | e :: ends' => (b, e) :: periods e ends' end.

(** No transaction is followed by one of an earlier day. *)
Definition in_date_order (ds : list cdirective) : Prop :=
  ∀ i j d d' a b, (i < j)%nat → ds !! i = Some d → ds !! j = Some d' →
    cd_dct d = "txn"%string → cd_dct d' = "txn"%string → cd_date d = Some a → cd_date d' = Some b → not_later a b.

(** The reports which show what accounts hold. *)
Definition is_report (co : client_orders) (bs : beans) (r : list (citem → bool) → option (gmap string (list position))) : Prop :=
  r = inventory co bs ∨ r = balances co bs ∨ r = income_statement co bs.
