(** What it means that the books balance, said in terms of the directives of the ledger
    and of what the booking library promises of one transaction. *)
From Coq Require Import Ascii QArith Qabs.
From stdpp Require Import prelude gmap strings.
From Verif Require Import DecModel LedgerTypes BookModel InventoryModel InventorySpec ClientModel.

(** A transaction without costs and prices. *)
Definition plain (t : transaction) : Prop := Forall (λ p, ps_cost p = None ∧ ps_price p = None) (tx_postings t).
(** The units of a currency in the postings as the library completes them. *)
Definition completed_units (cur : string) (ips : list interpolated) : Q :=
  qsum ((λ ip, dec_value (in_units ip)) <$> filter (λ ip, in_currency ip = cur) ips).
(** The library accepts such a transaction only if its units add up to zero, within a
    tolerance which depends on the postings. *)
Definition balances_within {P} (L : booking_lib P) (tol : list posting_spec → string → Q) : Prop :=
  ∀ dt t inv meth ips upd cur, plain t → lib_book L dt (tx_postings t) inv meth = LibOk ips upd →
    (Qabs (completed_units cur ips) <= tol (tx_postings t) cur)%Q.

(** A filter which takes or leaves a transaction as a whole: those by date, payee and
    narration do. *)
Definition by_transaction (f : citem → bool) : Prop :=
  ∀ x y, it_date x = it_date y → it_payee x = it_payee y → it_narration x = it_narration y → f x = f y.
(** The transactions of the ledger which pass such filters. *)
Definition chosen (filters : list (citem → bool)) (d : directive) : option transaction :=
  match d_variant d with
  | DTransaction t =>
      if forallb (λ f, f (CItem (Some (d_date d)) None None (tx_payee t) (tx_narration t))) filters then Some t else None
  | _ => None
  end.
Definition transactions (filters : list (citem → bool)) (ds : list directive) : list transaction := omap (chosen filters) ds.
(** All that they may be out by. *)
Definition allowance (tol : list posting_spec → string → Q) (cur : string) (ts : list transaction) : Q :=
  qsum ((λ t, tol (tx_postings t) cur) <$> ts).
