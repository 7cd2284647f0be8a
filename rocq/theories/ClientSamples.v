(** Concrete ledgers on the client. *)
From Coq Require Import Ascii QArith.
From stdpp Require Import prelude gmap strings.
From Verif Require Import DecModel LedgerTypes IsoModel JsonModel WireModel WireSamples ParserModel ServerModel BookModel
  BookLib SampleLib SampleLedgers CljModel InventoryModel ClientModel.
Local Open Scope nat_scope.

Definition sample_orders : orders holding := Orders _ sample_ord plain_order map_to_list.
Definition options_with (m : option booking) : poptions :=
  POptions "Assets" "Liabilities" "Equity" "Income" "Expenses" None None None None None None None None None
    [] None None [] [] None m None.

(** What the client has after a ledger was booked by the server. *)
Definition client_directives (bs : list bdirective) : list cdirective :=
  omap (λ b, view_directive (decode None (put_bdirective plain_order b))) bs.
Definition client_options (m : option booking) : cval :=
  decode None (put_options sample_orders (from_options (options_with m))).
Definition plain_orders : client_orders := ClientOrders (λ l, l) (λ l, l).

(** An account with the average method, which the server accepts with a warning. *)
Definition average_ledger : list directive :=
  [ dir 1 (DOpen (Open "Assets:Fund" None (Some BAverage)));
    dir 1 (dopen "Equity:Opening");
    dir 2 (txn [post "Assets:Fund" 5 "USD"; post "Equity:Opening" (-5) "USD"]) ].
(** Whole numbers of which the sum has more than 64 bits. *)
Definition large_ledger : list directive :=
  [ dir 1 (dopen "Assets:Bank"); dir 1 (dopen "Equity:Opening");
    dir 2 (txn [post "Assets:Bank" 9000000000000000000 "IDR"; post "Equity:Opening" (-9000000000000000000) "IDR"]);
    dir 3 (txn [post "Assets:Bank" 9000000000000000000 "IDR"; post "Equity:Opening" (-9000000000000000000) "IDR"]) ].
(** Two purchases at the same cost. *)
Definition buy (n : Z) : directive :=
  Directive None (day n) None None None (txn
    [ PostingSpec None None "Assets:Shares" (Some (Dec 3 0)) (Some "HOOL")
        (Some (CostSpec (Some (Dec 5 0)) None (Some "USD") (Some (day 1)) None false)) None None None None;
      post "Income:Gift" (-15) "USD" ]).
Definition lots_ledger : list directive :=
  [ dir 1 (dopen "Assets:Shares"); dir 1 (dopen "Income:Gift"); buy 2; buy 3 ].

Definition booked_of_ledger (ds : list directive) : list bdirective := booked_or_nil (sample_run ds).
Definition books (ds : list directive) : bool := match sample_run ds with BookSuccess _ _ => true | _ => false end.
Lemma books_success ds : books ds = true → ∃ ws, sample_run ds = BookSuccess (booked_of_ledger ds) ws.
Proof. unfold books, booked_of_ledger. destruct (sample_run ds) as [bs ws| |]; [|done..]. intros _. by exists ws. Qed.
Lemma sample_books : books average_ledger = true ∧ books large_ledger = true ∧ books lots_ledger = true ∧ books ledger1 = true.
Proof. vm_compute. auto. Qed.
