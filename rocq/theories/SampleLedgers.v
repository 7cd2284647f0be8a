(** Concrete ledgers for the examples and counterexamples. *)
From Coq Require Import Ascii QArith.
From stdpp Require Import prelude gmap strings.
From Verif Require Import DecModel LedgerTypes BookModel SampleLib.
Local Open Scope nat_scope.

Definition day (n : Z) : date := Date 2024 1 n.
Definition dir (n : Z) (v : directive_variant) : directive := Directive None (day n) None None None v.
Definition post (acc : string) (m : Z) (cur : string) : posting_spec :=
  PostingSpec None None acc (Some (Dec m 0)) (Some cur) None None None None None.
Definition txn (l : list posting_spec) : directive_variant :=
  DTransaction (Transaction "*" (Some "Shop") (Some "things") l).
Definition dopen (acc : string) : directive_variant := DOpen (Open acc None None).
Definition dbal (acc : string) (m : Z) (s : nat) (cur : string) : directive_variant :=
  DBalance (Balance acc (Dec m s) cur None).

Definition sample_run := book sample_lib sample_ord None.
Definition booked_or_nil (r : book_result) : list bdirective :=
  match r with BookSuccess bs _ => bs | _ => [] end.
Definition errors_or_nil (r : book_result) : list report :=
  match r with BookFailure es => es | _ => [] end.

(** Opens, a transaction into a sub-account at cost, a pad, balances, a close. *)
Definition ledger1 : list directive :=
  [ dir 1 (DOpen (Open "Assets:Bank" (Some {["USD"; "EUR"]}) (Some BFifo)));
    dir 1 (dopen "Assets:Bank:Sub");
    dir 1 (dopen "Assets:Bank2");
    dir 1 (dopen "Equity:Opening");
    dir 2 (DPad (Pad "Assets:Bank" "Equity:Opening"));
    Directive None (day 3) (Some {["tag"]}) None (Some {["k" := MVBool true]})
      (DTransaction (Transaction "!" (Some "Shop") None
        [ PostingSpec None (Some "#") "Assets:Bank:Sub" (Some (Dec 250 2)) (Some "USD")
            None None (Some {["ptag"]}) None None;
          PostingSpec None None "Assets:Bank2" (Some (Dec 10 0)) (Some "HOOL")
            (Some (CostSpec (Some (Dec 5 0)) None (Some "USD") None None false)) None None None None;
          post "Equity:Opening" (-3) "USD" ]));
    dir 4 (dbal "Assets:Bank" 1000 2 "USD");
    dir 5 (dbal "Assets:Bank:Sub" 25 1 "USD");
    dir 6 (txn [post "Assets:Bank" (-10) "USD"; post "Assets:Bank2" 10 "USD"]);
    dir 7 (dbal "Assets:Bank" 0 0 "USD");
    dir 8 (DClose "Assets:Bank2");
    dir 9 (DNote "Assets:Bank" "hello") ].

(** The same without the pad. *)
Definition ledger2 : list directive :=
  [ dir 1 (DOpen (Open "Assets:Bank" (Some {["USD"; "EUR"]}) None));
    dir 1 (dopen "Assets:Bank:Sub");
    dir 1 (dopen "Assets:Bank2");
    dir 3 (txn [post "Assets:Bank:Sub" 7 "USD"; post "Assets:Bank2" (-7) "USD"]);
    dir 4 (dbal "Assets:Bank" 701 2 "USD");
    dir 5 (txn [post "Assets:Bank" 3 "USD"; post "Assets:Bank2" (-3) "USD"]);
    dir 6 (dbal "Assets:Bank" 10 0 "USD") ].

Definition booked1 : list bdirective := Eval vm_compute in booked_or_nil (sample_run ledger1).
Definition booked2 : list bdirective := Eval vm_compute in booked_or_nil (sample_run ledger2).

Lemma ledger1_books : sample_run ledger1 = BookSuccess booked1 [].
Proof. vm_compute. reflexivity. Qed.
Lemma ledger2_books : sample_run ledger2 = BookSuccess booked2 [].
Proof. vm_compute. reflexivity. Qed.
