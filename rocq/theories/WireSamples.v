(** Concrete wire data. *)
From Coq Require Import Ascii.
From stdpp Require Import prelude gmap strings.
From Verif Require Import DecModel LedgerTypes IsoModel JsonModel WireModel WireSpec WireFacts SampleLedgers.

Definition plain_order : hash_order := HashOrder elements map_to_list.
Lemma plain_order_any : any_order plain_order.
Proof. done. Qed.

(** A library which reads no numbers from strings. *)
Definition no_strings (s : string) : option dec := None.

Definition wire_txn : directive :=
  Directive (Some (Span 0 10 99)) (day 3) (Some {["trip"]}) None (Some {["note" := MVString "say ""hi"""; "due" := MVDate (day 4)]})
    (DTransaction (Transaction "*" (Some "Shop") (Some "a ""quoted"" \ narration")
      [ PostingSpec (Some (Span 0 20 30)) None "Assets:Bank" (Some (Dec (-1050) 2)) (Some "USD") None
          (Some (PriceSpec None (Some (Dec 9 0)) (Some "EUR"))) None None None;
        PostingSpec None (Some "!") "Expenses:Food" None None
          (Some (CostSpec (Some (Dec 1 0)) None (Some "USD") (Some (day 1)) (Some "lot ""A""") true)) None None None None ])).

Lemma wire_txn_ok : ok_directive wire_txn.
Proof.
  assert (∀ s X, plain s = true → ok_set X → ok_set ({[s]} ∪ X)) as Hset.
  { intros s X Hs HX x [->%elem_of_singleton|?]%elem_of_union; [done|auto]. }
  split; [reflexivity|]. split; [|split; [done|split]].
  - intros s ->%elem_of_singleton. reflexivity.
  - intros k v H. apply lookup_insert_Some in H as [[<- <-]|[_ H]]; [by split|].
    apply lookup_singleton_Some in H as [<- <-]. by split.
  - intros p Hp. apply elem_of_cons in Hp as [->|Hp]; [by vm_compute|].
    apply elem_of_list_singleton in Hp as ->. by vm_compute.
Qed.

(** An account name containing a quote cannot be sent. *)
Definition odd_open : directive :=
  Directive None (day 1) None None None (DOpen (Open "Assets:""Joint""" None None)).
