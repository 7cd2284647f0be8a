(** What has been booked when a ledger has been processed up to some point. *)
From Coq Require Import Ascii QArith Qabs.
From stdpp Require Import prelude gmap strings.
From Verif Require Import DecModel LedgerTypes BookModel BookSpec BookSteps.
Local Open Scope nat_scope.

(** ** What has been booked so far *)

(** The directives booked when [ds] has been processed, with or without errors;
    on success these are the booked directives. *)
Definition booked_so_far {P} (L : booking_lib P) ord opt ds : list bdirective :=
  match run L ord opt ds with CRun c => c_booked c | CPanic _ => [] end.

(** What has accumulated in account [base] and its sub-accounts in [cur]: all
    units posted and, after failed balance assertions, the corrections. *)
Definition accumulated {P} (L : booking_lib P) ord opt ds (base cur : string) : Q :=
  (posted (in_subtree base cur) (booked_so_far L ord opt ds) +
   corrections base cur (booked_so_far L ord opt ds))%Q.
