(** Model of [examples/clj/user.clj], a filter which a user defines. *)
From Coq Require Import ZArith.
From stdpp Require Import prelude.
From Verif Require Import LedgerTypes ClientModel.

(** examples/clj/user.clj:4-13 [fy]; [None] is the exception of a date which does not exist. *)
Definition fy (year : Z) : option (citem → bool) :=
  let year := if (year <? 100)%Z then (2000 + year)%Z else year in
  date_ge_lt [AInt year; AInt 4; AInt 1; AInt (year + 1)%Z; AInt 4; AInt 1].
