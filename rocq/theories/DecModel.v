(** Model of the decimal arithmetic used by limabean.

    The code uses [rust_decimal::Decimal] (a third-party crate).  It is modelled
    here by an exact decimal: an integer mantissa and a number of decimal
    places.  Simplification: the 96-bit bound on the mantissa and the bound of 28
    on the scale are not modelled, so rounding and overflow do not occur; the
    scale of a result is that of exact schoolbook arithmetic. *)
From stdpp Require Import prelude strings pretty.
From Coq Require Import QArith Ascii.

(** [rust_decimal::Decimal]: [dec_mant * 10^-dec_scale]. *)
Record dec := Dec { dec_mant : Z; dec_scale : nat }.

Global Instance dec_eq_dec : EqDecision dec.
Proof. solve_decision. Defined.

(** Powers of ten. *)
Fixpoint pow10 (n : nat) : positive :=
  match n with O => 1%positive | S n' => (10 * pow10 n')%positive end.

Definition pow10Z (n : nat) : Z := Zpos (pow10 n).

(** The number a decimal denotes; used by every specification. *)
Definition dec_value (d : dec) : Q := Qmake (dec_mant d) (pow10 (dec_scale d)).

(** [Decimal::ZERO], [Decimal::TWO], [Decimal::new(num, scale)]. *)
Definition dec_zero : dec := Dec 0 0.
Definition dec_two : dec := Dec 2 0.
Definition dec_new (num : Z) (scale : nat) : dec := Dec num scale.

(** Addition and subtraction align to the larger scale. *)
Definition dec_add (a b : dec) : dec :=
  let s := Nat.max (dec_scale a) (dec_scale b) in
  Dec (dec_mant a * pow10Z (s - dec_scale a) + dec_mant b * pow10Z (s - dec_scale b))%Z s.
Definition dec_neg (a : dec) : dec := Dec (- dec_mant a)%Z (dec_scale a).
Definition dec_sub (a b : dec) : dec := dec_add a (dec_neg b).
Definition dec_abs (a : dec) : dec := Dec (Z.abs (dec_mant a)) (dec_scale a).
Definition dec_mul (a b : dec) : dec :=
  Dec (dec_mant a * dec_mant b)%Z (dec_scale a + dec_scale b).

(** Numeric comparison. *)
Definition dec_gtb (a b : dec) : bool :=
  (dec_mant b * pow10Z (dec_scale a) <? dec_mant a * pow10Z (dec_scale b))%Z.
Definition dec_eqb (a b : dec) : bool :=
  (dec_mant b * pow10Z (dec_scale a) =? dec_mant a * pow10Z (dec_scale b))%Z.

(** [Iterator::sum] over decimals, starting at zero. *)
Definition dec_sum (l : list dec) : dec := fold_left dec_add l dec_zero.

(** [Display for Decimal]: all [dec_scale] digits after the point are shown. *)
Fixpoint zeros (n : nat) : string :=
  match n with O => EmptyString | S n' => String "0"%char (zeros n') end.
Definition dec_to_string (d : dec) : string :=
  let digits := pretty (Z.abs_N (dec_mant d)) in
  let padded := zeros (S (dec_scale d) - String.length digits) +:+ digits in
  let intlen := (String.length padded - dec_scale d)%nat in
  (if (dec_mant d <? 0)%Z then "-" else "") +:+
  substring 0 intlen padded +:+
  (if Nat.eqb (dec_scale d) 0 then ""
   else "." +:+ substring intlen (dec_scale d) padded).
