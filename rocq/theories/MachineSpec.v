(** What the decimals of the machine can represent, and which ledgers stay within that. *)
From Coq Require Import Ascii QArith Qabs.
From stdpp Require Import prelude gmap strings.
From Verif Require Import DecModel LedgerTypes BookModel BookSpec.
Local Open Scope Q_scope.

(** [rust_decimal::Decimal]: 96 bits of digits, at most 28 of them after the point. *)
Definition representable (d : dec) : Prop := (Z.abs (dec_mant d) < 2 ^ 96)%Z ∧ (dec_scale d ≤ 28)%nat.

(** What [rust_decimal] promises of its addition and multiplication: a result which can be
    represented is exact, and one which is too large, at any number of places, is a panic.
    Nothing is said of results which have too many places, which it rounds. *)
Record machine_ok (madd mmul : dec → dec → option dec) : Prop := {
  mo_add : ∀ a b, representable (dec_add a b) → madd a b = Some (dec_add a b);
  mo_mul : ∀ a b, representable (dec_mul a b) → mmul a b = Some (dec_mul a b);
  mo_over : ∀ a b, inject_Z (2 ^ 96) <= Qabs (dec_value a + dec_value b) → madd a b = None }.

(** Amounts with at most [n] places each which, regardless of sign, add up to less than
    2^96 units of the last of these places. *)
Definition within (n : nat) (l : list dec) : Prop :=
  (n ≤ 28)%nat ∧ Forall (λ d, (dec_scale d ≤ n)%nat) l ∧
  Qsum ((λ d, Qabs (dec_value d)) <$> l) * inject_Z (10 ^ Z.of_nat n) < inject_Z (2 ^ 96).

Section Moderate.
Context {P : Type} (L : booking_lib P).
(** What each account holds of a commodity. *)
Definition holdings (s : accst P) (cur : string) : list dec :=
  (λ x : string * account P, default dec_zero (lib_units L (a_positions x.2) !! cur)) <$> map_to_list (s_accounts s).
(** The units of all postings which have been booked. *)
Definition posted_units (bs : list bdirective) : list dec :=
  bs ≫= λ b, match b_variant b with BVTransaction t => p_units <$> bt_postings t | _ => [] end.
(** The units of all assertions which have been booked. *)
Definition asserted_units (bs : list bdirective) : list dec :=
  bs ≫= λ b, match b_variant b with BVBalance b => [bal_units (bb_raw b)] | _ => [] end.
(** The tolerance of an assertion can be represented. *)
Definition tolerable (b : balance) : Prop :=
  bal_tolerance b = None →
  let m := match lib_multiplier L with Some m => m | None => Dec 5 1 end in
  (dec_scale (bal_units b) + dec_scale m ≤ 28)%nat ∧ (2 * Z.abs (dec_mant m) < 2 ^ 96)%Z.

(** A ledger of moderate amounts: at each assertion, what is asserted together with what
    all accounts hold of the commodity, and what has been asserted before together with all
    that has been posted so far, stay within the range of [n] places. *)
Definition moderate (n : nat) (ord : gmap string (account P) → list (string * account P)) (opt : option booking) (ds : list directive) : Prop :=
  ∀ i d b c, ds !! i = Some d → d_variant d = DBalance b →
  collect_loop L ord 0 (take i ds) (CSt (acc_new (default_booking_option L opt)) [] []) = CRun c →
  tolerable b ∧ within n (bal_units b :: holdings (c_acc c) (bal_cur b)) ∧
  ∀ o, o ∈ dec_zero :: asserted_units (c_booked c) → within n (o :: posted_units (c_booked c)).
End Moderate.
