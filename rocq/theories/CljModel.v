(** Clojure values as the client uses them: numbers, strings, dates and sorting.

    The semantics of [clojure.core] (a library) is taken from its source and
    documentation. *)
From Coq Require Import Ascii QArith.
From stdpp Require Import prelude strings.
From Verif Require Import DecModel LedgerTypes.

(** Numbers read from JSON (pod.clj:49-56): [Long] (or [Integer]) for an integer
    which fits, [BigInteger] or [BigInt] for another one, [BigDecimal] for a
    number with a point. *)
Inductive cnum := CLong (z : Z) | CBig (z : Z) | CDec (d : dec).
Global Instance cnum_eq_dec : EqDecision cnum.
Proof. solve_decision. Defined.

Definition cn_dec (n : cnum) : dec :=
  match n with CLong z | CBig z => Dec z 0 | CDec d => d end.
(** The number it is. *)
Definition cn_value (n : cnum) : Q := dec_value (cn_dec n).

Definition fits_long (z : Z) : bool := ((- 2 ^ 63 <=? z) && (z <? 2 ^ 63))%Z.

(** [+]: throws ([None]) if a sum of longs does not fit. *)
Definition cn_add (a b : cnum) : option cnum :=
  match a, b with
  | CDec _, _ | _, CDec _ => Some (CDec (dec_add (cn_dec a) (cn_dec b)))
  | CLong x, CLong y => if fits_long (x + y) then Some (CLong (x + y)%Z) else None
  | CLong x, CBig y | CBig x, CLong y | CBig x, CBig y => Some (CBig (x + y)%Z)
  end.
(** [0M]. *)
Definition cn_zero : cnum := CDec dec_zero.
(** [zero?]. *)
Definition cn_is_zero (a : cnum) : bool := (dec_mant (cn_dec a) =? 0)%Z.
(** [compare] and [=]; the latter distinguishes integers from decimals. *)
Definition dec_compare (a b : dec) : comparison :=
  (dec_mant a * pow10Z (dec_scale b) ?= dec_mant b * pow10Z (dec_scale a))%Z.
Definition cn_compare (a b : cnum) : comparison := dec_compare (cn_dec a) (cn_dec b).
Definition is_dec (a : cnum) : bool := match a with CDec _ => true | _ => false end.
Definition cn_equiv (a b : cnum) : bool :=
  Bool.eqb (is_dec a) (is_dec b) && match cn_compare a b with Eq => true | _ => false end.

(** [compare] on strings.  Simplification: bytes are compared where Java compares
    UTF-16 units; these differ only beyond the basic multilingual plane. *)
Definition ascii_compare (a b : ascii) : comparison := (N_of_ascii a ?= N_of_ascii b)%N.
Fixpoint str_compare (a b : string) : comparison :=
  match a, b with
  | EmptyString, EmptyString => Eq
  | EmptyString, String _ _ => Lt
  | String _ _, EmptyString => Gt
  | String x a', String y b' => match ascii_compare x y with Eq => str_compare a' b' | c => c end
  end.
(** [compare] on local dates. *)
Definition date_compare (a b : date) : comparison :=
  match (date_year a ?= date_year b)%Z with
  | Eq => match (date_month a ?= date_month b)%Z with
          | Eq => (date_day a ?= date_day b)%Z
          | c => c
          end
  | c => c
  end.
(** [compare] on booleans: false first. *)
Definition bool_compare (a b : bool) : comparison :=
  match a, b with false, true => Lt | true, false => Gt | _, _ => Eq end.

Definition is_le (c : comparison) : bool := match c with Gt => false | _ => true end.

(** [sort] with a comparator: stable. *)
Fixpoint insert_by {A} (cmp : A → A → comparison) (x : A) (l : list A) : list A :=
  match l with
  | [] => [x]
  | y :: l' => if is_le (cmp x y) then x :: y :: l' else y :: insert_by cmp x l'
  end.
Fixpoint sort_by {A} (cmp : A → A → comparison) (l : list A) : list A :=
  match l with [] => [] | x :: l' => insert_by cmp x (sort_by cmp l') end.
Definition sort_strings : list string → list string := sort_by str_compare.

(** Left fold of a step which may throw. *)
Fixpoint fold_opt {A B} (f : B → A → option B) (b : B) (l : list A) : option B :=
  match l with [] => Some b | x :: l' => match f b x with Some b' => fold_opt f b' l' | None => None end end.
