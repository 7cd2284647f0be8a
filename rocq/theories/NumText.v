(** Reading numbers from text, as one learns it at school: an optional minus sign,
    digits, and at most one point.  This is specification: nothing in the code is
    modelled here. *)
From Coq Require Import Ascii.
From stdpp Require Import prelude strings.
From Verif Require Import DecModel.

Definition digit_of (c : ascii) : option Z :=
  let n := Z.of_N (N_of_ascii c) in
  if ((48 <=? n) && (n <=? 57))%Z then Some (n - 48)%Z else None.
(** The number read so far without its point, and how many of its digits came after
    the point. *)
Fixpoint read_rest (point : bool) (m : Z) (k : nat) (s : string) : option (Z * nat) :=
  match s with
  | EmptyString => Some (m, k)
  | String c s' =>
      if Ascii.eqb c "." then if point then None else read_rest true m k s'
      else match digit_of c with
           | Some v => read_rest point (10 * m + v)%Z (if point then S k else k) s'
           | None => None
           end
  end.
Definition read_unsigned (s : string) : option (Z * nat) :=
  match s with
  | EmptyString => None
  | String c _ => if digit_of c then read_rest false 0 0 s else None
  end.
Definition read_number (s : string) : option dec :=
  match s with
  | EmptyString => None
  | String c s' =>
      if Ascii.eqb c "-" then (λ mk, Dec (- mk.1) mk.2) <$> read_unsigned s'
      else (λ mk, Dec mk.1 mk.2) <$> read_unsigned s
  end.

(** The same, or a number in scientific notation: a number, the letter E and a whole
    number which says by how many places the point is to be moved to the right. *)
Fixpoint split_at (c : ascii) (s : string) : option (string * string) :=
  match s with
  | EmptyString => None
  | String x s' =>
      if Ascii.eqb x c then Some ("", s') else (λ ab, (String x ab.1, ab.2)) <$> split_at c s'
  end.
Definition read_scientific (s : string) : option dec :=
  match split_at "E" s with
  | None => read_number s
  | Some (a, b) =>
      match read_number a, read_number b with
      | Some (Dec m k), Some (Dec x 0) => Some (Dec m (Z.to_nat (Z.of_nat k - x)))
      | _, _ => None
      end
  end.
