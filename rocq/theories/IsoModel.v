(** Dates as text: [fmt_iso8601date] and [parse_iso8601date] of
    [rust/src/api/types.rs]. *)
From Coq Require Import Ascii.
From stdpp Require Import prelude strings.
From Verif Require Import LedgerTypes.
Local Open Scope Z_scope.

(** One decimal digit. *)
Definition digit (n : Z) : ascii := ascii_of_N (Z.to_N (48 + n)).
Definition digit_val (c : ascii) : option Z :=
  let n := Z.of_N (N_of_ascii c) - 48 in
  if (0 <=? n) && (n <=? 9) then Some n else None.

(** Gregorian calendar, as checked by the [time] crate when a [Date] is made. *)
Definition leap (y : Z) : bool :=
  ((y mod 4 =? 0) && negb (y mod 100 =? 0)) || (y mod 400 =? 0).
Definition month_days (y m : Z) : Z :=
  if m =? 2 then (if leap y then 29 else 28)
  else if (m =? 4) || (m =? 6) || (m =? 9) || (m =? 11) then 30 else 31.
Definition valid_date (d : date) : bool :=
  (-9999 <=? date_year d) && (date_year d <=? 9999) &&
  (1 <=? date_month d) && (date_month d <=? 12) &&
  (1 <=? date_day d) && (date_day d <=? month_days (date_year d) (date_month d)).

(** types.rs:105-109 [fmt_iso8601date], and types.rs:117 for [Date] fields:
    [[year]-[month]-[day]] of the [time] crate: a sign only for negative years,
    four digits, two digits, two digits. *)
Definition fmt_date (d : date) : string :=
  let y := Z.abs (date_year d) in
  (if date_year d <? 0 then "-" else "") +:+
  String (digit (y / 1000)) (String (digit (y / 100 mod 10))
  (String (digit (y / 10 mod 10)) (String (digit (y mod 10))
  (String "-" (String (digit (date_month d / 10)) (String (digit (date_month d mod 10))
  (String "-" (String (digit (date_day d / 10)) (String (digit (date_day d mod 10)) ""))))))))).

(** types.rs:111-115 [parse_iso8601date]: an optional sign, exactly four digits,
    then exactly two and two, nothing after; the date must exist.
    Simplification: signed years of more than four digits, which [time] parses
    before rejecting all but those padded with zeros, are rejected here. *)
Definition parse_unsigned (neg : bool) (s : string) : option date :=
  match s with
  | String c1 (String c2 (String c3 (String c4 (String h1 (String m1 (String m2
      (String h2 (String d1 (String d2 EmptyString))))))))) =>
      y1 ← digit_val c1; y2 ← digit_val c2; y3 ← digit_val c3; y4 ← digit_val c4;
      n1 ← digit_val m1; n2 ← digit_val m2; k1 ← digit_val d1; k2 ← digit_val d2;
      if (h1 =? "-")%char && (h2 =? "-")%char then
        let y := 1000 * y1 + 100 * y2 + 10 * y3 + y4 in
        let d := Date (if neg then - y else y) (10 * n1 + n2) (10 * k1 + k2) in
        if valid_date d then Some d else None
      else None
  | _ => None
  end.
Definition parse_date (s : string) : option date :=
  match s with
  | String c s' =>
      if (c =? "-")%char then parse_unsigned true s'
      else if (c =? "+")%char then parse_unsigned false s'
      else parse_unsigned false s
  | EmptyString => None
  end.
