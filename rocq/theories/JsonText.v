(** The text which [serde_json::to_string] makes of a JSON tree: compact, with
    the escapes of serde_json's [CompactFormatter].  Decimals are written by
    rust_decimal's [Display].  Both are third-party crates; this file models
    their documented behaviour. *)
From Coq Require Import Ascii.
From stdpp Require Import prelude strings pretty.
From Verif Require Import DecModel JsonModel.

Definition newline : ascii := "010"%char.

Definition hex_digit (n : N) : ascii :=
  (if n <? 10 then ascii_of_N (48 + n) else ascii_of_N (87 + n))%N.

(** One character inside a string. *)
Definition escape_char (c : ascii) : string :=
  (let n := N_of_ascii c in
   if n =? 34 then "\""" else if n =? 92 then "\\"
   else if n =? 8 then "\b" else if n =? 9 then "\t" else if n =? 10 then "\n"
   else if n =? 12 then "\f" else if n =? 13 then "\r"
   else if n <? 32 then "\u00" +:+ String (hex_digit (n / 16)) (String (hex_digit (n mod 16)) "")
   else String c "")%N%string.
Fixpoint escape (s : string) : string :=
  match s with EmptyString => "" | String c s' => escape_char c +:+ escape s' end.
Definition quote (s : string) : string := String """" (escape s +:+ """").

(** [n] decimal digits of [m]. *)
Fixpoint fixed_digits (n : nat) (m : N) : string :=
  match n with
  | O => ""
  | S n' => fixed_digits n' (m / 10)%N +:+ String (ascii_of_N (48 + m mod 10)) ""
  end.
(** Sign, whole part, and exactly [dec_scale d] digits after the point. *)
Definition print_dec (d : dec) : string :=
  let m := Z.abs_N (dec_mant d) in
  let p := Z.to_N (pow10Z (dec_scale d)) in
  (if (dec_mant d <? 0)%Z then "-" else "") +:+ pretty (m / p)%N +:+
  match dec_scale d with O => "" | n => "." +:+ fixed_digits n (m mod p)%N end.

Definition commas (l : list string) : string := String.concat "," l.

Fixpoint print_json (j : json) : string :=
  match j with
  | JNull => "null"
  | JBool b => if b then "true" else "false"
  | JNum d => print_dec d
  | JStr s => quote s
  | JArr l => "[" +:+ commas (map print_json l) +:+ "]"
  | JObj fs => "{" +:+ commas (map (λ kv, quote kv.1 +:+ ":" +:+ print_json kv.2) fs) +:+ "}"
  end.
