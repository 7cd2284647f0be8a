(** JSON text as it goes over the pipe between client and server.

    Reading models [serde_json::from_str] and cheshire's [parse-string] by what RFC 8259
    says, with serde_json's limit on nesting; writing models cheshire's
    [generate-string], that is Jackson.  These are third-party libraries; this file
    models their documented behaviour.  What the server writes is [print_json] of
    [JsonText.v].

    Simplification: numbers become decimals of the scale which is written, whatever
    their size. *)
From Coq Require Import Ascii QArith.
From stdpp Require Import prelude gmap strings pretty.
From Verif Require Import DecModel LedgerTypes JsonModel JsonText CljModel InventoryModel ClientModel FormatModel.

(** * Writing *)

(** Jackson writes hexadecimal digits in upper case. *)
Definition upper_hex (n : N) : ascii := (if n <? 10 then ascii_of_N (48 + n) else ascii_of_N (55 + n))%N.
Definition jackson_char (c : ascii) : string :=
  (let n := N_of_ascii c in
   if n =? 34 then "\""" else if n =? 92 then "\\"
   else if n =? 8 then "\b" else if n =? 9 then "\t" else if n =? 10 then "\n"
   else if n =? 12 then "\f" else if n =? 13 then "\r"
   else if n <? 32 then "\u00" +:+ String (upper_hex (n / 16)) (String (upper_hex (n mod 16)) "")
   else String c "")%N%string.
Fixpoint jackson_escape (s : string) : string :=
  match s with EmptyString => "" | String c s' => jackson_char c +:+ jackson_escape s' end.
Definition jackson_quote (s : string) : string := String """" (jackson_escape s +:+ """").
(** Numbers as [toString] gives them. *)
Fixpoint generate_string (j : json) : string :=
  match j with
  | JNull => "null"
  | JBool b => if b then "true" else "false"
  | JNum d => dec_text d
  | JStr s => jackson_quote s
  | JArr l => "[" +:+ commas (map generate_string l) +:+ "]"
  | JObj fs => "{" +:+ commas (map (λ kv, jackson_quote kv.1 +:+ ":" +:+ generate_string kv.2) fs) +:+ "}"
  end.

(** * Reading *)

Definition is_space (c : ascii) : bool :=
  Ascii.eqb c " " || Ascii.eqb c "009" || Ascii.eqb c "010" || Ascii.eqb c "013".
Fixpoint skip_space (s : string) : string :=
  match s with String c s' => if is_space c then skip_space s' else s | EmptyString => "" end.

(** ** Numbers *)
Definition is_digit (c : ascii) : bool := ((48 <=? N_of_ascii c) && (N_of_ascii c <=? 57))%N.
Definition digit_value (c : ascii) : N := (N_of_ascii c - 48)%N.
Fixpoint take_digits (s : string) : string * string :=
  match s with
  | String c s' => if is_digit c then let '(ds, r) := take_digits s' in (String c ds, r) else ("", s)
  | EmptyString => ("", "")
  end.
Fixpoint digits_value (acc : N) (ds : string) : N :=
  match ds with String c ds' => digits_value (acc * 10 + digit_value c)%N ds' | EmptyString => acc end.
(** The whole part: no zeros in front. *)
Definition read_whole (s : string) : option (string * string) :=
  let '(ds, r) := take_digits s in
  match ds with
  | EmptyString => None
  | String "0" (String _ _) => None
  | _ => Some (ds, r)
  end.
(** What comes after the point, if there is one. *)
Definition read_fraction (s : string) : option (string * string) :=
  match s with
  | String "." s' => let '(ds, r) := take_digits s' in match ds with EmptyString => None | _ => Some (ds, r) end
  | _ => Some ("", s)
  end.
Definition read_exponent (s : string) : option (Z * string) :=
  match s with
  | String c s' =>
      if Ascii.eqb c "e" || Ascii.eqb c "E" then
        let '(neg, s'') := match s' with String "-" t => (true, t) | String "+" t => (false, t) | _ => (false, s') end in
        let '(ds, r) := take_digits s'' in
        match ds with
        | EmptyString => None
        | _ => let e := Z.of_N (digits_value 0 ds) in Some (if neg then (- e)%Z else e, r)
        end
      else Some (0%Z, s)
  | EmptyString => Some (0%Z, "")
  end.
(** The mantissa times ten to the exponent. *)
Definition scaled (m : Z) (places : nat) (e : Z) : dec :=
  let scale := (Z.of_nat places - e)%Z in
  if (0 <=? scale)%Z then Dec m (Z.to_nat scale) else Dec (m * pow10Z (Z.to_nat (- scale))) 0.
Definition read_number (s : string) : option (dec * string) :=
  let '(neg, s1) := match s with String "-" t => (true, t) | _ => (false, s) end in
  w ← read_whole s1;
  f ← read_fraction w.2;
  x ← read_exponent f.2;
  let m := Z.of_N (digits_value 0 (w.1 +:+ f.1)) in
  Some (scaled (if neg : bool then - m else m)%Z (String.length f.1) x.1, x.2).

(** ** Strings *)
Definition hex_value (c : ascii) : option N :=
  (let n := N_of_ascii c in
   if is_digit c then Some (n - 48)
   else if (65 <=? n) && (n <=? 70) then Some (n - 55)
   else if (97 <=? n) && (n <=? 102) then Some (n - 87)
   else None)%N.
Definition hex4 (a b c d : ascii) : option N :=
  w ← hex_value a; x ← hex_value b; y ← hex_value c; z ← hex_value d;
  Some (((w * 16 + x) * 16 + y) * 16 + z)%N.
Definition bytes (l : list N) : string := fold_right (λ n s, String (ascii_of_N n) s) "" l.
(** The bytes of a code point. *)
Definition utf8 (n : N) : string :=
  (bytes
    (if n <? 128 then [n]
     else if n <? 2048 then [192 + n / 64; 128 + n mod 64]
     else if n <? 65536 then [224 + n / 4096; 128 + (n / 64) mod 64; 128 + n mod 64]
     else [240 + n / 262144; 128 + (n / 4096) mod 64; 128 + (n / 64) mod 64; 128 + n mod 64]))%N.
Definition high_surrogate (n : N) : bool := ((55296 <=? n) && (n <=? 56319))%N.
Definition low_surrogate (n : N) : bool := ((56320 <=? n) && (n <=? 57343))%N.
Definition simple_escape (c : ascii) : option ascii :=
  match c with
  | """" => Some """"%char | "\" => Some "\"%char | "/" => Some "/"%char
  | "b" => Some "008"%char | "t" => Some "009"%char | "n" => Some "010"%char
  | "f" => Some "012"%char | "r" => Some "013"%char
  | _ => None
  end%char.
Definition onto (a : string) (r : option (string * string)) : option (string * string) :=
  x ← r; Some (a +:+ x.1, x.2).
(** The rest of a string, after its opening quote. *)
Fixpoint read_chars (s : string) : option (string * string) :=
  match s with
  | EmptyString => None
  | String c s' =>
      if Ascii.eqb c """" then Some ("", s')
      else if Ascii.eqb c "\" then
        match s' with
        | String e s2 =>
            match simple_escape e with
            | Some x => onto (String x "") (read_chars s2)
            | None =>
                match e, s2 with
                | "u"%char, String h1 (String h2 (String h3 (String h4 s3))) =>
                    n ← hex4 h1 h2 h3 h4;
                    if high_surrogate n then
                      match s3 with
                      | String "\" (String "u" (String l1 (String l2 (String l3 (String l4 s4))))) =>
                          m ← hex4 l1 l2 l3 l4;
                          if low_surrogate m
                          then onto (utf8 (65536 + (n - 55296) * 1024 + (m - 56320))%N) (read_chars s4)
                          else None
                      | _ => None
                      end
                    else if low_surrogate n then None
                    else onto (utf8 n) (read_chars s3)
                | _, _ => None
                end
            end
        | EmptyString => None
        end
      else if (N_of_ascii c <? 32)%N then None
      else onto (String c "") (read_chars s')
  end.

(** ** Values *)
Fixpoint strip (p s : string) : option string :=
  match p, s with
  | EmptyString, _ => Some s
  | String a p', String b s' => if Ascii.eqb a b then strip p' s' else None
  | _, _ => None
  end.
Section Items.
Context {A : Type} (item : string → option (A * string)) (close : ascii).
(** Items separated by commas, after the first; [fuel] is more than enough if it is
    the length of the text. *)
Fixpoint read_more (fuel : nat) (s : string) : option (list A * string) :=
  match fuel, skip_space s with
  | O, _ => None
  | S fuel', String c s' =>
      if Ascii.eqb c close then Some ([], s')
      else if Ascii.eqb c "," then
        x ← item s'; l ← read_more fuel' x.2; Some (x.1 :: l.1, l.2)
      else None
  | _, EmptyString => None
  end.
Definition read_items (s : string) : option (list A * string) :=
  match skip_space s with
  | String c s' =>
      if Ascii.eqb c close then Some ([], s')
      else x ← item s; l ← read_more (String.length s) x.2; Some (x.1 :: l.1, l.2)
  | EmptyString => None
  end.
End Items.
(** A member of an object. *)
Definition read_member (value : string → option (json * string)) (s : string) : option ((string * json) * string) :=
  match skip_space s with
  | String """" s1 =>
      k ← read_chars s1;
      match skip_space k.2 with
      | String ":" s2 => v ← value s2; Some ((k.1, v.1), v.2)
      | _ => None
      end
  | _ => None
  end.
(** A value, after white space, with at most [depth] arrays and objects inside one
    another. *)
Fixpoint read_value (depth : nat) (s : string) : option (json * string) :=
  match skip_space s with
  | EmptyString => None
  | String c s' as t =>
      if Ascii.eqb c "n" then r ← strip "null" t; Some (JNull, r)
      else if Ascii.eqb c "t" then r ← strip "true" t; Some (JBool true, r)
      else if Ascii.eqb c "f" then r ← strip "false" t; Some (JBool false, r)
      else if Ascii.eqb c """" then x ← read_chars s'; Some (JStr x.1, x.2)
      else if Ascii.eqb c "[" then
        match depth with
        | O => None
        | S depth' => x ← read_items (read_value depth') "]" s'; Some (JArr x.1, x.2)
        end
      else if Ascii.eqb c "{" then
        match depth with
        | O => None
        | S depth' => x ← read_items (read_member (read_value depth')) "}" s'; Some (JObj x.1, x.2)
        end
      else x ← read_number t; Some (JNum x.1, x.2)
  end.
(** The whole text. *)
Definition parse_json (depth : nat) (s : string) : option json :=
  x ← read_value depth s;
  match skip_space x.2 with EmptyString => Some x.1 | _ => None end.
