(** JSON text as RFC 8259 defines it: the specification of [ReadProps.v]. *)
From Coq Require Import Ascii QArith.
From stdpp Require Import prelude strings.
From Verif Require Import DecModel JsonModel.

Fixpoint every (P : ascii → Prop) (s : string) : Prop :=
  match s with EmptyString => True | String c s' => P c ∧ every P s' end.
(** Section 2: [ws]. *)
Definition spaces : string → Prop := every (λ c, c = " "%char ∨ c = "009"%char ∨ c = "010"%char ∨ c = "013"%char).
Definition padded {A} (P : string → A → Prop) (t : string) (x : A) : Prop :=
  ∃ a u b, t = a +:+ u +:+ b ∧ spaces a ∧ spaces b ∧ P u x.

(** * Numbers, section 6 *)
Definition digits : string → Prop := every (λ c, (48 ≤ N_of_ascii c ≤ 57)%N).
Fixpoint value_of (ds : string) : Z :=
  match ds with
  | EmptyString => 0
  | String c ds' => (Z.of_N (N_of_ascii c) - 48) * 10 ^ Z.of_nat (String.length ds') + value_of ds'
  end.
Definition whole_text (t : string) : Prop :=
  t = "0" ∨ digits t ∧ ∃ c t', t = String c t' ∧ c ≠ "0"%char.
Definition fraction_text (t ds : string) : Prop :=
  t = "" ∧ ds = "" ∨ t = "." +:+ ds ∧ digits ds ∧ ds ≠ "".
Definition exponent_text (t : string) (e : Z) : Prop :=
  t = "" ∧ e = 0%Z ∨
  ∃ m sign ds, t = m +:+ sign +:+ ds ∧ (m = "e" ∨ m = "E") ∧ digits ds ∧ ds ≠ "" ∧
    ((sign = "" ∨ sign = "+") ∧ e = value_of ds ∨ sign = "-" ∧ e = (- value_of ds)%Z).
(** The number [m] times ten to the power [x], with as few places as possible. *)
Definition is_dec (m x : Z) (d : dec) : Prop :=
  (x ≤ 0)%Z ∧ d = Dec m (Z.to_nat (- x)) ∨ (0 < x)%Z ∧ d = Dec (m * 10 ^ x) 0.
Definition number_text (t : string) (d : dec) : Prop :=
  ∃ sign w ft ds xt e, t = sign +:+ w +:+ ft +:+ xt ∧ whole_text w ∧ fraction_text ft ds ∧ exponent_text xt e ∧
    (sign = "" ∧ is_dec (value_of (w +:+ ds)) (e - Z.of_nat (String.length ds)) d ∨
     sign = "-" ∧ is_dec (- value_of (w +:+ ds)) (e - Z.of_nat (String.length ds)) d).

(** * Strings, section 7 *)

(** A hexadecimal digit. *)
Definition hex (c : ascii) (n : N) : Prop :=
  (N_of_ascii c = 48 + n ∧ n ≤ 9 ∨ N_of_ascii c = 55 + n ∧ 10 ≤ n ≤ 15 ∨ N_of_ascii c = 87 + n ∧ 10 ≤ n ≤ 15)%N.
Definition code_unit (h1 h2 h3 h4 : ascii) (n : N) : Prop :=
  ∃ a b c d, hex h1 a ∧ hex h2 b ∧ hex h3 c ∧ hex h4 d ∧ n = (a * 4096 + b * 256 + c * 16 + d)%N.
(** The bytes of a code point in UTF-8: RFC 3629, section 3. *)
Definition octets (l : list N) : string := string_of_list_ascii (map ascii_of_N l).
Definition encodes (n : N) (s : string) : Prop :=
  (n < 128 ∧ s = octets [n] ∨
   128 ≤ n < 2048 ∧ (∃ a b, b < 64 ∧ n = a * 64 + b ∧ s = octets [192 + a; 128 + b]) ∨
   2048 ≤ n < 65536 ∧ (∃ a b c, b < 64 ∧ c < 64 ∧ n = (a * 64 + b) * 64 + c ∧ s = octets [224 + a; 128 + b; 128 + c]) ∨
   65536 ≤ n ∧ (∃ a b c d, b < 64 ∧ c < 64 ∧ d < 64 ∧ n = ((a * 64 + b) * 64 + c) * 64 + d ∧
                           s = octets [240 + a; 128 + b; 128 + c; 128 + d]))%N.
Inductive chars_text : string → string → Prop :=
| CT_end : chars_text "" ""
| CT_plain c t s : c ≠ """"%char → c ≠ "\"%char → (32 ≤ N_of_ascii c)%N → chars_text t s →
    chars_text (String c t) (String c s)
| CT_escape e c t s :
    (e, c) ∈ [("""", """"); ("\", "\"); ("/", "/"); ("b", "008"); ("t", "009"); ("n", "010"); ("f", "012"); ("r", "013")]%char →
    chars_text t s → chars_text (String "\" (String e t)) (String c s)
| CT_unicode h1 h2 h3 h4 n x t s : code_unit h1 h2 h3 h4 n → (n < 55296 ∨ 57343 < n)%N → encodes n x → chars_text t s →
    chars_text ("\u" +:+ String h1 (String h2 (String h3 (String h4 t)))) (x +:+ s)
| CT_pair h1 h2 h3 h4 l1 l2 l3 l4 n m x t s :
    code_unit h1 h2 h3 h4 n → code_unit l1 l2 l3 l4 m → (55296 ≤ n ≤ 56319)%N → (56320 ≤ m ≤ 57343)%N →
    encodes (65536 + (n - 55296) * 1024 + (m - 56320))%N x → chars_text t s →
    chars_text ("\u" +:+ String h1 (String h2 (String h3 (String h4
                 ("\u" +:+ String l1 (String l2 (String l3 (String l4 t)))))))) (x +:+ s).
Definition string_text (t s : string) : Prop := ∃ u, t = String """" (u +:+ """") ∧ chars_text u s.

(** * Values, sections 3 to 5 *)
Definition list_text {A} (open close : string) (P : string → A → Prop) (t : string) (l : list A) : Prop :=
  (l = [] ∧ ∃ a, spaces a ∧ t = open +:+ a +:+ close) ∨
  (l ≠ [] ∧ ∃ ts, Forall2 P ts l ∧ t = open +:+ String.concat "," ts +:+ close).
Definition member_text (V : string → json → Prop) (t : string) (kv : string * json) : Prop :=
  ∃ a q b u, t = a +:+ q +:+ b +:+ ":" +:+ u ∧ spaces a ∧ spaces b ∧ string_text q kv.1 ∧ padded V u kv.2.
(** With at most [depth] arrays and objects inside one another. *)
Fixpoint value_text (depth : nat) (t : string) (j : json) : Prop :=
  match j with
  | JNull => t = "null"
  | JBool b => t = if b then "true" else "false"
  | JNum d => number_text t d
  | JStr s => string_text t s
  | JArr l => match depth with O => False | S n => list_text "[" "]" (padded (value_text n)) t l end
  | JObj fs => match depth with O => False | S n => list_text "{" "}" (member_text (value_text n)) t fs end
  end.
Definition json_text (depth : nat) : string → json → Prop := padded (value_text depth).
(** How many arrays and objects are inside one another. *)
Fixpoint nesting (j : json) : nat :=
  match j with
  | JArr l => S (max_list (map nesting l))
  | JObj fs => S (max_list (map (λ kv, nesting kv.2) fs))
  | _ => 0
  end.
