(** EDN text: how the configuration of a plugin is read, and how values are printed.

    [clj/src/limabean/adapter/edn.clj] calls [clojure.edn/read-string], which is Java
    code of Clojure ([clojure.lang.EdnReader]); this file models what that does.
    [clj/src/limabean/adapter/print.clj] adds dates to Clojure's [print-method].

    Simplifications: characters (a backslash and a name), numbers to another base than
    ten, ratios, octal escapes, lone surrogates, metadata, namespaced maps, symbolic values, [#inst]
    and [#uuid] and the name [/] within a namespace are not read; white space and
    digits outside ASCII are not known; every regular expression compiles. *)
From Coq Require Import Ascii QArith.
From stdpp Require Import prelude gmap strings pretty.
From Verif Require Import DecModel LedgerTypes IsoModel JsonModel JsonText CljModel InventoryModel ClientModel FormatModel ReadModel.
Local Open Scope nat_scope.

(** What can be read.  A double is kept as it is written.  Entries of maps and elements
    of sets are in the order in which they are written. (edn.clj:12.) *)
Inductive edn :=
| ENil | EBool (b : bool) | ENum (n : cnum) | EDouble (t : string) | EStr (s : string)
| EKw (s : string) | ESym (s : string) | EDate (d : date) | ERegex (s : string)
| EList (l : list edn) | EVec (l : list edn) | ESet (l : list edn) | EMap (fs : list (edn * edn)).

(** * Equality *)

(** Clojure's [=], by which keys of maps and elements of sets are told apart.  Patterns
    are only equal to themselves.  Simplification: doubles are equal if they are written
    in the same way. (edn.clj:12.) *)
Fixpoint same (a b : edn) {struct a} : bool :=
  let fix each (l l' : list edn) {struct l} : bool :=
    match l, l' with [], [] => true | x :: l, y :: l' => same x y && each l l' | _, _ => false end in
  match a, b with
  | ENil, ENil => true
  | EBool x, EBool y => Bool.eqb x y
  | ENum x, ENum y => cn_equiv x y
  | EDouble x, EDouble y | EStr x, EStr y | EKw x, EKw y | ESym x, ESym y => String.eqb x y
  | EDate x, EDate y => bool_decide (x = y)
  | (EList l | EVec l), (EList l' | EVec l') => each l l'
  | ESet l, ESet l' => Nat.eqb (length l) (length l') && forallb (λ x, existsb (same x) l') l
  | EMap l, EMap l' =>
      Nat.eqb (length l) (length l') &&
      forallb (λ kv, existsb (λ kw : edn * edn, same kv.1 kw.1 && same kv.2 kw.2) l') l
  | _, _ => false
  end.
(** Part of edn.clj:12. *)
Fixpoint distinct (l : list edn) : bool :=
  match l with [] => true | x :: l => negb (existsb (same x) l) && distinct l end.
(** Keys and values in turn; [None] if a key has no value. (edn.clj:12.) *)
Fixpoint paired (l : list edn) : option (list (edn * edn)) :=
  match l with
  | [] => Some []
  | k :: v :: l => fs ← paired l; Some ((k, v) :: fs)
  | [_] => None
  end.

(** * Words *)

(** Commas are white space. (edn.clj:12.) *)
Definition blank (c : ascii) : bool :=
  (let n := N_of_ascii c in (n =? 32) || (n =? 44) || ((9 <=? n) && (n <=? 13)) || ((28 <=? n) && (n <=? 31)))%N.
(** The characters with a meaning of their own. (edn.clj:12.) *)
Definition macro (c : ascii) : bool :=
  match c with
  | """" | ";" | "^" | "(" | ")" | "[" | "]" | "{" | "}" | "\" | "#" => true
  | _ => false
  end%char.
(** [#] may be within a word, but not within a number. (edn.clj:12.) *)
Definition ends_word (c : ascii) : bool := blank c || (macro c && negb (Ascii.eqb c "#")).
(** Part of edn.clj:12. *)
Definition ends_number (c : ascii) : bool := blank c || macro c.
(** Part of edn.clj:12. *)
Definition banned (c : ascii) : bool := match c with "@" | "`" | "~" => true | _ => false end%char.
(** Part of edn.clj:12. *)
Fixpoint take_until (stop : ascii → bool) (s : string) : string * string :=
  match s with
  | EmptyString => ("", "")
  | String c s' => if stop c then ("", s) else let '(t, r) := take_until stop s' in (String c t, r)
  end.
(** Part of edn.clj:12. *)
Fixpoint contains (P : ascii → bool) (s : string) : bool :=
  match s with EmptyString => false | String c s' => P c || contains P s' end.
(** Part of edn.clj:12. *)
Fixpoint two_colons (s : string) : bool :=
  match s with String c s' => (match c, s' with ":", String ":" _ => true | _, _ => false end)%char || two_colons s' | _ => false end.
(** Part of edn.clj:12. *)
Fixpoint last_char (s : string) : option ascii :=
  match s with EmptyString => None | String c EmptyString => Some c | String _ s' => last_char s' end.
(** Part of edn.clj:12. *)
Definition ends_colon (s : string) : bool := match last_char s with Some ":" => true | _ => false end%char.
(** Not empty, and does not begin with a digit or a slash. (edn.clj:12.) *)
Definition leads (s : string) : bool := match s with String c _ => negb (is_digit c) && negb (Ascii.eqb c "/") | EmptyString => false end.
(** What is before and after the last slash, if there is one. (edn.clj:12.) *)
Fixpoint cut_name (s : string) : option string * string :=
  match s with
  | EmptyString => (None, "")
  | String c s' =>
      match cut_name s' with
      | (Some q, p) => (Some (String c q), p)
      | (None, p) => if Ascii.eqb c "/" then (Some "", p) else (None, String c p)
      end
  end.
(** [symbolPat], and what [matchSymbol] says besides. (edn.clj:12.) *)
Definition word_ok (t : string) : bool :=
  negb (contains banned t) && negb (two_colons t) &&
  (String.eqb t "/" || String.eqb t ":/" ||
   let '(q, p) := cut_name t in
   leads p && negb (ends_colon p) && match q with None => true | Some q => leads q && negb (ends_colon q) end).
(** [interpretToken]. (edn.clj:12.) *)
Definition word_value (t : string) : option edn :=
  if String.eqb t "nil" then Some ENil else if String.eqb t "true" then Some (EBool true)
  else if String.eqb t "false" then Some (EBool false)
  else if word_ok t then Some (match t with String ":" k => EKw k | _ => ESym t end)
  else None.

(** * Numbers *)

(** [matchNumber]: [intPat], then [floatPat]. (edn.clj:12.) *)
Definition number_value (t : string) : option edn :=
  let '(neg, s1) := match t with String "-" s => (true, s) | String "+" s => (false, s) | _ => (false, t) end in
  let signed (z : Z) := if neg : bool then (- z)%Z else z in
  let '(ds, r) := take_digits s1 in
  let whole := match ds with EmptyString => false | String "0" (String _ _) => false | _ => true end in
  let z := signed (Z.of_N (digits_value 0 ds)) in
  match r with
  | "" => if whole then Some (ENum (if fits_long z then CLong z else CBig z)) else None
  | "N" => if whole then Some (ENum (CBig z)) else None
  | _ =>
      match ds with
      | EmptyString => None
      | _ =>
          let '(fs, r1) := match r with String "." s => take_digits s | _ => ("", r) end in
          x ← read_exponent r1;
          match x.2 with
          | "" => Some (EDouble t)
          | "M" => Some (ENum (CDec (scaled (signed (Z.of_N (digits_value 0 (ds +:+ fs)))) (String.length fs) x.1)))
          | _ => None
          end
      end
  end.

(** * Strings *)
(** Part of edn.clj:12. *)
Definition edn_escape (c : ascii) : option ascii :=
  match c with
  | """" => Some """"%char | "\" => Some "\"%char
  | "b" => Some "008"%char | "t" => Some "009"%char | "n" => Some "010"%char
  | "f" => Some "012"%char | "r" => Some "013"%char
  | _ => None
  end%char.
(** The rest of a string, after its opening quote. (edn.clj:12.) *)
Fixpoint edn_chars (s : string) : option (string * string) :=
  match s with
  | EmptyString => None
  | String c s' =>
      if Ascii.eqb c """" then Some ("", s')
      else if Ascii.eqb c "\" then
        match s' with
        | String e s2 =>
            match edn_escape e with
            | Some x => onto (String x "") (edn_chars s2)
            | None =>
                match e, s2 with
                | "u"%char, String h1 (String h2 (String h3 (String h4 s3))) =>
                    n ← hex4 h1 h2 h3 h4;
                    if high_surrogate n then
                      match s3 with
                      | String "\" (String "u" (String l1 (String l2 (String l3 (String l4 s4))))) =>
                          m ← hex4 l1 l2 l3 l4;
                          if low_surrogate m then onto (utf8 (65536 + (n - 55296) * 1024 + (m - 56320))%N) (edn_chars s4) else None
                      | _ => None
                      end
                    else if low_surrogate n then None
                    else onto (utf8 n) (edn_chars s3)
                | _, _ => None
                end
            end
        | EmptyString => None
        end
      else onto (String c "") (edn_chars s')
  end.

(** * Forms *)

(** What the next character is the beginning of. (edn.clj:12.) *)
Inductive kind := KBlank | KComment | KNumber | KString | KOpen | KClose | KHash | KUnread | KWord.
(** Part of edn.clj:12. *)
Definition kind_of (c : ascii) (s : string) : kind :=
  if blank c then KBlank
  else if is_digit c then KNumber
  else match c with
       | """" => KString | ";" => KComment
       | "(" | "[" | "{" => KOpen | ")" | "]" | "}" => KClose
       | "#" => KHash | "^" | "\" => KUnread
       | "+" | "-" => match s with String d _ => if is_digit d then KNumber else KWord | _ => KWord end
       | _ => KWord
       end%char.
(** Part of edn.clj:12. *)
Definition newline (c : ascii) : bool := Ascii.eqb c "010" || Ascii.eqb c "013".
(** What comes after a comment. (edn.clj:12.) *)
Definition after_line (s : string) : string := match (take_until newline s).2 with String _ r => r | EmptyString => "" end.
(** Part of edn.clj:12. *)
Definition closer (c : ascii) : ascii := match c with "(" => ")" | "[" => "]" | _ => "}" end%char.
(** Part of edn.clj:12. *)
Definition collection (c : ascii) (l : list edn) : option edn :=
  match c with
  | "(" => Some (EList l)
  | "[" => Some (EVec l)
  | _ => fs ← paired l; if distinct (fst <$> fs) then Some (EMap fs) else None
  end%char.
(** edn.clj:7 [readers].  Simplification: only strings are tagged. *)
Definition tagged (tag : string) (v : edn) : option edn :=
  match tag, v with
  | "time/date", EStr s => EDate <$> parse_date s
  | "regex", EStr s => Some (ERegex s)
  | _, _ => None
  end.
(** Part of edn.clj:12. *)
Definition letter (c : ascii) : bool := (let n := N_of_ascii c in ((65 <=? n) && (n <=? 90)) || ((97 <=? n) && (n <=? 122)))%N.

(** Part of edn.clj:12. *)
Inductive found := Got (v : edn) (r : string) | Closed (c : ascii) (r : string) | End.
(** [EdnReader.read]: the next form, closing delimiter or end; [None] if it throws.
    [n] only bounds the recursion. (edn.clj:12.) *)
Fixpoint next (n : nat) (s : string) : option found :=
  match n with
  | O => None
  | S n =>
      match s with
      | EmptyString => Some End
      | String c s' =>
          match kind_of c s' with
          | KBlank => next n s'
          | KComment => next n (after_line s')
          | KNumber => let '(t, r) := take_until ends_number s in v ← number_value t; Some (Got v r)
          | KString => x ← edn_chars s'; Some (Got (EStr x.1) x.2)
          | KOpen => x ← items n (closer c) s'; v ← collection c x.1; Some (Got v x.2)
          | KClose => Some (Closed c s')
          | KHash =>
              match s' with
              | EmptyString => None
              | String d s2 =>
                  if Ascii.eqb d "{" then x ← items n "}" s2; if distinct x.1 then Some (Got (ESet x.1) x.2) else None
                  else if Ascii.eqb d "_" then match next n s2 with Some (Got _ r) => next n r | _ => None end
                  else if letter d then
                    let '(t, r) := take_until ends_word s' in
                    match next n r with Some (Got v r') => w ← tagged t v; Some (Got w r') | _ => None end
                  else None
              end
          | KUnread => None
          | KWord => let '(t, r) := take_until ends_word s in v ← word_value t; Some (Got v r)
          end
      end
  end
(** [readDelimitedList]. (edn.clj:12.) *)
with items (n : nat) (close : ascii) (s : string) : option (list edn * string) :=
  match n with
  | O => None
  | S n =>
      match next n s with
      | Some (Got v r) => x ← items n close r; Some (v :: x.1, x.2)
      | Some (Closed c r) => if Ascii.eqb c close then Some ([], r) else None
      | _ => None
      end
  end.
(** edn.clj:9-12 [read-string]: the first form.  There is no [:eof], so a text without a
    form throws; what comes after the form is not looked at. *)
Definition edn_read (s : string) : option edn :=
  match next (2 * String.length s + 1) s with Some (Got v _) => Some v | _ => None end.

(** * What a plugin is given *)

(** The values of [ClientModel.v] do not tell keywords and strings as keys apart: a map
    has keys of one kind. (plugins.clj:29.) *)
Definition keyword_key (k : edn) : option string := match k with EKw s => Some s | _ => None end.
(** Part of plugins.clj:29. *)
Definition string_key (k : edn) : option string := match k with EStr s => Some s | _ => None end.
(** Part of plugins.clj:29. *)
Fixpoint to_cval (v : edn) : option cval :=
  match v with
  | ENil => Some VNil
  | EBool b => Some (VBool b)
  | ENum n => Some (VNum n)
  | EStr s => Some (VStr s)
  | EKw s => Some (VKw s)
  | EDate d => Some (VDate d)
  | EVec l => VVec <$> mapM to_cval l
  | ESet l => VSet <$> mapM to_cval l
  | EMap fs =>
      vs ← mapM (λ kv, to_cval kv.2) fs;
      match mapM (λ kv, keyword_key kv.1) fs, mapM (λ kv, string_key kv.1) fs with
      | Some ks, _ | None, Some ks => Some (VMap (zip ks vs))
      | None, None => None
      end
  | EDouble _ | ESym _ | ERegex _ | EList _ => None
  end.
(** plugins.clj:29: [nil] if there is no configuration.  [other] is what the plugin is
    given for values which [ClientModel.v] has no form of. *)
Definition edn_config (other : edn → cval) (config : option cval) : option (option cval) :=
  match config with
  | None | Some VNil => Some None
  | Some (VStr s) =>
      match edn_read s with
      | Some ENil => Some None
      | Some v => Some (Some (default (other v) (to_cval v)))
      | None => None
      end
  | Some _ => None
  end.

(** * Printing *)

(** Clojure's [char-escape-string]. (print.clj:5-7.) *)
Definition pr_char (c : ascii) : string :=
  match c with
  | """"%char => "\""" | "\"%char => "\\" | "008"%char => "\b" | "009"%char => "\t" | "010"%char => "\n"
  | "012"%char => "\f" | "013"%char => "\r"
  | _ => String c ""
  end.
(** Part of what print.clj:5-7 adds to. *)
Fixpoint pr_chars (s : string) : string := match s with EmptyString => "" | String c s' => pr_char c +:+ pr_chars s' end.
(** Part of what print.clj:5-7 adds to. *)
Definition pr_string (s : string) : string := String """" (pr_chars s +:+ """").
(** Part of what print.clj:5-7 adds to. *)
Definition pr_num (n : cnum) : string :=
  match n with CLong z => int_text z | CBig z => int_text z +:+ "N" | CDec d => dec_text d +:+ "M" end.
(** [print-method]; print.clj:5-7 for dates.  Simplification: maps whose keys share a
    namespace are not printed with it in front. *)
Fixpoint pr (v : edn) : string :=
  match v with
  | ENil => "nil"
  | EBool b => if b then "true" else "false"
  | ENum n => pr_num n
  | EDouble t => t
  | EStr s => pr_string s
  | EKw s => ":" +:+ s
  | ESym s => s
  | EDate d => "#time/date """ +:+ fmt_date d +:+ """"
  | ERegex s => "#""" +:+ s +:+ """"
  | EList l => "(" +:+ String.concat " " (map pr l) +:+ ")"
  | EVec l => "[" +:+ String.concat " " (map pr l) +:+ "]"
  | ESet l => "#{" +:+ String.concat " " (map pr l) +:+ "}"
  | EMap fs => "{" +:+ String.concat ", " (map (λ kv, pr kv.1 +:+ " " +:+ pr kv.2) fs) +:+ "}"
  end.
