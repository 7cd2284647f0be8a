(** EDN text as Clojure reads it: the specification of [EdnProps.v]. *)
From Coq Require Import Ascii QArith.
From stdpp Require Import prelude strings.
From Verif Require Import DecModel LedgerTypes IsoModel ParserModel CljModel InventoryModel ClientModel FormatModel PluginModel LoaderModel ReadSpec EdnModel.
Local Open Scope nat_scope.

(** * Characters *)
Definition white (c : ascii) : Prop :=
  c = " "%char ∨ c = ","%char ∨ (9 ≤ N_of_ascii c ≤ 13)%N ∨ (28 ≤ N_of_ascii c ≤ 31)%N.
Definition delimiter (c : ascii) : Prop :=
  c ∈ [""""; ";"; "^"; "("; ")"; "["; "]"; "{"; "}"; "\"]%char.
(** What may come right after a word, and right after a number. *)
Definition then_stops (more : ascii → Prop) (r : string) : Prop :=
  match r with EmptyString => True | String c _ => white c ∨ delimiter c ∨ more c end.
Definition after_word : string → Prop := then_stops (λ _, False).
Definition after_number : string → Prop := then_stops (λ c, c = "#"%char).
Definition is_digit_char (c : ascii) : Prop := (48 ≤ N_of_ascii c ≤ 57)%N.
Definition is_letter (c : ascii) : Prop := (65 ≤ N_of_ascii c ≤ 90 ∨ 97 ≤ N_of_ascii c ≤ 122)%N.

(** * Words: symbols, keywords, [nil], [true] and [false] *)
Definition word_chars : string → Prop := every (λ c, ¬ white c ∧ ¬ delimiter c ∧ c ≠ "@"%char ∧ c ≠ "`"%char ∧ c ≠ "~"%char).
Definition begins_name (s : string) : Prop := ∃ c t, s = String c t ∧ ¬ is_digit_char c ∧ c ≠ "/"%char.
Definition name_part (s : string) : Prop := begins_name s ∧ ¬ ∃ t, s = t +:+ ":".
(** A name, or a namespace and a name. *)
Definition name_text (t : string) : Prop :=
  word_chars t ∧ (¬ ∃ a b, t = a +:+ "::" +:+ b) ∧
  (t = "/" ∨ t = ":/" ∨
   ∃ p, name_part p ∧ every (λ c, c ≠ "/"%char) p ∧ (t = p ∨ ∃ q, name_part q ∧ t = q +:+ "/" +:+ p)).
(** Not the beginning of a number, of a special form or of a gap. *)
Definition begins_word (t : string) : Prop :=
  ∃ c t', t = String c t' ∧ c ≠ "#"%char ∧ ¬ is_digit_char c ∧
    ¬ ((c = "+"%char ∨ c = "-"%char) ∧ ∃ d t'', t' = String d t'' ∧ is_digit_char d).
Inductive word : string → edn → Prop :=
| W_nil : word "nil" ENil
| W_true : word "true" (EBool true)
| W_false : word "false" (EBool false)
| W_keyword k : name_text (":" +:+ k) → word (":" +:+ k) (EKw k)
| W_symbol t : name_text t → begins_word t → (¬ ∃ k, t = ":" +:+ k) → t ∉ ["nil"; "true"; "false"] → word t (ESym t).

(** * Numbers *)
Definition signed_text (t u : string) (negative : bool) : Prop :=
  (t = u ∨ t = "+" +:+ u) ∧ negative = false ∨ t = "-" +:+ u ∧ negative = true.
Definition signed (negative : bool) (z : Z) : Z := if negative then (- z)%Z else z.
Definition in_long (z : Z) : Prop := (- 2 ^ 63 ≤ z < 2 ^ 63)%Z.
(** Digits, a point and digits, an exponent.  The point and the exponent need not be
    there, nor the digits after the point. *)
Definition float_text (t ds fs : string) (e : Z) : Prop :=
  ∃ ft xt, t = ds +:+ ft +:+ xt ∧ digits ds ∧ ds ≠ "" ∧ (ft = "" ∧ fs = "" ∨ ft = "." +:+ fs ∧ digits fs) ∧ exponent_text xt e.
Inductive number : string → edn → Prop :=
| N_long t w b : signed_text t w b → whole_text w → in_long (signed b (value_of w)) → number t (ENum (CLong (signed b (value_of w))))
| N_large t w b : signed_text t w b → whole_text w → ¬ in_long (signed b (value_of w)) → number t (ENum (CBig (signed b (value_of w))))
| N_big t w b : signed_text t (w +:+ "N") b → whole_text w → number t (ENum (CBig (signed b (value_of w))))
| N_decimal t u b ds fs e d : signed_text t (u +:+ "M") b → float_text u ds fs e →
    is_dec (signed b (value_of (ds +:+ fs))) (e - Z.of_nat (String.length fs)) d → number t (ENum (CDec d))
| N_double t u b ds fs e : signed_text t u b → float_text u ds fs e → ¬ digits u → number t (EDouble t).

(** * Strings *)
Inductive string_chars : string → string → Prop :=
| S_end : string_chars "" ""
| S_plain c t s : c ≠ """"%char → c ≠ "\"%char → string_chars t s → string_chars (String c t) (String c s)
| S_escape e c t s :
    (e, c) ∈ [("""", """"); ("\", "\"); ("b", "008"); ("t", "009"); ("n", "010"); ("f", "012"); ("r", "013")]%char →
    string_chars t s → string_chars (String "\" (String e t)) (String c s)
| S_unicode h1 h2 h3 h4 n x t s : code_unit h1 h2 h3 h4 n → (n < 55296 ∨ 57343 < n)%N → encodes n x → string_chars t s →
    string_chars ("\u" +:+ String h1 (String h2 (String h3 (String h4 t)))) (x +:+ s)
| S_pair h1 h2 h3 h4 l1 l2 l3 l4 n m x t s :
    code_unit h1 h2 h3 h4 n → code_unit l1 l2 l3 l4 m → (55296 ≤ n ≤ 56319)%N → (56320 ≤ m ≤ 57343)%N →
    encodes (65536 + (n - 55296) * 1024 + (m - 56320))%N x → string_chars t s →
    string_chars ("\u" +:+ String h1 (String h2 (String h3 (String h4
                 ("\u" +:+ String l1 (String l2 (String l3 (String l4 t)))))))) (x +:+ s).

(** * Equal values *)

(** The number it is, and whether it is a decimal. *)
Definition equal_numbers (a b : cnum) : Prop :=
  cn_value a == cn_value b ∧ ((∃ d, a = CDec d) ↔ (∃ d, b = CDec d)).
(** Lists and vectors are equal if their elements are, in order; sets and maps whatever
    the order. *)
Inductive equal : edn → edn → Prop :=
| Q_nil : equal ENil ENil
| Q_bool b : equal (EBool b) (EBool b)
| Q_num a b : equal_numbers a b → equal (ENum a) (ENum b)
| Q_double t : equal (EDouble t) (EDouble t)
| Q_str s : equal (EStr s) (EStr s)
| Q_kw s : equal (EKw s) (EKw s)
| Q_sym s : equal (ESym s) (ESym s)
| Q_date d : equal (EDate d) (EDate d)
| Q_seq a b l l' : (a = EList l ∨ a = EVec l) → (b = EList l' ∨ b = EVec l') → Forall2 equal l l' → equal a b
| Q_set l l' : length l = length l' → Forall (λ x, Exists (equal x) l') l → equal (ESet l) (ESet l')
| Q_map l l' : length l = length l' → Forall (λ kv, Exists (λ kw, equal kv.1 kw.1 ∧ equal kv.2 kw.2) l') l →
    equal (EMap l) (EMap l').
Definition all_different (l : list edn) : Prop := ∀ i j x y, i < j → l !! i = Some x → l !! j = Some y → ¬ equal x y.

(** * Forms *)

Definition one_line : string → Prop := every (λ c, c ≠ "010"%char ∧ c ≠ "013"%char).
(** [gap s r]: [s] is white space, commas, comments and discarded forms, and then [r].
    [form v s r]: [s] is the text of [v], perhaps after a gap, and then [r].
    [forms close l s r]: [s] is the text of the elements of [l], then [close], then [r]. *)
Inductive gap : string → string → Prop :=
| G_none s : gap s s
| G_white c s r : white c → gap s r → gap (String c s) r
| G_comment t c s r : one_line t → (c = "010"%char ∨ c = "013"%char) → gap s r → gap (";" +:+ t +:+ String c s) r
| G_last_comment t : one_line t → gap (";" +:+ t) ""
| G_discard v s r r' : form v s r → gap r r' → gap ("#_" +:+ s) r'
with form : edn → string → string → Prop :=
| F_gap v s s' r : gap s s' → form v s' r → form v s r
| F_word t v r : word t v → after_word r → form v (t +:+ r) r
| F_number t v r : number t v → after_number r → form v (t +:+ r) r
| F_string t x r : string_chars t x → form (EStr x) ("""" +:+ t +:+ """" +:+ r) r
| F_list l s r : forms ")" l s r → form (EList l) ("(" +:+ s) r
| F_vector l s r : forms "]" l s r → form (EVec l) ("[" +:+ s) r
| F_set l s r : forms "}" l s r → all_different l → form (ESet l) ("#{" +:+ s) r
| F_map fs s r : forms "}" (fs ≫= λ kv, [kv.1; kv.2]) s r → all_different (fst <$> fs) → form (EMap fs) ("{" +:+ s) r
| F_date x d s r : form (EStr x) s r → after_word s → parse_date x = Some d → form (EDate d) ("#time/date" +:+ s) r
| F_regex x s r : form (EStr x) s r → after_word s → form (ERegex x) ("#regex" +:+ s) r
with forms : ascii → list edn → string → string → Prop :=
| L_end close s r : gap s (String close r) → forms close [] s r
| L_more close v l s r r' : form v s r → forms close l r r' → forms close (v :: l) s r'.
(** The text begins with [v]. *)
Definition begins_with (v : edn) (s : string) : Prop := ∃ r, form v s r.

(** * Which values are printed so that they are read again *)
Inductive readable : edn → Prop :=
| R_nil : readable ENil
| R_bool b : readable (EBool b)
| R_long z : in_long z → readable (ENum (CLong z))
| R_big z : readable (ENum (CBig z))
| R_dec d : readable (ENum (CDec d))
| R_double t : number t (EDouble t) → readable (EDouble t)
| R_str s : readable (EStr s)
| R_kw k : name_text (":" +:+ k) → readable (EKw k)
| R_sym t : word t (ESym t) → readable (ESym t)
| R_date d : valid_date d = true → readable (EDate d)
| R_list l : Forall readable l → readable (EList l)
| R_vec l : Forall readable l → readable (EVec l)
| R_set l : Forall readable l → all_different l → readable (ESet l)
| R_map fs : Forall readable (fst <$> fs) → Forall readable (snd <$> fs) → all_different (fst <$> fs) → readable (EMap fs).

(** * What a plugin is given *)

(** The same value, for the values which [ClientModel.v] has; it does not tell keys which
    are keywords from keys which are strings. *)
Inductive expresses : edn → cval → Prop :=
| X_nil : expresses ENil VNil
| X_bool b : expresses (EBool b) (VBool b)
| X_num n : expresses (ENum n) (VNum n)
| X_str s : expresses (EStr s) (VStr s)
| X_kw s : expresses (EKw s) (VKw s)
| X_date d : expresses (EDate d) (VDate d)
| X_vec l l' : Forall2 expresses l l' → expresses (EVec l) (VVec l')
| X_set l l' : Forall2 expresses l l' → expresses (ESet l) (VSet l')
| X_map key fs gs : (key = EKw ∨ key = EStr) → Forall2 (λ kv kw, kv.1 = key kw.1 ∧ expresses kv.2 kw.2) fs gs →
    expresses (EMap fs) (VMap gs).
(** The configuration in the ledger is the text of what the plugin is given.  Nothing is
    given if there is none, or if it is [nil]. *)
Definition configured (text : option string) (c : option cval) : Prop :=
  match text with
  | None => c = None
  | Some s => ∃ v, begins_with v s ∧ (v = ENil → c = None) ∧ (v ≠ ENil → ∃ w, c = Some w ∧ ∀ w', expresses v w' → w = w')
  end.
(** [q] is the plugin which the ledger asks for, with its functions called with the
    configuration in the ledger. *)
Definition plugin_of (ns : string → option namespace) (options : option cval) (pl : pplugin) (q : plugin) : Prop :=
  pl_name q = ppl_module pl ∧ pl_err q = None ∧
  ∃ n c, ns (replace_char "_" "-" (ppl_module pl)) = Some n ∧ configured (ppl_config pl) c ∧
    (match ns_raw n with Some f => f c options = Some (pl_raw q) | None => pl_raw q = None end) ∧
    (match ns_booked n with Some f => f c options = Some (pl_booked q) | None => pl_booked q = None end).
(** There is no regular expression in it. *)
Fixpoint without_regex (v : edn) : Prop :=
  match v with
  | ERegex _ => False
  | EList l | EVec l | ESet l => foldr (λ x P, without_regex x ∧ P) True l
  | EMap fs => foldr (λ kv P, (without_regex kv.1 ∧ without_regex kv.2) ∧ P) True fs
  | _ => True
  end.
