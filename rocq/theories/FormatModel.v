(** Model of [clj/src/limabean/core/format.clj], on Clojure data.

    [None] is an exception, or data of a shape which neither the server nor the
    specification (spec.clj) allows; the latter is a simplification. *)
From Coq Require Import Ascii QArith.
From stdpp Require Import prelude gmap strings pretty.
From Verif Require Import DecModel LedgerTypes IsoModel JsonModel JsonText WireModel CljModel InventoryModel ClientModel.

(** Whether a value counts as true. *)
Definition truthy (o : option cval) : bool :=
  match o with None | Some VNil | Some (VBool false) => false | _ => true end.
(** [(:k x)] where the value is only used if it counts as true. *)
Definition vget_true (k : string) (v : cval) : option cval :=
  if truthy (vget k v) then vget k v else None.

(** * Text of values *)

(** [Long/toString], [BigInteger/toString]. *)
Definition int_text (z : Z) : string := print_dec (Dec z 0).
Definition digits (n : N) : string := pretty n.
(** [BigDecimal/toString], for scales which are not negative: if the exponent of the
    first digit is less than -6 it is written with an exponent. *)
Definition dec_text (d : dec) : string :=
  let n := Z.to_N (Z.abs (dec_mant d)) in
  let ds := digits n in
  let adjusted := (Z.of_nat (String.length ds) - 1 - Z.of_nat (dec_scale d))%Z in
  if (adjusted <? -6)%Z && (0 <? dec_scale d)%nat then
    (if (dec_mant d <? 0)%Z then "-" else "") +:+
    match ds with
    | String c EmptyString => String c ""
    | String c rest => String c ("." +:+ rest)
    | EmptyString => ""
    end +:+ "E" +:+ int_text adjusted
  else print_dec d.
Definition num_text (n : cnum) : string :=
  match n with CLong z | CBig z => int_text z | CDec d => dec_text d end.

(** [(str x)]. *)
Definition str_text (o : option cval) : option string :=
  match o with
  | None | Some VNil => Some ""
  | Some (VStr s) => Some s
  | Some (VNum n) => Some (num_text n)
  | Some (VDate d) => Some (fmt_date d)
  | Some (VBool b) => Some (if b then "true" else "false")
  | Some (VKw k) => Some (":" +:+ k)
  | _ => None
  end.
(** What [print] writes for a value. *)
Definition print_text (o : option cval) : option string :=
  match o with None | Some VNil => Some "nil" | _ => str_text o end.

Fixpoint cat (l : list (option string)) : option string :=
  match l with [] => Some "" | x :: l' => s ← x; r ← cat l'; Some (s +:+ r) end.
Definition opt_part {A} (o : option A) (f : A → option string) : option string :=
  match o with Some x => f x | None => Some "" end.

(** * format.clj *)

(** format.clj:4-11 [dct-type]. *)
Definition dct_type (d : cval) : option string :=
  match vget "dct" d with
  | Some (VKw "txn") => if truthy (vget "flag" d) then print_text (vget "flag" d) else Some "txn"
  | Some (VKw k) => Some k
  | _ => Some "nil"
  end.
(** format.clj:13-16 [double-quote]; [None] is nil. *)
Definition double_quote (o : option cval) : option string :=
  match o with Some (VStr s) => Some (String """" (s +:+ """")) | _ => None end.
(** What [print] writes for it. *)
Definition quoted_text (o : option cval) : string := default "nil" (double_quote o).
(** format.clj:18-21 [prefix], as printed. *)
Definition prefixed (p : string) (v : cval) : string :=
  match v with VStr s => p +:+ s | _ => "nil" end.
(** format.clj:23-26 [booking->str]. *)
Definition upper_char (c : ascii) : ascii :=
  let n := N_of_ascii c in
  if (N.leb 97 n && N.leb n 122) then ascii_of_N (n - 32) else c.
Fixpoint upper_case (s : string) : string :=
  match s with EmptyString => EmptyString | String c s' => String (upper_char c) (upper_case s') end.
Fixpoint replace_char (a b : ascii) (s : string) : string :=
  match s with EmptyString => EmptyString | String c s' => String (if Ascii.eqb c a then b else c) (replace_char a b s') end.
Definition booking_text (o : option cval) : option string :=
  match o with Some (VKw k) => double_quote (Some (VStr (replace_char "-" "_" (upper_case k)))) | _ => None end.

Section Format.
(** The order in which a set lists its elements. *)
Context (so : list cval → list cval).
(** The elements over which [doseq] goes. *)
Definition elements (v : cval) : option (list cval) :=
  match v with VSet l => Some (so l) | VVec l => Some l | _ => None end.
Definition line_end : string := String newline "".

(** format.clj:28-31 [print-tags-and-links-inline]. *)
Definition labels_inline (p : string) (o : option cval) : option string :=
  if truthy o then
    match o with
    | Some v => l ← elements v; cat ((λ x, Some (" " +:+ prefixed p x)) <$> l)
    | None => Some ""
    end
  else Some "".
(** format.clj:33-36 [print-tags-and-links-on-separate-lines]. *)
Definition labels_lines (indent p : string) (o : option cval) : option string :=
  if truthy o then
    match o with
    | Some v => l ← elements v; cat ((λ x, Some (indent +:+ match x with VStr s => p +:+ s | _ => "" end +:+ line_end)) <$> l)
    | None => Some ""
    end
  else Some "".

(** format.clj:38-50 [meta-value->str]. *)
Definition has (k : string) (v : cval) : bool := match vget k v with Some _ => true | None => false end.
Definition view_text (o : option cval) : option string := match o with Some (VStr s) => Some s | _ => None end.
Definition meta_text (v : cval) : option string :=
  match v with
  | VNil => Some ""
  | VMap _ =>
      if has "acc" v then view_text (vget "acc" v)
      else if has "units" v && has "cur" v then cat [str_text (vget "units" v); Some " "; view_text (vget "cur" v)]
      else if has "string" v then double_quote (vget "string" v)
      else if has "bool" v then upper_case <$> str_text (vget "bool" v)
      else if has "cur" v then view_text (vget "cur" v)
      else if has "number" v then str_text (vget "number" v)
      else if has "tag" v then (match vget "tag" v with Some (VStr s) => Some ("#" +:+ s) | _ => None end)
      else if has "link" v then (match vget "link" v with Some (VStr s) => Some ("^" +:+ s) | _ => None end)
      else if has "date" v then str_text (vget "date" v)
      else None
  | _ => None
  end.
(** The keys of a map. *)
Definition map_keys (v : cval) : option (list string) :=
  match v with VMap fs => Some (remove_dups ((λ kv, kv.1) <$> fs)) | _ => None end.
(** format.clj:52-60 [print-meta-key-values-on-separate-lines]. *)
Definition meta_lines (indent : string) (v : cval) : option string :=
  ks ← map_keys v;
  cat ((λ k, t ← meta_text (default VNil (vget k v));
             Some (indent +:+ k +:+ ":" +:+ (if truthy (vget k v) then " " else "") +:+ t +:+ line_end)) <$> sort_strings ks).

(** format.clj:62-75 [cost->str]. *)
Definition strip_lead (s : string) : string :=
  match s with
  | String "," (String " " r) => r
  | String " " r => r
  | _ => s
  end.
Definition cost_text (c : cval) : option string :=
  bare ← cat [
    (if truthy (vget "per-unit" c) then str_text (vget "per-unit" c)
     else if truthy (vget "total" c) then cat [Some "# "; str_text (vget "total" c)] else Some "");
    (if truthy (vget "cur" c) then cat [Some " "; print_text (vget "cur" c)] else Some "");
    (if truthy (vget "date" c) then cat [Some ", "; str_text (vget "date" c)] else Some "");
    (match double_quote (vget "label" c) with Some l => Some (", " +:+ l) | None => Some "" end);
    (if truthy (vget "merge" c) then Some ", *" else Some "")];
  Some ("{" +:+ strip_lead bare +:+ "}").
(** format.clj:77-86 [price->str]. *)
Definition price_text (p : cval) : option string :=
  cat [Some "@";
    (if truthy (vget "per-unit" p) then cat [Some " "; str_text (vget "per-unit" p)]
     else if truthy (vget "total" p) then cat [Some " # "; str_text (vget "total" p)] else Some "");
    (if truthy (vget "cur" p) then cat [Some " "; print_text (vget "cur" p)] else Some "")].
(** [(or (:a m) (:b m))]. *)
Definition either (a b : string) (v : cval) : option cval :=
  match vget_true a v with Some x => Some x | None => vget_true b v end.

(** format.clj:88-104 [print-posting], [posting->str]. *)
Definition posting_text (p : cval) : option string :=
  cat [Some " ";
    opt_part (vget_true "flag" p) (λ f, cat [Some " "; print_text (Some f)]);
    Some " "; print_text (vget "acc" p);
    opt_part (vget_true "units" p) (λ u, cat [Some " "; str_text (Some u)]);
    opt_part (vget_true "cur" p) (λ c, cat [Some " "; print_text (Some c)]);
    opt_part (either "cost" "cost-spec" p) (λ c, cat [Some " "; cost_text c]);
    opt_part (either "price" "price-spec" p) (λ c, cat [Some " "; price_text c]);
    Some line_end;
    labels_lines "  " "#" (vget "tags" p); labels_lines "  " "^" (vget "links" p);
    opt_part (vget_true "metadata" p) (meta_lines "  ")].

(** format.clj:106-108 [print-dct-common-header-fields]. *)
Definition common_header (d : cval) : option string :=
  cat [str_text (vget "date" d); Some " "; dct_type d].
(** format.clj:110-117 [print-txn-specific-header-fields]. *)
Definition txn_fields (d : cval) : option string :=
  Some match double_quote (vget "payee" d), double_quote (vget "narration" d) with
       | Some p, Some n => " " +:+ p +:+ " " +:+ n
       | Some p, None => " " +:+ p +:+ " " +:+ """"""
       | None, Some n => " " +:+ n
       | None, None => ""
       end.
(** format.clj:119-122 [txn-header->str]. *)
Definition txn_header (d : cval) : option string := cat [common_header d; txn_fields d].

(** The postings of a directive; [(:postings d)] is a vector or nil. *)
Definition vpostings (d : cval) : list cval := match vget "postings" d with Some (VVec l) => l | _ => [] end.
Definition is_txn (d : cval) : bool := match vget "dct" d with Some (VKw "txn") => true | _ => false end.
Definition is_custom (d : cval) : bool := match vget "dct" d with Some (VKw "custom") => true | _ => false end.

(** [(str/join "," (sort currencies))]. *)
Definition strings (l : list cval) : option (list string) := mapM (λ v, view_text (Some v)) l.

(** format.clj:129-150: what is printed for each kind of directive. *)
Definition specific (d : cval) : option string :=
  match vget "dct" d with
  | Some (VKw "txn") => txn_fields d
  | Some (VKw "price") =>
      let p := default VNil (vget "price" d) in
      cat [Some " "; print_text (vget "cur" d); Some " "; str_text (vget "per-unit" p); Some " "; print_text (vget "cur" p)]
  | Some (VKw "balance") =>
      cat [Some " "; print_text (vget "acc" d); Some " "; str_text (vget "units" d); Some " "; print_text (vget "cur" d);
        opt_part (vget_true "tolerance" d) (λ t, cat [Some " ~ "; str_text (Some t)])]
  | Some (VKw "open") =>
      cat [Some " "; print_text (vget "acc" d);
        opt_part (vget_true "currencies" d)
          (λ v, l ← elements v; ss ← strings l; Some (" " +:+ String.concat "," (sort_strings ss)));
        opt_part (booking_text (vget "booking" d)) (λ b, Some (" " +:+ b))]
  | Some (VKw "close") => cat [Some " "; print_text (vget "acc" d)]
  | Some (VKw "commodity") => cat [Some " "; print_text (vget "cur" d)]
  | Some (VKw "pad") => cat [Some " "; print_text (vget "acc" d); Some " "; print_text (vget "source" d)]
  | Some (VKw "document") => cat [Some " "; print_text (vget "acc" d); Some (" " +:+ quoted_text (vget "path" d))]
  | Some (VKw "note") => cat [Some " "; print_text (vget "acc" d); Some (" " +:+ quoted_text (vget "comment" d))]
  | Some (VKw "event") => Some (" " +:+ quoted_text (vget "type" d) +:+ " " +:+ quoted_text (vget "description" d))
  | Some (VKw "query") => Some (" " +:+ quoted_text (vget "name" d) +:+ " " +:+ quoted_text (vget "content" d))
  | Some (VKw "custom") =>
      vs ← (match vget "values" d with Some (VVec l) => Some l | None | Some VNil => Some [] | _ => None end);
      cat (Some (" " +:+ quoted_text (vget "type" d)) :: ((λ v, cat [Some " "; meta_text v]) <$> vs))
  | _ => Some ""
  end.
(** format.clj:124-161 [directive->str]. *)
Definition directive_text (d : cval) : option string :=
  cat ([common_header d; specific d] ++
       (if is_custom d then [] else [labels_inline "#" (vget "tags" d); labels_inline "^" (vget "links" d)]) ++
       [Some line_end] ++
       (if is_custom d then [labels_lines "  " "#" (vget "tags" d); labels_lines "  " "^" (vget "links" d)] else []) ++
       [opt_part (vget_true "metadata" d) (meta_lines "  ")] ++
       (if is_txn d then posting_text <$> vpostings d else [])).

(** format.clj:163-188 [elements-xf]: the texts of one directive. *)
Definition element_texts (d : cval) : option (list string) :=
  if is_txn d then mapM id (txn_header d :: (posting_text <$> vpostings d)) else mapM id [directive_text d].
End Format.
