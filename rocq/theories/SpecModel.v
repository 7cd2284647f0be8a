(** Model of [clj/src/limabean/spec.clj]: which values meet the specification of
    directives.  [clojure.spec] (a library) is taken from its documentation: [s/keys]
    asks for a map with the required keys, and looks at the values of the required and
    the optional keys which are there. *)
From Coq Require Import Ascii QArith.
From stdpp Require Import prelude strings.
From Verif Require Import DecModel LedgerTypes IsoModel JsonModel WireModel CljModel InventoryModel ClientModel.

Notation check := (cval → bool).
Definition v_map (v : cval) : bool := match v with VMap _ => true | _ => false end.
(** [s/keys]. *)
Definition s_req (k : string) (c : check) (v : cval) : bool := match vget k v with Some x => c x | None => false end.
Definition s_opt (k : string) (c : check) (v : cval) : bool := match vget k v with Some x => c x | None => true end.
Definition s_keys (req opt : list (string * check)) (v : cval) : bool :=
  v_map v && forallb (λ kc, s_req kc.1 kc.2 v) req && forallb (λ kc, s_opt kc.1 kc.2 v) opt.
(** The keys of a map. *)
Definition v_keys (v : cval) : list string := match v with VMap fs => remove_dups fs.*1 | _ => [] end.
(** [(s/map-of #{k} c :count 1)]. *)
Definition s_single (k : string) (c : check) (v : cval) : bool :=
  v_map v && bool_decide (v_keys v = [k]) && s_req k c v.
(** [(s/coll-of c :kind set?)], [:kind vector?]. *)
Definition s_set (c : check) (v : cval) : bool := match v with VSet l => forallb c l | _ => false end.
Definition s_vec (c : check) (v : cval) : bool := match v with VVec l => forallb c l | _ => false end.

(** spec.clj:8-14: the predicates; [int?] is for integers of fixed precision. *)
Definition c_day : check := λ v, match v with VDate _ => true | _ => false end.
Definition c_string : check := λ v, match v with VStr _ => true | _ => false end.
Definition c_bool : check := λ v, match v with VBool _ => true | _ => false end.
Definition c_nil : check := λ v, match v with VNil => true | _ => false end.
Definition c_decimal : check := λ v, match v with VNum (CDec _) => true | _ => false end.
Definition c_int : check := λ v, match v with VNum (CLong _) => true | _ => false end.
Definition c_number : check := λ v, c_decimal v || c_int v.
(** spec.clj:15-16 [::amount]. *)
Definition c_amount : check := λ v,
  s_keys [("units", c_number); ("cur", c_string)] [] v && Nat.eqb (length (v_keys v)) 2.
(** spec.clj:21-22 [::tags], [::links], and 47 [::currencies]. *)
Definition c_strings : check := s_set c_string.
(** spec.clj:24-36 [::metavalue], [::metadata]; the keys of our maps are keywords. *)
Definition c_metavalue : check := λ v,
  s_single "acc" c_string v || c_amount v || s_single "bool" c_bool v || s_single "cur" c_string v ||
  s_single "date" c_day v || s_single "link" c_string v || c_nil v || s_single "number" c_number v ||
  s_single "string" c_string v || s_single "tag" c_string v || s_single "units" c_number v.
Definition c_metadata : check := λ v, v_map v && forallb (λ k, s_req k c_metavalue v) (v_keys v).
(** spec.clj:44 [::tolerance]. *)
Definition c_tolerance : check := c_decimal.
(** spec.clj:48 [::booking]. *)
Definition c_booking : check := λ v,
  match v with
  | VKw s => existsb (String.eqb s) ["strict"; "strict-with-size"; "none"; "average"; "fifo"; "lifo"; "hifo"]
  | _ => false
  end.
(** spec.clj:68 [::values]. *)
Definition c_values : check := s_vec c_metavalue.
(** spec.clj:71-81. *)
Definition c_cost_spec : check := s_keys []
  [("per-unit", c_number); ("total", c_number); ("cur", c_string); ("date", c_day); ("label", c_string); ("merge", c_bool)].
Definition c_cost : check := s_keys
  [("per-unit", c_number); ("total", c_number); ("cur", c_string); ("date", c_day)] [("label", c_string); ("merge", c_bool)].
Definition c_price_spec : check := s_keys [] [("per-unit", c_number); ("total", c_number); ("cur", c_string)].
Definition c_price : check := s_keys [("per-unit", c_number); ("cur", c_string)] [("total", c_number)].
(** spec.clj:86-97. *)
Definition c_raw_posting : check := s_keys []
  [("flag", c_string); ("acc", c_string); ("units", c_number); ("cur", c_string); ("cost-spec", c_cost_spec);
   ("price-spec", c_price_spec); ("tags", c_strings); ("links", c_strings); ("metadata", c_metadata)].
Definition c_booked_posting : check := s_keys
  [("acc", c_string); ("units", c_number); ("cur", c_string)]
  [("flag", c_string); ("cost", c_cost); ("price", c_price); ("tags", c_strings); ("links", c_strings); ("metadata", c_metadata)].
(** spec.clj:100 [::base-dct]. *)
Definition c_base : check := s_keys [("date", c_day)] [("tags", c_strings); ("links", c_strings); ("metadata", c_metadata)].
(** spec.clj:102-107. *)
Definition c_txn (booked : bool) : check := s_keys [("flag", c_string)]
  [("payee", c_string); ("narration", c_string); ("postings", s_vec (if booked then c_booked_posting else c_raw_posting))].
(** spec.clj:109-122, the other directives. *)
Definition c_variant (booked : bool) (dct : string) : check :=
  let texts ks := s_keys ((λ k, (k, c_string)) <$> ks) [] in
  match dct with
  | "txn" => c_txn booked
  | "price" => s_keys [("cur", c_string); ("price", c_price)] []
  | "balance" => s_keys [("acc", c_string); ("units", c_number); ("cur", c_string)] [("tolerance", c_tolerance)]
  | "open" => λ v, s_keys [("acc", c_string)] [("currencies", c_strings); ("booking", c_booking)] v &&
                   forallb (λ k, match vget k v with None | Some VNil | Some (VBool false) => true | Some _ => false end) ["cur"; "curs"; "currency"]
  | "close" => texts ["acc"]
  | "commodity" => texts ["cur"]
  | "pad" => texts ["acc"; "source"]
  | "document" => texts ["acc"; "path"]
  | "note" => texts ["acc"; "comment"]
  | "event" => texts ["type"; "description"]
  | "query" => texts ["name"; "content"]
  | "custom" => s_keys [("type", c_string); ("values", c_values)] []
  | _ => λ _, false
  end.
(** spec.clj:124-154 [::raw-dct], [::booked-dct]: by the value of [:dct], which may be nil
    but has to be there. *)
Definition directive_spec (booked : bool) (v : cval) : bool :=
  c_base v &&
  match vget "dct" v with
  | Some (VKw k) => c_variant booked k v
  | Some VNil => true
  | _ => false
  end.
