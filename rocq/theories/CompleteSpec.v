(** When a directive is complete: the specification for [CompleteProps.v], in terms of
    the fields which a directive has. *)
From Coq Require Import Ascii QArith.
From stdpp Require Import prelude strings.
From Verif Require Import DecModel LedgerTypes IsoModel JsonModel WireModel CljModel InventoryModel ClientModel.

(** The field [k] is there, and what it contains satisfies [P]. *)
Definition has (v : cval) (k : string) (P : cval → Prop) : Prop := ∃ x, vget k v = Some x ∧ P x.
(** The field [k] may be left out; if it is there what it contains satisfies [P]. *)
Definition may_have (v : cval) (k : string) (P : cval → Prop) : Prop := ∀ x, vget k v = Some x → P x.
Definition a_map (v : cval) : Prop := ∃ fs, v = VMap fs.
Definition text (v : cval) : Prop := ∃ s, v = VStr s.
Definition day (v : cval) : Prop := ∃ d, v = VDate d.
Definition flag (v : cval) : Prop := ∃ b, v = VBool b.
(** A decimal, or an integer of at most 64 bits. *)
Definition decimal (v : cval) : Prop := ∃ d, v = VNum (CDec d).
Definition number (v : cval) : Prop := decimal v ∨ ∃ z, v = VNum (CLong z).
Definition texts (v : cval) : Prop := ∃ l, v = VSet l ∧ ∀ x, x ∈ l → text x.
Definition list_of (P : cval → Prop) (v : cval) : Prop := ∃ l, v = VVec l ∧ ∀ x, x ∈ l → P x.

(** A map with exactly the fields [ks]. *)
Definition only (v : cval) (ks : list string) : Prop := a_map v ∧ ∀ k, (∃ x, vget k v = Some x) ↔ k ∈ ks.
Definition single (v : cval) (k : string) (P : cval → Prop) : Prop := only v [k] ∧ has v k P.
Inductive meta : cval → Prop :=
  | meta_nil : meta VNil
  | meta_amount v : only v ["units"; "cur"] → has v "units" number → has v "cur" text → meta v
  | meta_text v k : k ∈ ["acc"; "cur"; "link"; "string"; "tag"] → single v k text → meta v
  | meta_number v k : k ∈ ["number"; "units"] → single v k number → meta v
  | meta_bool v : single v "bool" flag → meta v
  | meta_date v : single v "date" day → meta v.
Definition metadata (v : cval) : Prop := a_map v ∧ ∀ k, may_have v k meta.

Definition cost_spec (v : cval) : Prop :=
  a_map v ∧ may_have v "per-unit" number ∧ may_have v "total" number ∧ may_have v "cur" text ∧
  may_have v "date" day ∧ may_have v "label" text ∧ may_have v "merge" flag.
Definition cost (v : cval) : Prop :=
  a_map v ∧ has v "per-unit" number ∧ has v "total" number ∧ has v "cur" text ∧
  has v "date" day ∧ may_have v "label" text ∧ may_have v "merge" flag.
Definition price_spec (v : cval) : Prop :=
  a_map v ∧ may_have v "per-unit" number ∧ may_have v "total" number ∧ may_have v "cur" text.
Definition price (v : cval) : Prop :=
  a_map v ∧ has v "per-unit" number ∧ may_have v "total" number ∧ has v "cur" text.
(** What directives and postings may have besides. *)
Definition decorated (v : cval) : Prop :=
  may_have v "tags" texts ∧ may_have v "links" texts ∧ may_have v "metadata" metadata.
Definition raw_posting (v : cval) : Prop :=
  a_map v ∧ decorated v ∧ may_have v "flag" text ∧ may_have v "acc" text ∧ may_have v "units" number ∧
  may_have v "cur" text ∧ may_have v "cost-spec" cost_spec ∧ may_have v "price-spec" price_spec.
Definition booked_posting (v : cval) : Prop :=
  a_map v ∧ decorated v ∧ may_have v "flag" text ∧ has v "acc" text ∧ has v "units" number ∧
  has v "cur" text ∧ may_have v "cost" cost ∧ may_have v "price" price.
Definition bookings : list string := ["strict"; "strict-with-size"; "none"; "average"; "fifo"; "lifo"; "hifo"].
(** Left out, or nil or false. *)
Definition absent (v : cval) (k : string) : Prop := may_have v k (λ x, x = VNil ∨ x = VBool false).

(** What a directive of each kind has to have. *)
Inductive of_kind (booked : bool) (v : cval) : string → Prop :=
  | k_txn : has v "flag" text → may_have v "payee" text → may_have v "narration" text →
            may_have v "postings" (list_of (if booked then booked_posting else raw_posting)) → of_kind booked v "txn"
  | k_price : has v "cur" text → has v "price" price → of_kind booked v "price"
  | k_balance : has v "acc" text → has v "units" number → has v "cur" text → may_have v "tolerance" decimal →
                of_kind booked v "balance"
  | k_open : has v "acc" text → may_have v "currencies" texts →
             may_have v "booking" (λ x, ∃ s, x = VKw s ∧ s ∈ bookings) →
             absent v "cur" → absent v "curs" → absent v "currency" → of_kind booked v "open"
  | k_close : has v "acc" text → of_kind booked v "close"
  | k_commodity : has v "cur" text → of_kind booked v "commodity"
  | k_pad : has v "acc" text → has v "source" text → of_kind booked v "pad"
  | k_document : has v "acc" text → has v "path" text → of_kind booked v "document"
  | k_note : has v "acc" text → has v "comment" text → of_kind booked v "note"
  | k_event : has v "type" text → has v "description" text → of_kind booked v "event"
  | k_query : has v "name" text → has v "content" text → of_kind booked v "query"
  | k_custom : has v "type" text → has v "values" (list_of meta) → of_kind booked v "custom".
(** A directive has a date, and a kind and what belongs to the kind. *)
Definition dated (v : cval) : Prop := a_map v ∧ has v "date" day ∧ decorated v.
Definition complete (booked : bool) (v : cval) : Prop :=
  dated v ∧ has v "dct" (λ x, ∃ k, x = VKw k ∧ of_kind booked v k).
(** One whose kind is there, but nil. *)
Definition kindless (v : cval) : Prop := dated v ∧ vget "dct" v = Some VNil.
