(** The wire format: which JSON trees stand for which ledger data.

    [x_json j x] reads "[j] is a representation of [x]".  Objects may have their
    fields in any order and may contain further fields, except for metadata
    values, whose fields are exactly those listed. *)
From Coq Require Import Ascii.
From stdpp Require Import prelude gmap strings.
From Verif Require Import DecModel LedgerTypes IsoModel JsonModel.

(** The field [k] is there once, and represents [x]. *)
Definition has {A} (R : json → A → Prop) (k : string) (fs : fields) (x : A) : Prop :=
  ∃ v, entries k fs = [v] ∧ R v x.
(** The same for an optional field, which is missing or null when there is no
    value. *)
Definition has_opt {A} (R : json → A → Prop) (k : string) (fs : fields) (o : option A) : Prop :=
  match o with
  | Some x => ∃ v, entries k fs = [v] ∧ v ≠ JNull ∧ R v x
  | None => entries k fs = [] ∨ entries k fs = [JNull]
  end.

(** Text which may contain any character. *)
Definition text_json (j : json) (s : string) : Prop := j = JStr s.
(** A name: without quotes, backslashes and control characters. *)
Definition name_json (j : json) (s : string) : Prop := j = JStr s ∧ plain s = true.
Definition bool_json (j : json) (b : bool) : Prop := j = JBool b.
Definition nat_json (j : json) (n : nat) : Prop := j = JNum (Dec (Z.of_nat n) 0).

(** The text of a date: [-]YYYY-MM-DD, where a sign is also accepted when it
    says nothing. *)
Definition date_json (j : json) (d : date) : Prop :=
  ∃ s, j = JStr s ∧ valid_date d = true ∧
    (s = fmt_date d ∨ (s = "+" +:+ fmt_date d ∧ (0 <= date_year d)%Z) ∨
     (s = "-" +:+ fmt_date d ∧ date_year d = 0%Z)).

Definition span_json (j : json) (s : span) : Prop :=
  ∃ a b c, j = JArr [a; b; c] ∧ nat_json a (span_source s) ∧ nat_json b (span_start s) ∧ nat_json c (span_end s).
Definition list_json {A} (R : json → A → Prop) (j : json) (l : list A) : Prop :=
  ∃ js, j = JArr js ∧ Forall2 R js l.
Definition set_json (j : json) (X : gset string) : Prop :=
  ∃ l, list_json name_json j l ∧ ∀ s, s ∈ X ↔ s ∈ l.
(** A map: the last of several entries with one key counts. *)
Definition map_json {A} (R : json → A → Prop) (j : json) (m : gmap string A) : Prop :=
  ∃ fs kvs, j = JObj fs ∧
    Forall2 (λ (kv : string * json) (kx : string * A), kv.1 = kx.1 ∧ plain kv.1 = true ∧ R kv.2 kx.2) fs kvs ∧
    ∀ k, m !! k = last (entries k kvs).

Definition booking_json (j : json) (b : booking) : Prop :=
  j = JStr match b with
           | BStrict => "strict" | BStrictWithSize => "strict-with-size" | BNone => "none"
           | BAverage => "average" | BFifo => "fifo" | BLifo => "lifo" | BHifo => "hifo"
           end.

Section Spec.
(** How a number written as a string is read. *)
Context (dec_parse : string → option dec).

Definition num_json (j : json) (d : dec) : Prop := j = JNum d ∨ ∃ s, j = JStr s ∧ dec_parse s = Some d.

Definition meta_json (j : json) (v : meta_value) : Prop :=
  match v with
  | MVNull => j = JNull
  | MVAmount u c => ∃ ju jc, num_json ju u ∧ name_json jc c ∧
      (j = JObj [("units", ju); ("cur", jc)] ∨ j = JObj [("cur", jc); ("units", ju)])
  | MVString s => ∃ x, j = JObj [("string", x)] ∧ text_json x s
  | MVCurrency s => ∃ x, j = JObj [("cur", x)] ∧ name_json x s
  | MVAccount s => ∃ x, j = JObj [("acc", x)] ∧ name_json x s
  | MVTag s => ∃ x, j = JObj [("tag", x)] ∧ name_json x s
  | MVLink s => ∃ x, j = JObj [("link", x)] ∧ name_json x s
  | MVDate d => ∃ x, j = JObj [("date", x)] ∧ date_json x d
  | MVBool b => ∃ x, j = JObj [("bool", x)] ∧ bool_json x b
  | MVNumber n => ∃ x, j = JObj [("number", x)] ∧ num_json x n
  end.

Definition cost_spec_json (j : json) (c : cost_spec) : Prop := ∃ fs, j = JObj fs ∧
  has_opt num_json "per-unit" fs (cs_per_unit c) ∧ has_opt num_json "total" fs (cs_total c) ∧
  has_opt name_json "cur" fs (cs_cur c) ∧ has_opt date_json "date" fs (cs_date c) ∧
  has_opt text_json "label" fs (cs_label c) ∧
  (has bool_json "merge" fs (cs_merge c) ∨ entries "merge" fs = [] ∧ cs_merge c = false).

Definition price_spec_json (j : json) (p : price_spec) : Prop := ∃ fs, j = JObj fs ∧
  has_opt num_json "per-unit" fs (prs_per_unit p) ∧ has_opt num_json "total" fs (prs_total p) ∧
  has_opt name_json "cur" fs (prs_cur p).

Definition price_json (j : json) (p : price) : Prop := ∃ fs, j = JObj fs ∧
  has num_json "per-unit" fs (pr_per_unit p) ∧ has_opt num_json "total" fs (pr_total p) ∧
  has name_json "cur" fs (pr_cur p).

Definition posting_json (j : json) (p : posting_spec) : Prop := ∃ fs, j = JObj fs ∧
  has_opt span_json "span" fs (ps_span p) ∧ has_opt text_json "flag" fs (ps_flag p) ∧
  has name_json "acc" fs (ps_acc p) ∧ has_opt num_json "units" fs (ps_units p) ∧
  has_opt name_json "cur" fs (ps_cur p) ∧ has_opt cost_spec_json "cost-spec" fs (ps_cost p) ∧
  has_opt price_spec_json "price-spec" fs (ps_price p) ∧ has_opt set_json "tags" fs (ps_tags p) ∧
  has_opt set_json "links" fs (ps_links p) ∧ has_opt (map_json meta_json) "metadata" fs (ps_metadata p).

Definition variant_json (fs : fields) (v : directive_variant) : Prop :=
  match v with
  | DTransaction t => has text_json "dct" fs "txn" ∧ has text_json "flag" fs (tx_flag t) ∧
      has_opt text_json "payee" fs (tx_payee t) ∧ has_opt text_json "narration" fs (tx_narration t) ∧
      has (list_json posting_json) "postings" fs (tx_postings t)
  | DPrice p => has text_json "dct" fs "price" ∧ has name_json "cur" fs (pd_cur p) ∧
      has price_json "price" fs (pd_price p)
  | DBalance b => has text_json "dct" fs "balance" ∧ has name_json "acc" fs (bal_acc b) ∧
      has num_json "units" fs (bal_units b) ∧ has name_json "cur" fs (bal_cur b) ∧
      has_opt num_json "tolerance" fs (bal_tolerance b)
  | DOpen o => has text_json "dct" fs "open" ∧ has name_json "acc" fs (op_acc o) ∧
      has_opt set_json "currencies" fs (op_currencies o) ∧ has_opt booking_json "booking" fs (op_booking o)
  | DClose a => has text_json "dct" fs "close" ∧ has name_json "acc" fs a
  | DCommodity c => has text_json "dct" fs "commodity" ∧ has name_json "cur" fs c
  | DPad p => has text_json "dct" fs "pad" ∧ has name_json "acc" fs (pad_acc p) ∧
      has name_json "source" fs (pad_source p)
  | DDocument a p => has text_json "dct" fs "document" ∧ has name_json "acc" fs a ∧ has text_json "path" fs p
  | DNote a c => has text_json "dct" fs "note" ∧ has name_json "acc" fs a ∧ has text_json "comment" fs c
  | DEvent t d => has text_json "dct" fs "event" ∧ has text_json "type" fs t ∧ has text_json "description" fs d
  | DQuery n c => has text_json "dct" fs "query" ∧ has text_json "name" fs n ∧ has text_json "content" fs c
  | DCustom c => has text_json "dct" fs "custom" ∧ has text_json "type" fs (cu_type c) ∧
      has (list_json meta_json) "values" fs (cu_values c)
  end.

Definition directive_json (j : json) (d : directive) : Prop := ∃ fs, j = JObj fs ∧
  has_opt span_json "span" fs (d_span d) ∧ has date_json "date" fs (d_date d) ∧
  has_opt set_json "tags" fs (d_tags d) ∧ has_opt set_json "links" fs (d_links d) ∧
  has_opt (map_json meta_json) "metadata" fs (d_metadata d) ∧ variant_json fs (d_variant d).

End Spec.

(** ** Data which can be sent: dates exist and names are plain. *)
Definition all_opt {A} (P : A → Prop) (o : option A) : Prop := match o with Some x => P x | None => True end.
Definition ok_name (s : string) : Prop := plain s = true.
Definition ok_date (d : date) : Prop := valid_date d = true.
Definition ok_set (X : gset string) : Prop := ∀ s, s ∈ X → ok_name s.
Definition ok_meta (v : meta_value) : Prop :=
  match v with
  | MVAmount _ s | MVCurrency s | MVAccount s | MVTag s | MVLink s => ok_name s
  | MVDate d => ok_date d
  | MVString _ | MVBool _ | MVNumber _ | MVNull => True
  end.
Definition ok_metadata (m : gmap string meta_value) : Prop := ∀ k v, m !! k = Some v → ok_name k ∧ ok_meta v.
Definition ok_cost_spec (c : cost_spec) : Prop := all_opt ok_name (cs_cur c) ∧ all_opt ok_date (cs_date c).
Definition ok_posting_spec (p : posting_spec) : Prop :=
  ok_name (ps_acc p) ∧ all_opt ok_name (ps_cur p) ∧ all_opt ok_cost_spec (ps_cost p) ∧
  all_opt (λ pr, all_opt ok_name (prs_cur pr)) (ps_price p) ∧ all_opt ok_set (ps_tags p) ∧
  all_opt ok_set (ps_links p) ∧ all_opt ok_metadata (ps_metadata p).
Definition ok_variant (v : directive_variant) : Prop :=
  match v with
  | DTransaction t => ∀ p, p ∈ tx_postings t → ok_posting_spec p
  | DPrice p => ok_name (pd_cur p) ∧ ok_name (pr_cur (pd_price p))
  | DBalance b => ok_name (bal_acc b) ∧ ok_name (bal_cur b)
  | DOpen o => ok_name (op_acc o) ∧ all_opt ok_set (op_currencies o)
  | DClose s | DCommodity s | DDocument s _ | DNote s _ => ok_name s
  | DPad p => ok_name (pad_acc p) ∧ ok_name (pad_source p)
  | DEvent _ _ | DQuery _ _ => True
  | DCustom c => ∀ v, v ∈ cu_values c → ok_meta v
  end.
Definition ok_directive (d : directive) : Prop :=
  ok_date (d_date d) ∧ all_opt ok_set (d_tags d) ∧ all_opt ok_set (d_links d) ∧
  all_opt ok_metadata (d_metadata d) ∧ ok_variant (d_variant d).

(** Every field name with a meaning at the top of a directive. *)
Definition directive_fields : list string :=
  ["span"; "date"; "tags"; "links"; "metadata"; "dct"; "flag"; "payee"; "narration"; "postings"; "cur"; "price";
   "acc"; "units"; "tolerance"; "currencies"; "booking"; "source"; "path"; "comment"; "type"; "description";
   "name"; "content"; "values"].
