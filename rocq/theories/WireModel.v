(** Serialization of ledger data: [rust/src/api/types/raw.rs],
    [rust/src/api/types/serializers.rs] and [rust/src/api/types/booked.rs].

    Not modelled: serde also reads a derived struct from an array of its fields. *)
From Coq Require Import Ascii.
From stdpp Require Import prelude gmap strings.
From Verif Require Import DecModel LedgerTypes IsoModel JsonModel.

(** The order in which the hash tables happen to be written. *)
Record hash_order := HashOrder {
  set_order : gset string → list string;
  map_order : gmap string meta_value → list (string * meta_value) }.

Section Wire.
(** [FromStr for rust_decimal::Decimal], used when a number arrives as a
    string. *)
Context (dec_parse : string → option dec).
Context (ord : hash_order).

(** ** Writing *)

Definition put_num (d : dec) : json := JNum d.
Definition put_date (d : date) : json := JStr (fmt_date d).
Definition put_set (X : gset string) : json := JArr (JStr <$> set_order ord X).

(** serializers.rs:129-140 [Serialize for Span]. *)
Definition put_span (s : span) : json :=
  JArr [of_nat (span_source s); of_nat (span_start s); of_nat (span_end s)].

(** serializers.rs:182-194 [Serialize for ElementIdx]. *)
Definition put_eidx (e : eidx) : json :=
  JArr (of_nat (ei_directive e) :: match ei_posting e with Some p => [of_nat p] | None => [] end).

(** serializers.rs:12-43 [Serialize for MetaValue], with the key names of
    serializers.rs:196-212 [MetaKey]. *)
Definition put_meta (v : meta_value) : json :=
  match v with
  | MVNull => JNull
  | MVAmount u c => JObj [("units", put_num u); ("cur", JStr c)]
  | MVString s => JObj [("string", JStr s)]
  | MVCurrency s => JObj [("cur", JStr s)]
  | MVAccount s => JObj [("acc", JStr s)]
  | MVTag s => JObj [("tag", JStr s)]
  | MVLink s => JObj [("link", JStr s)]
  | MVDate d => JObj [("date", put_date d)]
  | MVBool b => JObj [("bool", JBool b)]
  | MVNumber n => JObj [("number", put_num n)]
  end.
Definition put_metadata (m : gmap string meta_value) : json :=
  JObj ((λ kv, (kv.1, put_meta kv.2)) <$> map_order ord m).

(** raw.rs:291-302 [Booking], kebab-case. *)
Definition booking_name (b : booking) : string :=
  match b with
  | BStrict => "strict" | BStrictWithSize => "strict-with-size" | BNone => "none"
  | BAverage => "average" | BFifo => "fifo" | BLifo => "lifo" | BHifo => "hifo"
  end.
Definition put_booking (b : booking) : json := JStr (booking_name b).

(** raw.rs:186-205 [CostSpec]. *)
Definition put_cost_spec (c : cost_spec) : json :=
  JObj (put_opt "per-unit" put_num (cs_per_unit c) ++ put_opt "total" put_num (cs_total c) ++
        put_opt "cur" JStr (cs_cur c) ++ put_opt "date" put_date (cs_date c) ++
        put_opt "label" JStr (cs_label c) ++ (if cs_merge c then [("merge", JBool true)] else [])).

(** raw.rs:207-217 [PriceSpec]. *)
Definition put_price_spec (p : price_spec) : json :=
  JObj (put_opt "per-unit" put_num (prs_per_unit p) ++ put_opt "total" put_num (prs_total p) ++
        put_opt "cur" JStr (prs_cur p)).

(** raw.rs:219-227 and booked.rs:120-132 [Price]. *)
Definition put_price (p : price) : json :=
  JObj (("per-unit", put_num (pr_per_unit p)) :: put_opt "total" put_num (pr_total p) ++
        [("cur", JStr (pr_cur p))]).

(** raw.rs:161-184 [PostingSpec]. *)
Definition put_posting_spec (p : posting_spec) : json :=
  JObj (put_opt "span" put_span (ps_span p) ++ put_opt "flag" JStr (ps_flag p) ++
        [("acc", JStr (ps_acc p))] ++ put_opt "units" put_num (ps_units p) ++
        put_opt "cur" JStr (ps_cur p) ++ put_opt "cost-spec" put_cost_spec (ps_cost p) ++
        put_opt "price-spec" put_price_spec (ps_price p) ++ put_opt "tags" put_set (ps_tags p) ++
        put_opt "links" put_set (ps_links p) ++ put_opt "metadata" put_metadata (ps_metadata p)).

(** raw.rs:74-83 [Balance]. *)
Definition put_balance (b : balance) : fields :=
  [("acc", JStr (bal_acc b)); ("units", put_num (bal_units b)); ("cur", JStr (bal_cur b))] ++
  put_opt "tolerance" put_num (bal_tolerance b).
(** raw.rs:85-94 [Open]. *)
Definition put_open (o : open) : fields :=
  ("acc", JStr (op_acc o)) :: put_opt "currencies" put_set (op_currencies o) ++
  put_opt "booking" put_booking (op_booking o).
(** raw.rs:66-72, 110-116, 151-159: [PriceDct], [Pad], [Custom]. *)
Definition put_price_dct (p : price_dct) : fields :=
  [("cur", JStr (pd_cur p)); ("price", put_price (pd_price p))].
Definition put_pad (p : pad) : fields := [("acc", JStr (pad_acc p)); ("source", JStr (pad_source p))].
Definition put_custom (c : custom) : fields :=
  [("type", JStr (cu_type c)); ("values", JArr (put_meta <$> cu_values c))].

(** raw.rs:31-51 [DirectiveVariant], internally tagged with [dct], and the
    remaining variants at raw.rs:53-159. *)
Definition put_variant (v : directive_variant) : fields :=
  match v with
  | DTransaction t =>
      ("dct", JStr "txn") :: ("flag", JStr (tx_flag t)) :: put_opt "payee" JStr (tx_payee t) ++
      put_opt "narration" JStr (tx_narration t) ++ [("postings", JArr (put_posting_spec <$> tx_postings t))]
  | DPrice p => ("dct", JStr "price") :: put_price_dct p
  | DBalance b => ("dct", JStr "balance") :: put_balance b
  | DOpen o => ("dct", JStr "open") :: put_open o
  | DClose a => [("dct", JStr "close"); ("acc", JStr a)]
  | DCommodity c => [("dct", JStr "commodity"); ("cur", JStr c)]
  | DPad p => ("dct", JStr "pad") :: put_pad p
  | DDocument a p => [("dct", JStr "document"); ("acc", JStr a); ("path", JStr p)]
  | DNote a c => [("dct", JStr "note"); ("acc", JStr a); ("comment", JStr c)]
  | DEvent t d => [("dct", JStr "event"); ("type", JStr t); ("description", JStr d)]
  | DQuery n c => [("dct", JStr "query"); ("name", JStr n); ("content", JStr c)]
  | DCustom c => ("dct", JStr "custom") :: put_custom c
  end.

(** raw.rs:12-29 [Directive]; the variant is flattened. *)
Definition put_directive (d : directive) : json :=
  JObj (put_opt "span" put_span (d_span d) ++ [("date", put_date (d_date d))] ++
        put_opt "tags" put_set (d_tags d) ++ put_opt "links" put_set (d_links d) ++
        put_opt "metadata" put_metadata (d_metadata d) ++ put_variant (d_variant d)).

(** booked.rs:87-105 [Cost]. *)
Definition put_cost (c : cost) : json :=
  JObj ([("date", put_date (c_date c)); ("per-unit", put_num (c_per_unit c));
         ("total", put_num (c_total c)); ("cur", JStr (c_cur c))] ++
        put_opt "label" JStr (c_label c) ++ (if c_merge c then [("merge", JBool true)] else [])).

(** booked.rs:64-85 [Posting]. *)
Definition put_posting (p : posting) : json :=
  JObj (put_opt "idx" of_nat (p_idx p) ++ put_opt "flag" JStr (p_flag p) ++
        [("acc", JStr (p_acc p)); ("units", put_num (p_units p)); ("cur", JStr (p_cur p))] ++
        put_opt "cost" put_cost (p_cost p) ++ put_opt "price" put_price (p_price p) ++
        put_opt "tags" put_set (p_tags p) ++ put_opt "links" put_set (p_links p) ++
        put_opt "metadata" put_metadata (p_metadata p)).

(** booked.rs:30-62, 134-147 [DirectiveVariant], [Transaction], [Balance] (its
    last two fields are skipped). *)
Definition put_bvariant (v : bvariant) : fields :=
  match v with
  | BVTransaction t =>
      ("dct", JStr "txn") :: ("flag", JStr (bt_flag t)) :: put_opt "payee" JStr (bt_payee t) ++
      put_opt "narration" JStr (bt_narration t) ++ [("postings", JArr (put_posting <$> bt_postings t))]
  | BVPrice p => ("dct", JStr "price") :: put_price_dct p
  | BVBalance b => ("dct", JStr "balance") :: put_balance (bb_raw b)
  | BVOpen o => ("dct", JStr "open") :: put_open o
  | BVClose a => [("dct", JStr "close"); ("acc", JStr a)]
  | BVCommodity c => [("dct", JStr "commodity"); ("cur", JStr c)]
  | BVPad p => ("dct", JStr "pad") :: put_pad p
  | BVDocument a p => [("dct", JStr "document"); ("acc", JStr a); ("path", JStr p)]
  | BVNote a c => [("dct", JStr "note"); ("acc", JStr a); ("comment", JStr c)]
  | BVEvent t d => [("dct", JStr "event"); ("type", JStr t); ("description", JStr d)]
  | BVQuery n c => [("dct", JStr "query"); ("name", JStr n); ("content", JStr c)]
  | BVCustom c => ("dct", JStr "custom") :: put_custom c
  end.

(** booked.rs:12-28 [Directive]. *)
Definition put_bdirective (d : bdirective) : json :=
  JObj ([("idx", of_nat (b_idx d)); ("date", put_date (b_date d))] ++
        put_opt "tags" put_set (b_tags d) ++ put_opt "links" put_set (b_links d) ++
        put_opt "metadata" put_metadata (b_metadata d) ++ put_bvariant (b_variant d)).

(** ** Reading *)

(** [Deserialize for Decimal]: a number, or a string which parses as one. *)
Definition get_num (j : json) : option dec :=
  match j with JNum d => Some d | JStr s => dec_parse s | _ => None end.
Definition get_date (j : json) : option date :=
  match j with JStr s => parse_date s | _ => None end.

(** serializers.rs:142-180 [Deserialize for Span]. *)
Definition get_span (j : json) : option span :=
  match j with
  | JArr [a; b; c] => x ← as_nat a; y ← as_nat b; z ← as_nat c; Some (Span x y z)
  | _ => None
  end.

(** serializers.rs:45-127 [Deserialize for MetaValue].  Keys left over after the
    value was read are an error of the map reader. *)
Definition get_meta (j : json) : option meta_value :=
  match j with
  | JNull => Some MVNull
  | JObj ((k, v) :: rest) =>
      if String.eqb k "units" then
        u ← get_num v;
        match rest with
        | [(k', v')] => if String.eqb k' "cur" then MVAmount u <$> as_borrowed v' else None
        | _ => None
        end
      else if String.eqb k "cur" then
        c ← as_borrowed v;
        match rest with
        | [] => Some (MVCurrency c)
        | [(k', v')] => if String.eqb k' "units" then (λ u, MVAmount u c) <$> get_num v' else None
        | _ => None
        end
      else
        match rest with
        | [] =>
            if String.eqb k "string" then MVString <$> as_owned v
            else if String.eqb k "acc" then MVAccount <$> as_borrowed v
            else if String.eqb k "tag" then MVTag <$> as_borrowed v
            else if String.eqb k "link" then MVLink <$> as_borrowed v
            else if String.eqb k "date" then MVDate <$> get_date v
            else if String.eqb k "bool" then MVBool <$> as_bool v
            else if String.eqb k "number" then MVNumber <$> get_num v
            else None
        | _ => None
        end
  | _ => None
  end.

(** raw.rs:291-302 [Booking]. *)
Definition get_booking (j : json) : option booking :=
  match j with
  | JStr s =>
      if String.eqb s "strict" then Some BStrict
      else if String.eqb s "strict-with-size" then Some BStrictWithSize
      else if String.eqb s "none" then Some BNone
      else if String.eqb s "average" then Some BAverage
      else if String.eqb s "fifo" then Some BFifo
      else if String.eqb s "lifo" then Some BLifo
      else if String.eqb s "hifo" then Some BHifo
      else None
  | _ => None
  end.

(** raw.rs:186-205 [CostSpec]. *)
Definition get_cost_spec : json → option cost_spec := as_obj (λ fs,
  pu ← get_opt get_num "per-unit" fs; t ← get_opt get_num "total" fs;
  c ← get_opt as_borrowed "cur" fs; d ← get_opt get_date "date" fs;
  l ← get_opt as_owned "label" fs; m ← get_default as_bool false "merge" fs;
  Some (CostSpec pu t c d l m)).

(** raw.rs:207-217 [PriceSpec]. *)
Definition get_price_spec : json → option price_spec := as_obj (λ fs,
  pu ← get_opt get_num "per-unit" fs; t ← get_opt get_num "total" fs;
  c ← get_opt as_borrowed "cur" fs; Some (PriceSpec pu t c)).

(** raw.rs:219-227 [Price]. *)
Definition get_price : json → option price := as_obj (λ fs,
  pu ← get_req get_num "per-unit" fs; t ← get_opt get_num "total" fs;
  c ← get_req as_borrowed "cur" fs; Some (Price pu t c)).

(** raw.rs:161-184 [PostingSpec]. *)
Definition get_posting_spec : json → option posting_spec := as_obj (λ fs,
  s ← get_opt get_span "span" fs; f ← get_opt as_owned "flag" fs;
  a ← get_req as_borrowed "acc" fs; u ← get_opt get_num "units" fs;
  c ← get_opt as_borrowed "cur" fs; co ← get_opt get_cost_spec "cost-spec" fs;
  pr ← get_opt get_price_spec "price-spec" fs; ta ← get_opt as_set "tags" fs;
  li ← get_opt as_set "links" fs; me ← get_opt (as_map get_meta) "metadata" fs;
  Some (PostingSpec s f a u c co pr ta li me)).

(** raw.rs:53-159, the fields of each variant. *)
Definition get_transaction (fs : fields) : option transaction :=
  f ← get_req as_owned "flag" fs; p ← get_opt as_owned "payee" fs;
  n ← get_opt as_owned "narration" fs; ps ← get_req (as_list get_posting_spec) "postings" fs;
  Some (Transaction f p n ps).
Definition get_price_dct (fs : fields) : option price_dct :=
  c ← get_req as_borrowed "cur" fs; p ← get_req get_price "price" fs; Some (PriceDct c p).
Definition get_balance (fs : fields) : option balance :=
  a ← get_req as_borrowed "acc" fs; u ← get_req get_num "units" fs;
  c ← get_req as_borrowed "cur" fs; t ← get_opt get_num "tolerance" fs; Some (Balance a u c t).
Definition get_open (fs : fields) : option open :=
  a ← get_req as_borrowed "acc" fs; cs ← get_opt as_set "currencies" fs;
  b ← get_opt get_booking "booking" fs; Some (Open a cs b).
Definition get_pad (fs : fields) : option pad :=
  a ← get_req as_borrowed "acc" fs; s ← get_req as_borrowed "source" fs; Some (Pad a s).
Definition get_custom (fs : fields) : option custom :=
  t ← get_req as_owned "type" fs; vs ← get_req (as_list get_meta) "values" fs; Some (Custom t vs).

(** raw.rs:31-51 [DirectiveVariant]: the tag selects the variant; unknown
    fields are ignored. *)
Definition get_variant (fs : fields) : option directive_variant :=
  tag ← get_req as_owned "dct" fs;
  if String.eqb tag "txn" then DTransaction <$> get_transaction fs
  else if String.eqb tag "price" then DPrice <$> get_price_dct fs
  else if String.eqb tag "balance" then DBalance <$> get_balance fs
  else if String.eqb tag "open" then DOpen <$> get_open fs
  else if String.eqb tag "close" then DClose <$> get_req as_borrowed "acc" fs
  else if String.eqb tag "commodity" then DCommodity <$> get_req as_borrowed "cur" fs
  else if String.eqb tag "pad" then DPad <$> get_pad fs
  else if String.eqb tag "document" then
    a ← get_req as_borrowed "acc" fs; p ← get_req as_owned "path" fs; Some (DDocument a p)
  else if String.eqb tag "note" then
    a ← get_req as_borrowed "acc" fs; c ← get_req as_owned "comment" fs; Some (DNote a c)
  else if String.eqb tag "event" then
    t ← get_req as_owned "type" fs; d ← get_req as_owned "description" fs; Some (DEvent t d)
  else if String.eqb tag "query" then
    n ← get_req as_owned "name" fs; c ← get_req as_owned "content" fs; Some (DQuery n c)
  else if String.eqb tag "custom" then DCustom <$> get_custom fs
  else None.

(** raw.rs:12-29 [Directive]: fields which are not its own are left to the
    flattened variant. *)
Definition own_field (k : string) : bool :=
  existsb (String.eqb k) ["span"; "date"; "tags"; "links"; "metadata"].
Definition get_directive : json → option directive := as_obj (λ fs,
  s ← get_opt get_span "span" fs; d ← get_req get_date "date" fs;
  ta ← get_opt as_set "tags" fs; li ← get_opt as_set "links" fs;
  me ← get_opt (as_map get_meta) "metadata" fs;
  v ← get_variant (filter (λ kv, own_field kv.1 = false) fs);
  Some (Directive s d ta li me v)).

End Wire.
