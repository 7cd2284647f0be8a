(** What the server's answers contain, field by field: booked directives and
    options.  [shown R k fs o]: field [k] is there exactly once and represents
    [x] if [o] is [Some x]; otherwise it is not there. *)
From Coq Require Import Ascii.
From stdpp Require Import prelude gmap strings.
From Verif Require Import DecModel LedgerTypes IsoModel JsonModel WireSpec ParserModel ParserSpec ServerModel.

Definition shown {A} (R : json → A → Prop) (k : string) (fs : fields) (o : option A) : Prop :=
  match o with Some x => ∃ v, entries k fs = [v] ∧ R v x | None => entries k fs = [] end.

Definition exact_num (j : json) (d : dec) : Prop := j = JNum d.
Definition exact_date (j : json) (d : date) : Prop := j = JStr (fmt_date d).
(** Each member once, in any order. *)
Definition exact_set (j : json) (X : gset string) : Prop :=
  ∃ l, j = JArr (JStr <$> l) ∧ NoDup l ∧ ∀ s, s ∈ X ↔ s ∈ l.
(** Each key once, in any order. *)
Definition exact_map {A} (R : json → A → Prop) (j : json) (m : gmap string A) : Prop :=
  ∃ fs, j = JObj fs ∧ ∀ k, shown R k fs (m !! k).
Definition exact_meta (j : json) (v : meta_value) : Prop :=
  match v with
  | MVNull => j = JNull
  | MVAmount u c => j = JObj [("units", JNum u); ("cur", JStr c)]
  | MVString s => j = JObj [("string", JStr s)]
  | MVCurrency s => j = JObj [("cur", JStr s)]
  | MVAccount s => j = JObj [("acc", JStr s)]
  | MVTag s => j = JObj [("tag", JStr s)]
  | MVLink s => j = JObj [("link", JStr s)]
  | MVDate d => j = JObj [("date", JStr (fmt_date d))]
  | MVBool b => j = JObj [("bool", JBool b)]
  | MVNumber n => j = JObj [("number", JNum n)]
  end.

Definition booked_cost (j : json) (c : cost) : Prop := ∃ fs, j = JObj fs ∧
  shown exact_date "date" fs (Some (c_date c)) ∧ shown exact_num "per-unit" fs (Some (c_per_unit c)) ∧
  shown exact_num "total" fs (Some (c_total c)) ∧ shown text_json "cur" fs (Some (c_cur c)) ∧
  shown text_json "label" fs (c_label c) ∧
  shown bool_json "merge" fs (if c_merge c then Some true else None).
Definition booked_price (j : json) (p : price) : Prop := ∃ fs, j = JObj fs ∧
  shown exact_num "per-unit" fs (Some (pr_per_unit p)) ∧ shown exact_num "total" fs (pr_total p) ∧
  shown text_json "cur" fs (Some (pr_cur p)).
Definition booked_posting (j : json) (p : posting) : Prop := ∃ fs, j = JObj fs ∧
  shown nat_json "idx" fs (p_idx p) ∧ shown text_json "flag" fs (p_flag p) ∧
  shown text_json "acc" fs (Some (p_acc p)) ∧ shown exact_num "units" fs (Some (p_units p)) ∧
  shown text_json "cur" fs (Some (p_cur p)) ∧ shown booked_cost "cost" fs (p_cost p) ∧
  shown booked_price "price" fs (p_price p) ∧ shown exact_set "tags" fs (p_tags p) ∧
  shown exact_set "links" fs (p_links p) ∧ shown (exact_map exact_meta) "metadata" fs (p_metadata p).
Definition booked_variant (fs : fields) (v : bvariant) : Prop :=
  let texts := Forall (λ kt, shown text_json kt.1 fs (Some kt.2)) in
  match v with
  | BVTransaction t => texts [("dct", "txn"); ("flag", bt_flag t)] ∧
      shown text_json "payee" fs (bt_payee t) ∧ shown text_json "narration" fs (bt_narration t) ∧
      shown (list_json booked_posting) "postings" fs (Some (bt_postings t))
  | BVPrice p => texts [("dct", "price"); ("cur", pd_cur p)] ∧ shown booked_price "price" fs (Some (pd_price p))
  | BVBalance b => texts [("dct", "balance"); ("acc", bal_acc (bb_raw b)); ("cur", bal_cur (bb_raw b))] ∧
      shown exact_num "units" fs (Some (bal_units (bb_raw b))) ∧
      shown exact_num "tolerance" fs (bal_tolerance (bb_raw b))
  | BVOpen o => texts [("dct", "open"); ("acc", op_acc o)] ∧ shown exact_set "currencies" fs (op_currencies o) ∧
      shown booking_json "booking" fs (op_booking o)
  | BVClose a => texts [("dct", "close"); ("acc", a)]
  | BVCommodity c => texts [("dct", "commodity"); ("cur", c)]
  | BVPad p => texts [("dct", "pad"); ("acc", pad_acc p); ("source", pad_source p)]
  | BVDocument a p => texts [("dct", "document"); ("acc", a); ("path", p)]
  | BVNote a c => texts [("dct", "note"); ("acc", a); ("comment", c)]
  | BVEvent t d => texts [("dct", "event"); ("type", t); ("description", d)]
  | BVQuery n c => texts [("dct", "query"); ("name", n); ("content", c)]
  | BVCustom c => texts [("dct", "custom"); ("type", cu_type c)] ∧
      shown (list_json exact_meta) "values" fs (Some (cu_values c))
  end.
Definition booked_json (j : json) (d : bdirective) : Prop := ∃ fs, j = JObj fs ∧
  shown nat_json "idx" fs (Some (b_idx d)) ∧ shown exact_date "date" fs (Some (b_date d)) ∧
  shown exact_set "tags" fs (b_tags d) ∧ shown exact_set "links" fs (b_links d) ∧
  shown (exact_map exact_meta) "metadata" fs (b_metadata d) ∧ booked_variant fs (b_variant d).

(** The ledger's options. *)
Definition some_names (l : list string) : option (gset string) :=
  match l with [] => None | _ => Some (list_to_set l) end.
Definition options_json (j : json) (o : poptions) : Prop := ∃ fs, j = JObj fs ∧
  Forall (λ ko, shown text_json ko.1 fs ko.2)
    [ ("name-assets", Some (po_name_assets o)); ("name-liabilities", Some (po_name_liabilities o));
      ("name-equity", Some (po_name_equity o)); ("name-income", Some (po_name_income o));
      ("name-expenses", Some (po_name_expenses o)); ("title", po_title o);
      ("account-previous-balances", po_account_previous_balances o);
      ("account-previous-earnings", po_account_previous_earnings o);
      ("account-previous-conversions", po_account_previous_conversions o);
      ("account-current-earnings", po_account_current_earnings o);
      ("account-current-conversions", po_account_current_conversions o);
      ("account-unrealized-gains", po_account_unrealized_gains o);
      ("account-rounding", po_account_rounding o); ("conversion-currency", po_conversion_currency o);
      ("plugin-processing-mode", (λ m, match m with PMDefault => "default" | PMRaw => "raw" end) <$> po_plugin_mode o) ] ∧
  Forall (λ kb, shown bool_json kb.1 fs kb.2)
    [("infer-tolerance-from-cost", po_tolerance_from_cost o); ("render-commas", po_render_commas o)] ∧
  shown exact_num "inferred-tolerance-multiplier" fs (po_tolerance_multiplier o) ∧
  shown booking_json "booking-method" fs (po_booking_method o) ∧
  shown exact_set "documents" fs (some_names (po_documents o)) ∧
  shown exact_set "operating-currency" fs (some_names (po_operating_currency o)) ∧
  shown exact_num "inferred-tolerance-default-fallback" fs (tolerance_for None (po_tolerance_defaults o)) ∧
  (** per currency: missing if there is none, and never empty *)
  match entries "inferred-tolerance-default" fs with
  | [] => ∀ c, tolerance_for (Some c) (po_tolerance_defaults o) = None
  | [v] => ∃ kvs, v = JObj kvs ∧ kvs ≠ [] ∧ ∀ c, shown exact_num c kvs (tolerance_for (Some c) (po_tolerance_defaults o))
  | _ => False
  end.

(** Error reports: by source location, and by the position in the list which was
    sent for booking. *)
Definition labelled_exact (j : json) (x : string * span) : Prop := j = JArr [JStr x.1; JArr
  [JNum (Dec (Z.of_nat (span_source x.2)) 0); JNum (Dec (Z.of_nat (span_start x.2)) 0); JNum (Dec (Z.of_nat (span_end x.2)) 0)]].
Definition spanned_json (j : json) (r : wire_report) : Prop := ∃ fs, j = JObj fs ∧
  shown text_json "message" fs (Some (wr_message r)) ∧ shown text_json "reason" fs (Some (wr_reason r)) ∧
  shown span_json "span" fs (Some (wr_span r)) ∧
  shown (list_json labelled_exact) "contexts" fs (wr_contexts r) ∧
  shown (list_json labelled_exact) "related" fs (wr_related r) ∧
  shown text_json "annotation" fs (wr_annotation r).
Definition index_json (j : json) (e : eidx) : Prop :=
  j = JArr ((λ n, JNum (Dec (Z.of_nat n) 0)) <$>
        match ei_posting e with None => [ei_directive e] | Some p => [ei_directive e; p] end).
Definition indexed_json (layout : list diag_row → string) (j : json) (r : report) : Prop := ∃ fs, j = JObj fs ∧
  shown text_json "reason" fs (Some (r_reason r)) ∧ shown index_json "idx" fs (Some (r_idx r)) ∧
  shown (list_json index_json) "related" fs (r_related r) ∧
  shown text_json "annotation" fs (layout <$> r_annotation r).
(** A resolved span. *)
Definition source_json (j : json) (s : spanned_source) : Prop := ∃ fs, j = JObj fs ∧
  shown text_json "file-name" fs (ss_file_name s) ∧ shown nat_json "start-line" fs (Some (ss_start_line s)) ∧
  shown nat_json "end-line" fs (Some (ss_end_line s)) ∧ shown text_json "content" fs (Some (ss_content s)).
(** A plugin; its configuration is null if there is none. *)
Definition plugin_json (j : json) (p : pplugin) : Prop :=
  j = JObj [("name", JStr (ppl_module p)); ("config", match ppl_config p with Some c => JStr c | None => JNull end)].
