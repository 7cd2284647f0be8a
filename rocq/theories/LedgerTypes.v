(** Ledger data types: [rust/src/api/types.rs], [rust/src/api/types/raw.rs] and
    [rust/src/api/types/booked.rs].

    Strings are byte strings; [HashSet<&str>] is [gset string] and
    [HashMap<&str, V>] is [gmap string V]. *)
From stdpp Require Import prelude gmap strings.
From Verif Require Import DecModel.

(** [time::Date], as year, month, day (used at raw.rs:19 and elsewhere). *)
Record date := Date { date_year : Z; date_month : Z; date_day : Z }.
Global Instance date_eq_dec : EqDecision date.
Proof. solve_decision. Defined.

(** raw.rs:325-331 [Span]. *)
Record span := Span { span_source : nat; span_start : nat; span_end : nat }.
Global Instance span_eq_dec : EqDecision span.
Proof. solve_decision. Defined.

(** raw.rs:229-242 [MetaValue]. *)
Inductive meta_value :=
| MVAmount (units : dec) (cur : string)
| MVString (s : string)
| MVCurrency (s : string)
| MVAccount (s : string)
| MVTag (s : string)
| MVLink (s : string)
| MVDate (d : date)
| MVBool (b : bool)
| MVNumber (n : dec)
| MVNull.

Notation tags_t := (option (gset string)).
Notation metadata_t := (option (gmap string meta_value)).

(** raw.rs:291-302 [Booking]. *)
Inductive booking := BStrict | BStrictWithSize | BNone | BAverage | BFifo | BLifo | BHifo.
Global Instance booking_eq_dec : EqDecision booking.
Proof. solve_decision. Defined.

(** raw.rs:186-205 [CostSpec]. *)
Record cost_spec := CostSpec {
  cs_per_unit : option dec; cs_total : option dec; cs_cur : option string;
  cs_date : option date; cs_label : option string; cs_merge : bool }.

(** raw.rs:207-217 [PriceSpec]. *)
Record price_spec := PriceSpec {
  prs_per_unit : option dec; prs_total : option dec; prs_cur : option string }.

(** raw.rs:219-227 [Price], booked.rs:120-132 [Price]. *)
Record price := Price { pr_per_unit : dec; pr_total : option dec; pr_cur : string }.

(** raw.rs:161-184 [PostingSpec]. *)
Record posting_spec := PostingSpec {
  ps_span : option span; ps_flag : option string; ps_acc : string;
  ps_units : option dec; ps_cur : option string;
  ps_cost : option cost_spec; ps_price : option price_spec;
  ps_tags : tags_t; ps_links : tags_t; ps_metadata : metadata_t }.

(** raw.rs:53-64 [Transaction]. *)
Record transaction := Transaction {
  tx_flag : string; tx_payee : option string; tx_narration : option string;
  tx_postings : list posting_spec }.

(** raw.rs:66-159: the other variants. *)
Record price_dct := PriceDct { pd_cur : string; pd_price : price }.
Record balance := Balance {
  bal_acc : string; bal_units : dec; bal_cur : string; bal_tolerance : option dec }.
Record open := Open {
  op_acc : string; op_currencies : option (gset string); op_booking : option booking }.
Record pad := Pad { pad_acc : string; pad_source : string }.
Record custom := Custom { cu_type : string; cu_values : list meta_value }.

(** raw.rs:31-51 [DirectiveVariant]. *)
Inductive directive_variant :=
| DTransaction (t : transaction)
| DPrice (p : price_dct)
| DBalance (b : balance)
| DOpen (o : open)
| DClose (acc : string)
| DCommodity (cur : string)
| DPad (p : pad)
| DDocument (acc path : string)
| DNote (acc comment : string)
| DEvent (type_ description : string)
| DQuery (name content : string)
| DCustom (c : custom).

(** raw.rs:12-29 [Directive]. *)
Record directive := Directive {
  d_span : option span; d_date : date; d_tags : tags_t; d_links : tags_t;
  d_metadata : metadata_t; d_variant : directive_variant }.

(** types.rs:67-71 [ElementIdx]; types.rs:87-103 the two [From] impls. *)
Record eidx := EIdx { ei_directive : nat; ei_posting : option nat }.
Definition eidx_of_nat (n : nat) : eidx := EIdx n None.
Definition eidx_with_posting (e : eidx) (p : nat) : eidx := EIdx (ei_directive e) (Some p).
Global Instance eidx_eq_dec : EqDecision eidx.
Proof. solve_decision. Defined.

(** booked.rs:87-105 [Cost]. *)
Record cost := Cost {
  c_date : date; c_per_unit : dec; c_total : dec; c_cur : string;
  c_label : option string; c_merge : bool }.

(** booked.rs:64-85 [Posting]. *)
Record posting := Posting {
  p_idx : option nat; p_flag : option string; p_acc : string; p_units : dec;
  p_cur : string; p_cost : option cost; p_price : option price;
  p_tags : tags_t; p_links : tags_t; p_metadata : metadata_t }.

(** booked.rs:52-62 [Transaction]. *)
Record btransaction := BTransaction {
  bt_flag : string; bt_payee : option string; bt_narration : option string;
  bt_postings : list posting }.

(** booked.rs:134-147 [Balance]; the last two fields are not serialized. *)
Record bbalance := BBalance {
  bb_raw : balance; bb_unused_pad : option eidx; bb_margin : option dec }.

(** booked.rs:30-50 [DirectiveVariant]. *)
Inductive bvariant :=
| BVTransaction (t : btransaction)
| BVPrice (p : price_dct)
| BVBalance (b : bbalance)
| BVOpen (o : open)
| BVClose (acc : string)
| BVCommodity (cur : string)
| BVPad (p : pad)
| BVDocument (acc path : string)
| BVNote (acc comment : string)
| BVEvent (type_ description : string)
| BVQuery (name content : string)
| BVCustom (c : custom).

(** booked.rs:12-28 [Directive]. *)
Record bdirective := BDirective {
  b_idx : nat; b_date : date; b_tags : tags_t; b_links : tags_t;
  b_metadata : metadata_t; b_variant : bvariant }.

(** One row of the table built at accumulator.rs:538-557: date, account suffix
    (when several accounts occur), units, running total, description.  The text
    layout, done by the third-party tabulator, is not modelled. *)
Record diag_row := DiagRow {
  dr_date : date; dr_acc : option string; dr_units : dec; dr_total : dec;
  dr_description : option string }.

(** types.rs:40-50 [IndexedReport]; the annotation is kept as table rows. *)
Record report := Report {
  r_reason : string; r_idx : eidx; r_related : option (list eidx);
  r_annotation : option (list diag_row) }.

(** types.rs:73-85 [ElementIdx::report]. *)
Definition mk_report (e : eidx) (reason : string) : report := Report reason e None None.
(** types.rs:53-56 [related_to]. *)
Definition related_to (r : report) (e : eidx) : report :=
  Report (r_reason r) (r_idx r)
    (Some (match r_related r with Some l => l | None => [] end ++ [e])) (r_annotation r).
(** types.rs:58-64 [with_annotation]. *)
Definition with_annotation (r : report) (a : list diag_row) : report :=
  Report (r_reason r) (r_idx r) (r_related r) (Some a).
