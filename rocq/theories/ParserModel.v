(** What the third-party parser [beancount_parser_lima] hands over, as seen
    through the accessors used in
    [rust/src/api/types/parser_type_conversions.rs], and the
    conversions of that file.

    Simplifications: spans of parts smaller than a posting are never used and are
    left out; expressions are represented by their value; [Currency], [Account],
    [Tag], [Link] and [Key] are their text.  The conversions between types with the
    same constructors or fields, parser_type_conversions.rs:380-419, 558-610, are
    left out: the model has one type for both. *)
From Coq Require Import Ascii.
From stdpp Require Import prelude gmap strings.
From Verif Require Import DecModel LedgerTypes.

(** ** Parser types *)

(** [parser::Flag], parser_type_conversions.rs:168-180. *)
Inductive pflag :=
| FAsterisk | FExclamation | FAmpersand | FHash | FQuestion | FPercent
| FLetter (c : ascii).

(** [parser::MetaValue] and [parser::SimpleValue], parser_type_conversions.rs:301-320. *)
Inductive psimple :=
| SVString (s : string) | SVCurrency (s : string) | SVAccount (s : string) | SVTag (s : string)
| SVLink (s : string) | SVDate (d : date) | SVBool (b : bool) | SVNull | SVExpr (n : dec).
Inductive pmeta := PMSimple (v : psimple) | PMAmount (units : dec) (cur : string).

(** [parser::Metadata] as key-values, tags and links, in iteration order. *)
Record pmetadata := PMetadata {
  pm_tags : list string; pm_links : list string; pm_key_values : list (string * pmeta) }.

(** [parser::ScopedExprValue] and [parser::PriceSpec], parser_type_conversions.rs:212-250. *)
Inductive pscoped := PerUnit (n : dec) | Total (n : dec).
Inductive pprice_spec :=
| PPSUnspecified | PPSBareCurrency (cur : string) | PPSBareAmount (n : pscoped)
| PPSCurrencyAmount (n : pscoped) (cur : string).

(** [parser::CostSpec], parser_type_conversions.rs:199-210. *)
Record pcost_spec := PCostSpec {
  pcs_per_unit : option dec; pcs_total : option dec; pcs_cur : option string;
  pcs_date : option date; pcs_label : option string; pcs_merge : bool }.

(** [parser::Spanned<parser::Posting>], parser_type_conversions.rs:182-197. *)
Record pposting := PPosting {
  pp_span : span; pp_flag : option pflag; pp_account : string; pp_amount : option dec;
  pp_currency : option string; pp_cost : option pcost_spec; pp_price : option pprice_spec;
  pp_metadata : pmetadata }.

(** [parser::DirectiveVariant], parser_type_conversions.rs:25-166. *)
Inductive pvariant :=
| PVTransaction (flag : pflag) (payee narration : option string) (postings : list pposting)
| PVPrice (cur : string) (number : dec) (price_cur : string)
| PVBalance (acc : string) (number : dec) (cur : string) (tolerance : option dec)
| PVOpen (acc : string) (currencies : list string) (b : option booking)
| PVClose (acc : string)
| PVCommodity (cur : string)
| PVPad (acc source : string)
| PVDocument (acc path : string)
| PVNote (acc comment : string)
| PVEvent (type_ description : string)
| PVQuery (name content : string)
| PVCustom (type_ : string) (values : list pmeta).

(** [parser::Spanned<parser::Directive>], parser_type_conversions.rs:12-23. *)
Record pdirective := PDirective {
  pdr_span : span; pdr_date : date; pdr_metadata : pmetadata; pdr_variant : pvariant }.

(** [parser::Plugin], parser_type_conversions.rs:421-428. *)
Record pplugin := PPlugin { ppl_module : string; ppl_config : option string }.

(** [parser::PluginProcessingMode]. *)
Inductive plugin_mode := PMDefault | PMRaw.

(** [parser::Options] through its accessors, parser_type_conversions.rs:322-378. *)
Record poptions := POptions {
  po_name_assets : string; po_name_liabilities : string; po_name_equity : string;
  po_name_income : string; po_name_expenses : string;
  po_title : option string;
  po_account_previous_balances : option string;
  po_account_previous_earnings : option string;
  po_account_previous_conversions : option string;
  po_account_current_earnings : option string;
  po_account_current_conversions : option string;
  po_account_unrealized_gains : option string;
  po_account_rounding : option string;
  po_conversion_currency : option string;
  po_tolerance_defaults : list (option string * dec);
  po_tolerance_multiplier : option dec;
  po_tolerance_from_cost : option bool;
  po_documents : list string;
  po_operating_currency : list string;
  po_render_commas : option bool;
  po_booking_method : option booking;
  po_plugin_mode : option plugin_mode }.

(** [parser::ErrorOrWarning] through the [Report] trait, parser_type_conversions.rs:454-480. *)
Record perror := PError {
  pe_message : string; pe_reason : string; pe_span : span;
  pe_contexts : list (string * span); pe_related : list (string * span) }.

(** ** Conversions *)

(** parser_type_conversions.rs:168-180 [from_flag]; a letter is displayed after a quote, as can be
    seen in /repo/test-cases. *)
Definition from_flag (f : pflag) : string :=
  match f with
  | FAsterisk => "*" | FExclamation => "!" | FAmpersand => "&" | FHash => "#"
  | FQuestion => "?" | FPercent => "%"
  | FLetter c => String "'" (String c EmptyString)
  end.

(** parser_type_conversions.rs:252-276 [from_tags], [from_links]. *)
Definition from_names (l : list string) : option (gset string) :=
  match l with [] => None | _ => Some (list_to_set l) end.

(** parser_type_conversions.rs:301-320. *)
Definition from_meta (v : pmeta) : meta_value :=
  match v with
  | PMSimple (SVString x) => MVString x
  | PMSimple (SVCurrency x) => MVCurrency x
  | PMSimple (SVAccount x) => MVAccount x
  | PMSimple (SVTag x) => MVTag x
  | PMSimple (SVLink x) => MVLink x
  | PMSimple (SVDate x) => MVDate x
  | PMSimple (SVBool x) => MVBool x
  | PMSimple (SVExpr x) => MVNumber x
  | PMSimple SVNull => MVNull
  | PMAmount n c => MVAmount n c
  end.

(** parser_type_conversions.rs:278-299 [from_key_values]; collecting into a hash map keeps the last
    of several values. *)
Definition from_key_values (l : list (string * pmeta)) : option (gmap string meta_value) :=
  match l with
  | [] => None
  | _ => Some (list_to_map (reverse ((λ kv, (kv.1, from_meta kv.2)) <$> l)))
  end.

(** parser_type_conversions.rs:199-210. *)
Definition from_cost_spec (c : pcost_spec) : cost_spec :=
  CostSpec (pcs_per_unit c) (pcs_total c) (pcs_cur c) (pcs_date c) (pcs_label c) (pcs_merge c).

(** parser_type_conversions.rs:212-250. *)
Definition from_price_spec (p : pprice_spec) : price_spec :=
  match p with
  | PPSUnspecified => PriceSpec None None None
  | PPSBareCurrency c => PriceSpec None None (Some c)
  | PPSBareAmount (PerUnit n) => PriceSpec (Some n) None None
  | PPSBareAmount (Total n) => PriceSpec None (Some n) None
  | PPSCurrencyAmount (PerUnit n) c => PriceSpec (Some n) None (Some c)
  | PPSCurrencyAmount (Total n) c => PriceSpec None (Some n) (Some c)
  end.

(** parser_type_conversions.rs:182-197. *)
Definition from_posting (p : pposting) : posting_spec :=
  PostingSpec (Some (pp_span p)) (from_flag <$> pp_flag p) (pp_account p) (pp_amount p) (pp_currency p)
    (from_cost_spec <$> pp_cost p) (from_price_spec <$> pp_price p)
    (from_names (pm_tags (pp_metadata p))) (from_names (pm_links (pp_metadata p)))
    (from_key_values (pm_key_values (pp_metadata p))).

(** parser_type_conversions.rs:25-166. *)
Definition from_variant (v : pvariant) : directive_variant :=
  match v with
  | PVTransaction f p n ps => DTransaction (Transaction (from_flag f) p n (from_posting <$> ps))
  | PVPrice c n pc => DPrice (PriceDct c (Price n None pc))
  | PVBalance a n c t => DBalance (Balance a n c t)
  | PVOpen a cs b => DOpen (Open a (from_names cs) b)
  | PVClose a => DClose a
  | PVCommodity c => DCommodity c
  | PVPad a s => DPad (Pad a s)
  | PVDocument a p => DDocument a p
  | PVNote a c => DNote a c
  | PVEvent t d => DEvent t d
  | PVQuery n c => DQuery n c
  | PVCustom t vs => DCustom (Custom t (from_meta <$> vs))
  end.

(** parser_type_conversions.rs:12-23. *)
Definition from_directive (d : pdirective) : directive :=
  Directive (Some (pdr_span d)) (pdr_date d) (from_names (pm_tags (pdr_metadata d)))
    (from_names (pm_links (pdr_metadata d))) (from_key_values (pm_key_values (pdr_metadata d)))
    (from_variant (pdr_variant d)).

(** raw.rs:245-289 [Options]. *)
Record options := Options {
  o_name_assets : string; o_name_liabilities : string; o_name_equity : string; o_name_income : string; o_name_expenses : string;
  o_title : option string;
  o_account_previous_balances : option string;
  o_account_previous_earnings : option string;
  o_account_previous_conversions : option string;
  o_account_current_earnings : option string;
  o_account_current_conversions : option string;
  o_account_unrealized_gains : option string;
  o_account_rounding : option string;
  o_conversion_currency : option string;
  o_tolerance_default : option (gmap string dec); o_tolerance_fallback : option dec;
  o_tolerance_multiplier : option dec; o_tolerance_from_cost : option bool;
  o_documents : option (gset string); o_operating_currency : option (gset string);
  o_render_commas : option bool; o_booking_method : option booking;
  o_plugin_mode : option plugin_mode }.

(** parser_type_conversions.rs:329-335: the loop over the tolerance defaults. *)
Definition tolerance_step (st : gmap string dec * option dec) (x : option string * dec)
    : gmap string dec * option dec :=
  match x.1 with Some c => (<[c := x.2]> st.1, st.2) | None => (st.1, Some x.2) end.
Definition tolerance_loop (l : list (option string * dec)) : gmap string dec * option dec :=
  foldl tolerance_step (∅, None) l.

(** parser_type_conversions.rs:322-378. *)
Definition from_options (o : poptions) : options :=
  let tol := tolerance_loop (po_tolerance_defaults o) in
  Options
    (po_name_assets o) (po_name_liabilities o) (po_name_equity o) (po_name_income o) (po_name_expenses o)
    (po_title o)
    (po_account_previous_balances o)
    (po_account_previous_earnings o)
    (po_account_previous_conversions o)
    (po_account_current_earnings o)
    (po_account_current_conversions o)
    (po_account_unrealized_gains o)
    (po_account_rounding o)
    (po_conversion_currency o)
    (if decide (tol.1 = ∅) then None else Some tol.1) tol.2
    (po_tolerance_multiplier o) (po_tolerance_from_cost o)
    (from_names (po_documents o)) (from_names (po_operating_currency o))
    (po_render_commas o) (po_booking_method o) (po_plugin_mode o).
