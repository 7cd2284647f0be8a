(** Model of the conversion of booking errors to spanned reports:
    [rust/src/api/types/parser_type_conversions.rs] and
    [rust/src/api/types.rs]. *)
From stdpp Require Import prelude gmap strings.
From Verif Require Import DecModel LedgerTypes.

(** types.rs:23-38 [Report]; the annotation is kept as table rows. *)
Record spanned_report := SpannedReport {
  sr_message : string; sr_reason : string; sr_span : span;
  sr_contexts : option (list (string * span));
  sr_related : option (list (string * span));
  sr_annotation : option (list diag_row) }.

(** raw.rs:31-51: the [strum] names of the variants, in kebab case. *)
Definition variant_name (v : directive_variant) : string :=
  match v with
  | DTransaction _ => "transaction"
  | DPrice _ => "price"
  | DBalance _ => "balance"
  | DOpen _ => "open"
  | DClose _ => "close"
  | DCommodity _ => "commodity"
  | DPad _ => "pad"
  | DDocument _ _ => "document"
  | DNote _ _ => "note"
  | DEvent _ _ => "event"
  | DQuery _ _ => "query"
  | DCustom _ => "custom"
  end.

(** parser_type_conversions.rs:534-556 [resolve_indexed_element].  [None] is a panic: an index out
    of bounds or a missing span. *)
Definition resolve_indexed_element (idx : eidx) (ds : list directive) : option (string * span) :=
  match ds !! ei_directive idx with
  | None => None
  | Some d =>
      match d_variant d, ei_posting idx with
      | DTransaction txn, Some posting_idx =>
          match tx_postings txn !! posting_idx with
          | Some p => pair "posting" <$> ps_span p
          | None => None
          end
      | v, _ => pair (variant_name v) <$> d_span d
      end
  end.

(** parser_type_conversions.rs:507-529: the closure mapped over the reports. *)
Definition create_report (ds : list directive) (indexed : report) : option spanned_report :=
  match resolve_indexed_element (r_idx indexed) ds with
  | None => None
  | Some (element_type, sp) =>
      let contexts :=
        match ei_posting (r_idx indexed) with
        | None => Some None
        | Some _ =>
            match resolve_indexed_element (EIdx (ei_directive (r_idx indexed)) None) ds with
            | Some x => Some (Some [x])
            | None => None
            end
        end in
      match contexts with
      | None => None
      | Some contexts =>
          let related :=
            match r_related indexed with
            | None => Some None
            | Some l => Some <$> mapM (λ i, resolve_indexed_element i ds) l
            end in
          match related with
          | None => None
          | Some related =>
              Some (SpannedReport ("invalid " +:+ element_type) (r_reason indexed) sp contexts related
                      (r_annotation indexed))
          end
      end
  end.

(** parser_type_conversions.rs:496-532 [create_reports_from_booking_errors]. *)
Definition create_reports_from_booking_errors (rs : list report) (ds : list directive)
    : option (list spanned_report) :=
  mapM (create_report ds) rs.
