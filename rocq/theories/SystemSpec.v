(** What client and server are to achieve together: the specification of
    [SystemProps.v]. *)
From Coq Require Import Ascii QArith.
From stdpp Require Import prelude gmap strings.
From Verif Require Import DecModel LedgerTypes IsoModel JsonModel WireModel SpanModel ParserModel CljModel InventoryModel ClientModel
  FormatModel PluginModel PluginSpec LoaderModel LoaderSpec ServerModel.

(** A span as the client sees it: source, start and end. *)
Definition number (n : nat) : cval := VNum (cn_of_dec (Dec (Z.of_nat n) 0)).
Definition span_value (s : span) : cval := VVec [number (span_source s); number (span_start s); number (span_end s)].

(** * Errors in booking *)

(** The span of a directive or posting in the source, or else in what plugins made. *)
Definition own_span (v : cval) : option cval := either "span" "span-p" v.
(** The place of element [i] of the directives: that of the posting, or else that of
    the directive. *)
Definition place (ds : list cval) (i : eidx) : option cval :=
  match ds !! ei_directive i with
  | None => None
  | Some d =>
      match ei_posting i with
      | None => own_span d
      | Some j =>
          match vpostings d !! j with
          | None => own_span d
          | Some q => match own_span q with Some s => Some s | None => own_span d end
          end
      end
  end.
(** The description of element [i]: what it is and, if it is in the source, by which
    plugins it was changed. *)
Definition described (ds : list cval) (i : eidx) (what : string) : Prop :=
  ∃ d kind rest, ds !! ei_directive i = Some d ∧ what = kind +:+ rest ∧
    let q := ei_posting i ≫= (λ j, vpostings d !! j) in
    match q with
    | Some _ => kind = "posting"
    | None => (∀ k, vget "dct" d = Some (VKw k) → kind = if String.eqb k "txn" then "transaction" else k) ∧
              (∀ s, vget "dct" d = Some (VStr s) → kind = s)
    end ∧
    if truthy (vget "provenance" d) && (truthy (vget "span" d) || truthy (q ≫= vget "span"))
    then ∃ l names, vget "provenance" d = Some (VVec l) ∧ Forall2 (λ v n, str_text (Some v) = Some n) l names ∧
           rest = ", modified by " +:+ String.concat " " names
    else rest = "".
(** The report which is to be made of error [e] in the directives [ds] sent for
    booking; [layout] gives the text of tables. *)
Definition located_report (layout : list diag_row → string) (ds : list cval) (e : report) (r : creport) : Prop :=
  (∃ what, cr_message r = Some (VStr ("invalid " +:+ what)) ∧ described ds (r_idx e) what) ∧
  cr_reason r = Some (VStr (r_reason e)) ∧
  cr_span r = place ds (r_idx e) ∧
  cr_annotation r = (λ a, VStr (layout a)) <$> r_annotation e ∧
  match r_related e, cr_related r with
  | None, None => True
  | Some is, Some vs => Forall2 (λ i v, ∃ what, v = VVec [VStr what; default VNil (place ds i)] ∧ described ds i what) is vs
  | _, _ => False
  end.
(** The transaction around a posting is given as context. *)
Definition with_context (ds : list cval) (e : report) (r : creport) : Prop :=
  ∀ d j q, ds !! ei_directive (r_idx e) = Some d → ei_posting (r_idx e) = Some j → vpostings d !! j = Some q →
    cr_context r = Some [VStr "txn"; default VNil (own_span d)].

(** * Booked directives *)

(** [v] is the decoded [j], with the span [s] if there is one. *)
Definition with_span (s : option span) (j : json) (v : cval) : Prop :=
  vget "span" v = span_value <$> s ∧ vget "span-p" v = None ∧ vget "provenance" v = None ∧
  ∀ k, k ≠ "span" → k ≠ "postings" → vget k v = vget k (decode None j).
(** The span of the ledger posting with a number. *)
Definition posting_span (d : pdirective) (i : option nat) : option span :=
  match i, pdr_variant d with
  | Some i, PVTransaction _ _ _ ps => pp_span <$> ps !! i
  | _, _ => None
  end.
(** [v] is booked directive [b] with the spans of the ledger directive and postings it
    comes from. *)
Definition traced_to (ord : hash_order) (ledger : list pdirective) (b : bdirective) (v : cval) : Prop :=
  ∃ d, ledger !! b_idx b = Some d ∧ with_span (Some (pdr_span d)) (put_bdirective ord b) v ∧
    match b_variant b with
    | BVTransaction t =>
        ∃ ws, vget "postings" v = Some (VVec ws) ∧
          Forall2 (λ q w, with_span (posting_span d (p_idx q)) (put_posting ord q) w) (bt_postings t) ws
    | _ => vget "postings" v = None
    end.

(** With plugins: [v] is the decoded [j], with the spans and the marks of plugins of
    [src]. *)
Definition takes_from (src : option cval) (j : json) (v : cval) : Prop :=
  (∀ k, k ∈ ["span"; "span-p"; "provenance"] → vget k v = src ≫= vget k) ∧
  ∀ k, k ∉ ["span"; "span-p"; "provenance"; "postings"] → vget k v = vget k (decode None j).
(** [v] is booked directive [b] with the spans and marks of that of [ds] it comes from. *)
Definition taken_from (ord : hash_order) (ds : list cval) (b : bdirective) (v : cval) : Prop :=
  ∃ d, ds !! b_idx b = Some d ∧ takes_from (Some d) (put_bdirective ord b) v ∧
    match b_variant b with
    | BVTransaction t =>
        ∃ ws, vget "postings" v = Some (VVec ws) ∧
          Forall2 (λ q w, takes_from (i ← p_idx q; vpostings d !! i) (put_posting ord q) w) (bt_postings t) ws
    | _ => vget "postings" v = None
    end.

(** * Printing *)

(** The client's report [r] says what [w] says, as far as its context is left out. *)
Definition says (r : creport) (w : wire_report) : Prop :=
  cr_message r = Some (VStr (wr_message w)) ∧ cr_reason r = Some (VStr (wr_reason w)) ∧
  cr_span r = Some (span_value (wr_span w)) ∧
  cr_annotation r = VStr <$> wr_annotation w ∧
  cr_related r = (λ l : list (string * span), (λ x, VVec [VStr x.1; span_value x.2]) <$> l) <$> wr_related w.
(** [t] is made of the texts of the reports, each followed by its annotation, with
    empty lines between; [write] gives the text of one report. *)
Definition printed_as (write : wire_report → option string) (rs : list wire_report) (t : string) : Prop :=
  ∃ ts, Forall2 (λ r x, ∃ u, write r = Some u ∧
      x = u +:+ match wr_annotation r with Some a => a +:+ line_end | None => "" end) rs ts ∧
    t = String.concat line_end ts.
