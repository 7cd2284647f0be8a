(** Where the elements of a ledger are in the source, and what a spanned report
    of an error says. *)
From stdpp Require Import prelude gmap strings.
From Verif Require Import DecModel LedgerTypes BookSpec ReportSpec SpanModel.

(** Every directive and posting has a span, as after parsing. *)
Definition spans_present (ds : list directive) : Prop :=
  ∀ d, d ∈ ds → is_Some (d_span d) ∧
    ∀ t p, d_variant d = DTransaction t → p ∈ tx_postings t → is_Some (ps_span p).

(** Element [e] is called [name] and found at [sp]. *)
Inductive found_at (ds : list directive) : eidx → string * span → Prop :=
| Found_directive k d sp :
    ds !! k = Some d → d_span d = Some sp →
    found_at ds (EIdx k None) (variant_name (d_variant d), sp)
| Found_posting k d t j p sp :
    ds !! k = Some d → d_variant d = DTransaction t → tx_postings t !! j = Some p → ps_span p = Some sp →
    found_at ds (EIdx k (Some j)) ("posting", sp).

(** The spanned report of an error: its reason and annotation, the location of
    its element, of the transaction around a posting, and of each related
    element. *)
Definition spans_report (ds : list directive) (r : report) (s : spanned_report) : Prop :=
  (∃ name, found_at ds (r_idx r) (name, sr_span s) ∧ sr_message s = "invalid " +:+ name) ∧
  sr_reason s = r_reason r ∧ sr_annotation s = r_annotation r ∧
  match ei_posting (r_idx r) with
  | None => sr_contexts s = None
  | Some _ => ∃ sp, found_at ds (at_directive (ei_directive (r_idx r))) ("transaction", sp) ∧
      sr_contexts s = Some [("transaction", sp)]
  end ∧
  match r_related r with
  | None => sr_related s = None
  | Some l => ∃ l', sr_related s = Some l' ∧ Forall2 (found_at ds) l l'
  end.
