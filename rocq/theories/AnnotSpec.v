(** What booking has to do with: everything else which can be written in a ledger is
    left out. *)
From Coq Require Import Ascii QArith.
From stdpp Require Import prelude gmap strings.
From Verif Require Import DecModel LedgerTypes BookModel.

(** Without the places in the files. *)
Definition unplaced_posting (ps : posting_spec) : posting_spec :=
  PostingSpec None (ps_flag ps) (ps_acc ps) (ps_units ps) (ps_cur ps) (ps_cost ps) (ps_price ps) (ps_tags ps) (ps_links ps) (ps_metadata ps).
Definition unplaced (d : directive) : directive :=
  Directive None (d_date d) (d_tags d) (d_links d) (d_metadata d)
    match d_variant d with
    | DTransaction t => DTransaction (Transaction (tx_flag t) (tx_payee t) (tx_narration t) (unplaced_posting <$> tx_postings t))
    | v => v
    end.

(** Without flags, payees, narrations, tags, links and metadata as well, and without the
    content of prices, commodities, documents, notes, events, queries and custom
    directives. *)
Definition bare_posting (ps : posting_spec) : posting_spec :=
  PostingSpec None None (ps_acc ps) (ps_units ps) (ps_cur ps) (ps_cost ps) (ps_price ps) None None None.
Definition bare (d : directive) : directive :=
  Directive None (d_date d) None None None
    match d_variant d with
    | DTransaction t => DTransaction (Transaction "" None None (bare_posting <$> tx_postings t))
    | DBalance b => DBalance b
    | DOpen o => DOpen o
    | DClose a => DClose a
    | DPad p => DPad p
    | _ => DNote "" ""
    end.

(** The same of what is booked and reported: the description of a row of the table in a
    balance error is a payee or a narration. *)
Definition bare_booked_posting (q : posting) : posting :=
  Posting (p_idx q) None (p_acc q) (p_units q) (p_cur q) (p_cost q) (p_price q) None None None.
Definition bare_booked (b : bdirective) : bdirective :=
  BDirective (b_idx b) (b_date b) None None None
    match b_variant b with
    | BVTransaction t => BVTransaction (BTransaction "" None None (bare_booked_posting <$> bt_postings t))
    | BVBalance x => BVBalance x
    | BVOpen o => BVOpen o
    | BVClose a => BVClose a
    | BVPad p => BVPad p
    | _ => BVNote "" ""
    end.
Definition bare_row (r : diag_row) : diag_row := DiagRow (dr_date r) (dr_acc r) (dr_units r) (dr_total r) None.
Definition bare_report (r : report) : report := Report (r_reason r) (r_idx r) (r_related r) (map bare_row <$> r_annotation r).
Definition bare_result (r : book_result) : book_result :=
  match r with
  | BookSuccess bs ws => BookSuccess (bare_booked <$> bs) (bare_report <$> ws)
  | BookFailure es => BookFailure (bare_report <$> es)
  | BookPanic w => BookPanic w
  end.

(** The library is given the account, the units, the currency, the cost and the price of
    each posting, and nothing else.  (booking/types.rs:9-33.) *)
Definition lib_blind {P} (L : booking_lib P) : Prop :=
  ∀ dt ps ps' inv bk, bare_posting <$> ps = bare_posting <$> ps' → lib_book L dt ps inv bk = lib_book L dt ps' inv bk.
