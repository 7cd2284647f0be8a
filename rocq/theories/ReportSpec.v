(** Specification of the reports which each kind of directive produces, in terms
    of the ledger before it. *)
From Coq Require Import QArith Qabs.
From stdpp Require Import prelude gmap strings pretty.
From Verif Require Import DecModel LedgerTypes BookModel BookSpec.
Local Open Scope nat_scope.

(** The errors with which booking answers. *)
Definition errors_of (r : book_result) : list report :=
  match r with BookFailure errs => errs | _ => [] end.

(** Use of account [a] in currency [cur] by element [e] after ledger [ds]: the
    account must be usable and must allow the currency. *)
Definition use_report (e : eidx) (ds : list directive) (a cur : string) : option report :=
  match unusable_report e (life ds a) with
  | Some r => Some r
  | None =>
      match opening ds a with
      | Some (i, o) =>
          if allowsb o cur then None
          else Some (Report "currency incompatible with account" e (Some [at_directive i]) None)
      | None => None
      end
  end.

(** The first report due for the uses [l] by the postings of directive [k], the
    first of them being posting [i]. *)
Fixpoint first_use_report (ds : list directive) (k i : nat) (l : list (string * string)) : option report :=
  match l with
  | [] => None
  | (a, cur) :: l' =>
      match use_report (EIdx k (Some i)) ds a cur with
      | Some r => Some r
      | None => first_use_report ds k (S i) l'
      end
  end.

Definition pad_reports (k : nat) (ds : list directive) (p : pad) : list report :=
  match unusable_report (at_directive k) (life ds (pad_acc p)) with
  | Some r => [r]
  | None =>
      match pending ds (pad_acc p) with
      | Some k0 => [Report "unused, second pad encountered" (at_directive k0) (Some [at_directive k]) None]
      | None => []
      end
  end.

Definition unneeded_pad (k : nat) : report :=
  Report "unused, no balance adjustment required" (at_directive k) None None.

(** A report of a failed balance by [m] at directive [k]. *)
Definition balance_failure (k : nat) (m : dec) (cur : string) (r : report) : Prop :=
  r_idx r = at_directive k ∧ r_related r = None ∧
  (∃ total, r_reason r = "accumulated " +:+ dec_to_string total +:+ ", error " +:+
                          dec_to_string m +:+ " " +:+ cur) ∧
  ∃ rows, r_annotation r = Some rows.

(** The reports due for balance [b] at directive [k], when [total] has
    accumulated and [tol] is the tolerance. *)
Inductive balance_reports (k : nat) (ds : list directive) (b : balance) (total tol : Q) : list report → Prop :=
| BR_use r :
    use_report (at_directive k) ds (bal_acc b) (bal_cur b) = Some r →
    balance_reports k ds b total tol [r]
| BR_within :
    use_report (at_directive k) ds (bal_acc b) (bal_cur b) = None →
    (Qabs (dec_value (bal_units b) - total) <= tol)%Q →
    pending ds (bal_acc b) = None →
    balance_reports k ds b total tol []
| BR_unneeded k0 :
    use_report (at_directive k) ds (bal_acc b) (bal_cur b) = None →
    (Qabs (dec_value (bal_units b) - total) <= tol)%Q →
    pending ds (bal_acc b) = Some k0 →
    balance_reports k ds b total tol [unneeded_pad k0]
| BR_padded k0 :
    use_report (at_directive k) ds (bal_acc b) (bal_cur b) = None →
    (tol < Qabs (dec_value (bal_units b) - total))%Q →
    pending ds (bal_acc b) = Some k0 →
    balance_reports k ds b total tol []
| BR_failed m r :
    use_report (at_directive k) ds (bal_acc b) (bal_cur b) = None →
    (tol < Qabs (dec_value (bal_units b) - total))%Q →
    pending ds (bal_acc b) = None →
    (dec_value m == dec_value (bal_units b) - total)%Q →
    balance_failure k m (bal_cur b) r →
    balance_reports k ds b total tol [r].

(** The reports due for a transaction of directive [k] after ledger [ds], given
    the library's answer: the library's own error, or the first posting to an
    account which is not usable or does not allow the currency. *)
Definition txn_answer_reports {P} (k : nat) (ds : list directive) (t : transaction)
    (answer : lib_result P) : list report :=
  match answer with
  | LibErrTransaction msg => [Report msg (at_directive k) None None]
  | LibErrPosting i msg =>
      [Report (msg +:+ " on posting " +:+ pretty i) (at_directive k) None None]
  | LibOk ips _ =>
      match first_use_report ds k 0
              ((λ x, (ps_acc x.2, in_currency x.1)) <$> zip ips (tx_postings t)) with
      | Some r => [r]
      | None => []
      end
  end.

(** Directive [j] ends the wait of a pad on account [a]: it is a pad on the
    account, or a balance on it in an allowed currency, while the account is
    usable. *)
Definition ends_wait (ds : list directive) (a : string) (j : nat) : Prop :=
  ∃ d, ds !! j = Some d ∧ usable (life (take j ds) a) = true ∧
    ((∃ p, d_variant d = DPad p ∧ pad_acc p = a) ∨
     (∃ b, d_variant d = DBalance b ∧ bal_acc b = a ∧
        currency_ok (take j ds) a (bal_cur b) = true)).

(** The library's method of the same name. *)
Definition same_method (b : booking) : lbooking :=
  match b with
  | BStrict => LStrict | BStrictWithSize => LStrictWithSize | BNone => LNone | BAverage => LAverage
  | BFifo => LFifo | BLifo => LLifo | BHifo => LHifo
  end.

(** The booking method of account [a] after ledger [ds]: that of its open
    directive; without one, that of the ledger's option; and the library's
    default in place of any which is not supported. *)
Definition method_for {P} (L : booking_lib P) (opt : option booking) (ds : list directive) (a : string)
    : lbooking :=
  let supported b := if lib_supported L b then b else lib_default_booking L in
  let ledger_method := match opt with Some b => supported (same_method b) | None => lib_default_booking L end in
  match opening ds a with
  | Some (_, o) => match op_booking o with
                   | Some b => supported (same_method b)
                   | None => ledger_method
                   end
  | None => ledger_method
  end.

(** A directive other than a transaction which is refused outright after ledger
    [ds]: an open of an account which is open, a close of one which is not, a pad
    or balance on one which is not usable, and a balance in a currency which is
    not allowed. *)
Inductive refused (ds : list directive) : directive_variant → Prop :=
| R_open o : usable (life ds (op_acc o)) = true → refused ds (DOpen o)
| R_close a : (∀ i, life ds a ≠ OpenSince i) → refused ds (DClose a)
| R_pad p : usable (life ds (pad_acc p)) = false → refused ds (DPad p)
| R_balance b r :
    use_report (at_directive (length ds)) ds (bal_acc b) (bal_cur b) = Some r → refused ds (DBalance b).

(** Renumbering of a report when a directive is inserted at index [n]. *)
Definition shift_index (n i : nat) : nat := if i <? n then i else S i.
Definition shift_element (n : nat) (e : eidx) : eidx := EIdx (shift_index n (ei_directive e)) (ei_posting e).
Definition shift_report (n : nat) (r : report) : report :=
  Report (r_reason r) (shift_element n (r_idx r)) (fmap (M:=list) (shift_element n) <$> r_related r) (r_annotation r).

(** Every balance which follows a pad of the same account is also preceded by an
    open directive for the source of that pad. *)
Definition pad_sources_opened (ds : list directive) : Prop :=
  ∀ k d p j dj b, ds !! k = Some d → d_variant d = DPad p →
    k < j → ds !! j = Some dj → d_variant dj = DBalance b → bal_acc b = pad_acc p →
    ∃ i o, i < j ∧ opens_at ds i (pad_source p) o.

(** ** The table in the report of a failed balance *)

(** The booked directives since the last balance assertion on account [a], and
    that assertion if there is one. *)
Inductive since_balance (a : string) (bs : list bdirective) : option balance → list bdirective → Prop :=
| SB_none :
    (∀ b, b ∈ bs → balances_on a b = false) → since_balance a bs None bs
| SB_some pre b bb w :
    bs = pre ++ b :: w → b_variant b = BVBalance bb → bal_acc (bb_raw bb) = a →
    (∀ b', b' ∈ w → balances_on a b' = false) → since_balance a bs (Some (bb_raw bb)) w.

(** The postings to [base] and its sub-accounts, with the date of their
    transaction and its payee, or narration if there is no payee. *)
Definition touching (base : string) (w : list bdirective) : list (date * posting * option string) :=
  b ← w;
  match b_variant b with
  | BVTransaction t =>
      (λ p, (b_date b, p, match bt_payee t with Some x => Some x | None => bt_narration t end))
        <$> filter (λ p, under base (p_acc p) = true) (bt_postings t)
  | _ => []
  end.

Definition units_in (l : list (date * posting * option string)) : Q :=
  Qsum ((λ x, dec_value (p_units x.1.2)) <$> l).

(** The running total starts from the last assertion, if it was in the same
    currency. *)
Definition start_total (prev : option balance) (cur : string) : Q :=
  match prev with
  | Some pb => if String.eqb (bal_cur pb) cur then dec_value (bal_units pb) else 0
  | None => 0
  end%Q.

(** One row per posting, with the running total.  The account, relative to
    [base], is shown only if there are several. *)
Definition table_of (base : string) (start : Q) (l : list (date * posting * option string))
    (rows : list diag_row) : Prop :=
  length rows = length l ∧
  ∀ i dt p desc row, l !! i = Some (dt, p, desc) → rows !! i = Some row →
    dr_date row = dt ∧ dr_units row = p_units p ∧ dr_description row = desc ∧
    (dec_value (dr_total row) == start + units_in (take (S i) l))%Q ∧
    (((∀ x y, x ∈ l → y ∈ l → p_acc x.1.2 = p_acc y.1.2) ∧ dr_acc row = None) ∨
     ((∃ x y, x ∈ l ∧ y ∈ l ∧ p_acc x.1.2 ≠ p_acc y.1.2) ∧
        ∃ suffix, dr_acc row = Some suffix ∧ p_acc p = base +:+ suffix)).

(** The report of a balance which fails by [m], after [bs] have been booked. *)
Definition failure_table (b : balance) (bs : list bdirective) (r : report) : Prop :=
  ∃ prev w total m rows, since_balance (bal_acc b) bs prev w ∧
    r_reason r = "accumulated " +:+ dec_to_string total +:+ ", error " +:+
                 dec_to_string m +:+ " " +:+ bal_cur b ∧
    r_annotation r = Some rows ∧
    table_of (bal_acc b) (start_total prev (bal_cur b)) (touching (bal_acc b) w) rows ∧
    (dec_value total == start_total prev (bal_cur b) + units_in (touching (bal_acc b) w))%Q.

(** ** Booked postings of a transaction *)

(** Booked posting [p] comes from posting [ps], number [i] of the transaction. *)
Definition comes_from (i : nat) (ps : posting_spec) (p : posting) : Prop :=
  p_idx p = Some i ∧ p_acc p = ps_acc ps ∧ p_flag p = ps_flag ps ∧
  p_tags p = ps_tags ps ∧ p_links p = ps_links ps ∧ p_metadata p = ps_metadata ps.

(** The booked postings for posting [ps], number [i], which the library
    interpolated to [ip]. *)
Inductive expansion (i : nat) (ps : posting_spec) (ip : interpolated) : list posting → Prop :=
| Exp_whole p :
    in_cost ip = None → comes_from i ps p →
    p_units p = in_units ip → p_cur p = in_currency ip → p_cost p = None → p_price p = in_price ip →
    expansion i ps ip [p]
| Exp_lots costs g :
    in_cost ip = Some costs →
    Forall2 (λ (x : string * posting_cost) p,
      comes_from i ps p ∧ p_units p = pc_units x.2 ∧ p_cur p = in_currency ip ∧ p_price p = None ∧
      p_cost p = Some (Cost (pc_date x.2) (pc_per_unit x.2) (pc_total x.2) x.1 (pc_label x.2) (pc_merge x.2)))
      costs g →
    expansion i ps ip g.

(** Postings to account [a] itself in [cur]. *)
Definition to_account (a cur : string) (p : posting) : bool :=
  String.eqb (p_acc p) a && String.eqb (p_cur p) cur.

(** ** Warnings *)

(** The warnings for directive [k]: two for an open with a method which is not
    supported, none otherwise. *)
Definition warnings_at {P} (L : booking_lib P) (k : nat) (d : directive) : list report :=
  match d_variant d with
  | DOpen o =>
      match op_booking o with
      | Some b =>
          if lib_supported L (same_method b) then []
          else [Report ("booking method " +:+ lib_show_booking L (same_method b) +:+
                        " unsupported, falling back to default " +:+
                        lib_show_booking L (lib_default_booking L)) (at_directive k) None None;
                Report "booking method {} unsupported, falling back to default" (at_directive k) None None]
      | None => []
      end
  | _ => []
  end.

(** ** Elements *)

(** Element [e] is a directive of the ledger, or a posting of one of its
    transactions. *)
Definition element_of (ds : list directive) (e : eidx) : Prop :=
  ∃ d, ds !! ei_directive e = Some d ∧
    match ei_posting e with
    | None => True
    | Some j => ∃ t, d_variant d = DTransaction t ∧ j < length (tx_postings t)
    end.

(** ** What a balance assertion says of the booked output *)

(** At position [n], of all booked postings visible then: the sum is within the
    tolerance; or the balance fills a pad, with exactly the difference, after
    which the sum is the asserted amount unless the source of the pad is part of
    the sum. *)
Definition assertion_met (multiplier : option dec) (bs : list bdirective) (n : nat) (bal : balance) : Prop :=
  let total := posted (in_subtree (bal_acc bal) (bal_cur bal)) (visible bs n) in
  let diff := (dec_value (bal_units bal) - total)%Q in
  let tol := balance_tolerance multiplier bal in
  ((∀ k p m, ¬ fills bs k n p m bal) ∧ Qabs diff <= tol)%Q ∨
  ∃ k p m, fills bs k n p m bal ∧
    if under (bal_acc bal) (pad_source p) then (dec_value m == diff ∧ tol < Qabs diff)%Q
    else (total == dec_value (bal_units bal))%Q.
