(** Specification vocabulary for the booking properties.  Nothing here refers to
    the accumulator: only to ledger directives, booked directives and rational
    numbers. *)
From Coq Require Import QArith Qabs.
From stdpp Require Import prelude gmap strings.
From Verif Require Import DecModel LedgerTypes.

(** ** Accounts *)

(** [name] is [base] or a sub-account of it. *)
Definition under (base name : string) : bool :=
  String.eqb name base || String.prefix (base +:+ ":") name.

(** ** Ledger history *)

Definition opens_at (ds : list directive) (i : nat) (a : string) (o : open) : Prop :=
  ∃ d, ds !! i = Some d ∧ d_variant d = DOpen o ∧ op_acc o = a.
Definition closes_at (ds : list directive) (i : nat) (a : string) : Prop :=
  ∃ d, ds !! i = Some d ∧ d_variant d = DClose a.

(** Just before directive [k], account [a] is open, having been opened by the
    open directive [o] at index [i]. *)
Definition open_before (ds : list directive) (k : nat) (a : string) (i : nat) (o : open) : Prop :=
  i < k ∧ opens_at ds i a o ∧ ∀ j, i < j → j < k → ¬ closes_at ds j a.

(** The open directive [o] allows currency [cur]: it lists no currencies or lists
    this one. *)
Definition allows (o : open) (cur : string) : Prop :=
  match op_currencies o with
  | None => True
  | Some cs => cs = ∅ ∨ cur ∈ cs
  end.

(** ** Booked output *)

(** The booked variant is a copy of the ledger one.  A transaction keeps its
    header; its postings are the subject of other properties. *)
Inductive same_content : directive_variant → bvariant → Prop :=
| SC_txn t l : same_content (DTransaction t)
    (BVTransaction (BTransaction (tx_flag t) (tx_payee t) (tx_narration t) l))
| SC_price p : same_content (DPrice p) (BVPrice p)
| SC_balance b u m : same_content (DBalance b) (BVBalance (BBalance b u m))
| SC_open o : same_content (DOpen o) (BVOpen o)
| SC_close a : same_content (DClose a) (BVClose a)
| SC_commodity c : same_content (DCommodity c) (BVCommodity c)
| SC_pad p : same_content (DPad p) (BVPad p)
| SC_document a p : same_content (DDocument a p) (BVDocument a p)
| SC_note a c : same_content (DNote a c) (BVNote a c)
| SC_event t x : same_content (DEvent t x) (BVEvent t x)
| SC_query n c : same_content (DQuery n c) (BVQuery n c)
| SC_custom c : same_content (DCustom c) (BVCustom c).

(** Index, date, tags, links and metadata are those of ledger directive [i]. *)
Definition same_header (i : nat) (d : directive) (b : bdirective) : Prop :=
  b_idx b = i ∧ b_date b = d_date d ∧ b_tags b = d_tags d ∧ b_links b = d_links d ∧
  b_metadata b = d_metadata d.

Definition is_pad (d : directive) : Prop := ∃ p, d_variant d = DPad p.

(** The transaction generated for a pad. *)
Definition pad_transaction (i : nat) (d : directive) (b : bdirective) : Prop :=
  same_header i d b ∧
  ∃ l, b_variant b = BVTransaction (BTransaction "'P" None None l).

(** The booked list mirrors the ledger from index [i] on. *)
Inductive mirrors : nat → list directive → list bdirective → Prop :=
| mirrors_nil i : mirrors i [] []
| mirrors_plain i d ds b bs :
    ¬ is_pad d → same_header i d b → same_content (d_variant d) (b_variant b) →
    mirrors (S i) ds bs → mirrors i (d :: ds) (b :: bs)
| mirrors_pad i d ds b b' bs :
    is_pad d → same_header i d b → same_content (d_variant d) (b_variant b) →
    pad_transaction i d b' →
    mirrors (S i) ds bs → mirrors i (d :: ds) (b :: b' :: bs).

(** ** Sums *)

Definition Qsum (l : list Q) : Q := foldr Qplus 0%Q l.

Definition postings_of (b : bdirective) : list posting :=
  match b_variant b with BVTransaction t => bt_postings t | _ => [] end.

(** Units of all booked postings selected by [sel]. *)
Definition posted (sel : posting → bool) (bs : list bdirective) : Q :=
  Qsum ((λ p, dec_value (p_units p)) <$> filter (λ p, sel p = true) (mbind postings_of bs)).

(** Postings to [base] or its sub-accounts in [cur]. *)
Definition in_subtree (base cur : string) (p : posting) : bool :=
  under base (p_acc p) && String.eqb (p_cur p) cur.

(** Corrections made at failed balance assertions on [base] or its
    sub-accounts in [cur]. *)
Definition corrections (base cur : string) (bs : list bdirective) : Q :=
  Qsum (omap (λ b, match b_variant b with
                   | BVBalance (BBalance r _ (Some m)) =>
                       if under base (bal_acc r) && String.eqb (bal_cur r) cur
                       then Some (dec_value m) else None
                   | _ => None
                   end) bs).

(** ** Tolerance of a balance assertion *)
Definition balance_tolerance (multiplier : option dec) (b : balance) : Q :=
  match bal_tolerance b with
  | Some t => dec_value t
  | None =>
      match dec_scale (bal_units b) with
      | O => 0
      | n => (1 # 10) ^ Z.of_nat n * (2 * match multiplier with
                                          | Some m => dec_value m
                                          | None => 1 # 2
                                          end)
      end
  end%Q.

(** ** Account lifecycle *)

(** What the ledger so far says about an account.  [Reopened c i]: closed at [c]
    and the subject of a (rejected) open at [i] afterwards. *)
Inductive lifecycle :=
| Unopened
| OpenSince (i : nat)
| ClosedAt (c : nat)
| Reopened (c i : nat).

Definition life_step (a : string) (i : nat) (d : directive) (st : lifecycle) : lifecycle :=
  match d_variant d with
  | DOpen o =>
      if String.eqb (op_acc o) a then
        match st with
        | Unopened => OpenSince i
        | ClosedAt c => Reopened c i
        | _ => st
        end
      else st
  | DClose b =>
      if String.eqb b a then
        match st with OpenSince _ => ClosedAt i | _ => st end
      else st
  | _ => st
  end.

Fixpoint life_from (a : string) (i : nat) (ds : list directive) (st : lifecycle) : lifecycle :=
  match ds with
  | [] => st
  | d :: ds' => life_from a (S i) ds' (life_step a i d st)
  end.

Definition life (ds : list directive) (a : string) : lifecycle := life_from a 0 ds Unopened.

(** The account is accepted in transactions, pads and balances. *)
Definition usable (st : lifecycle) : bool :=
  match st with OpenSince _ | Reopened _ _ => true | _ => false end.

(** The first open directive of an account. *)
Definition first_open (ds : list directive) (a : string) (i : nat) (o : open) : Prop :=
  opens_at ds i a o ∧ ∀ j o', opens_at ds j a o' → i <= j.

Definition at_directive (k : nat) : eidx := EIdx k None.

(** The report due for an open, a close, and a use of an account which is not
    usable. *)
Definition open_reports (k : nat) (st : lifecycle) : list report :=
  match st with
  | Unopened => []
  | OpenSince i | Reopened _ i =>
      [Report "account already opened" (at_directive k) (Some [at_directive i]) None]
  | ClosedAt c =>
      [Report "account was closed" (at_directive k) (Some [at_directive c]) None]
  end.

Definition close_reports (k : nat) (st : lifecycle) : list report :=
  match st with
  | OpenSince _ => []
  | Unopened | ClosedAt _ => [Report "account not open" (at_directive k) None None]
  | Reopened c _ =>
      [Report "account was already closed" (at_directive k) (Some [at_directive c]) None]
  end.

Definition unusable_report (e : eidx) (st : lifecycle) : option report :=
  match st with
  | Unopened => Some (Report "account not open" e None None)
  | ClosedAt c => Some (Report "account was closed" e (Some [at_directive c]) None)
  | _ => None
  end.

(** Reports whose subject is directive [k] as a whole, or one of its postings. *)
Definition reports_at (k : nat) (rs : list report) : list report :=
  filter (λ r, ei_directive (r_idx r) = k) rs.

(** The first open directive of an account, computed. *)
Fixpoint find_open (i : nat) (ds : list directive) (a : string) : option (nat * open) :=
  match ds with
  | [] => None
  | d :: ds' =>
      match d_variant d with
      | DOpen o => if String.eqb (op_acc o) a then Some (i, o) else find_open (S i) ds' a
      | _ => find_open (S i) ds' a
      end
  end.
Definition opening (ds : list directive) (a : string) : option (nat * open) := find_open 0 ds a.

Definition allowsb (o : open) (cur : string) : bool :=
  match op_currencies o with
  | None => true
  | Some cs => bool_decide (cs = ∅) || bool_decide (cur ∈ cs)
  end.

(** Account [a] was opened, and allows [cur]. *)
Definition currency_ok (ds : list directive) (a cur : string) : bool :=
  match opening ds a with Some (_, o) => allowsb o cur | None => false end.

(** ** Pending pads *)

(** The pad directive waiting for a balance on account [a] after the first [n]
    directives.  A pad on a usable account is pending unless another one was, in
    which case neither is; a balance in an allowed currency ends the wait. *)
Definition pend_step (before : list directive) (k : nat) (d : directive) (a : string)
    (st : option nat) : option nat :=
  match d_variant d with
  | DPad p =>
      if String.eqb (pad_acc p) a && usable (life before a) then
        match st with Some _ => None | None => Some k end
      else st
  | DBalance b =>
      if String.eqb (bal_acc b) a && usable (life before a) && currency_ok before a (bal_cur b)
      then None else st
  | _ => st
  end.

Fixpoint pending_upto (ds : list directive) (n : nat) (a : string) : option nat :=
  match n with
  | O => None
  | S k =>
      match ds !! k with
      | Some d => pend_step (take k ds) k d a (pending_upto ds k a)
      | None => pending_upto ds k a
      end
  end.
Definition pending (ds : list directive) (a : string) : option nat := pending_upto ds (length ds) a.

(** ** Visibility of pad transactions *)

Definition balances_on (a : string) (b : bdirective) : bool :=
  match b_variant b with
  | BVBalance bb => String.eqb (bal_acc (bb_raw bb)) a
  | _ => false
  end.

(** Position [j] holds the transaction of a pad which no balance at a position up
    to [n] has consumed. *)
Definition unconsumed (bs : list bdirective) (n j : nat) : bool :=
  match j with
  | O => false
  | S k =>
      match b_variant <$> bs !! k with
      | Some (BVPad p) => negb (existsb (balances_on (pad_acc p)) (take (n - k) (drop (S k) bs)))
      | _ => false
      end
  end.

(** The booked directives before position [n], without the transactions of pads
    not yet consumed at [n]. *)
Definition visible (bs : list bdirective) (n : nat) : list bdirective :=
  omap (λ j, if unconsumed bs n j then None else bs !! j) (seq 0 n).

(** The balance [bal] at position [j] fills the pad [p] at position [k]: it is
    the first balance on the padded account after the pad, and the transaction
    after the pad moves [m] units from the source to the account. *)
Definition fills (bs : list bdirective) (k j : nat) (p : pad) (m : dec) (bal : balance) : Prop :=
  k < j ∧ bal_acc bal = pad_acc p ∧
  (∃ b, bs !! k = Some b ∧ b_variant b = BVPad p) ∧
  (∃ b bb, bs !! j = Some b ∧ b_variant b = BVBalance bb ∧ bb_raw bb = bal) ∧
  (∀ n b, k < n → n < j → bs !! n = Some b → balances_on (pad_acc p) b = false) ∧
  ∃ b, bs !! S k = Some b ∧
    b_variant b = BVTransaction (BTransaction "'P" None None
      [Posting None (Some "'P") (pad_acc p) m (bal_cur bal) None None None None None;
       Posting None (Some "'P") (pad_source p) (dec_neg m) (bal_cur bal) None None None None None]).

(** ** Reports due at the end of the ledger *)

Definition opened_accounts (ds : list directive) : list string :=
  remove_dups (omap (λ d, match d_variant d with DOpen o => Some (op_acc o) | _ => None end) ds).

(** One report for each account with a pad still pending. *)
Definition unused_reports (ds : list directive) : list report :=
  omap (λ a, (λ k, Report "unused, no balance directive" (at_directive k) None None)
               <$> pending ds a) (opened_accounts ds).
