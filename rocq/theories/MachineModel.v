(** The accumulator with the decimals of the machine: [BookModel.v] takes decimals to be
    unbounded; here each addition and multiplication which
    [rust/src/api/booking/accumulator.rs] does by itself may fail, as that of
    [rust_decimal::Decimal] does with a panic.  What the booking library computes stays
    with the library. *)
From Coq Require Import Ascii.
From stdpp Require Import prelude gmap strings pretty.
From Verif Require Import DecModel LedgerTypes BookModel.

Section Machine.
Context {P : Type} (L : booking_lib P).
Context (ord : gmap string (account P) → list (string * account P)).
(** [Decimal::add], [Decimal::mul]; [None] is the panic "Addition overflowed" or
    "Multiplication overflowed". *)
Context (madd mmul : dec → dec → option dec).

(** [Decimal::sub], as addition of the negated: both are one function of [rust_decimal]. *)
Definition msub (a b : dec) : option dec := madd a (dec_neg b).
(** [Iterator::sum], starting at zero. *)
Fixpoint msum_from (t : dec) (l : list dec) : option dec :=
  match l with
  | [] => Some t
  | d :: l' => match madd t d with Some t' => msum_from t' l' | None => None end
  end.

(** accumulator.rs:368-380 [total_rollup_units_for_currency]. *)
Definition m_rollup (s : accst P) (base cur : string) : option dec :=
  msum_from dec_zero
    ((λ a, default dec_zero (lib_units L (a_positions a) !! cur)) <$> account_and_subaccounts ord s base).
(** accumulator.rs:388-402: the tolerance used by [balance]. *)
Definition m_tolerance (b : balance) : option dec :=
  match bal_tolerance b with
  | Some t => Some t
  | None =>
      let scale := dec_scale (bal_units b) in
      if Nat.ltb 0 scale then
        let multiplier := match lib_multiplier L with Some m => m | None => dec_new 5 1 end in
        match mmul (dec_new 1 scale) multiplier with
        | Some x => mmul x dec_two
        | None => None
        end
      else Some dec_zero
  end.
(** accumulator.rs:698-706 [calculate_balance_margin]. *)
Definition m_margin (balance_units tolerance account_units : dec) : option (option dec) :=
  match msub balance_units account_units with
  | Some margin => Some (if dec_gtb (dec_abs margin) tolerance then Some margin else None)
  | None => None
  end.

(** accumulator.rs:409-479: the rest of [balance], once the margin is known. *)
Definition balance_rest (margin : option dec) (s : accst P) (b : balance) (e : eidx) (bds : list bdirective)
    : accst P * list bdirective * rr bvariant :=
  match get_valid_account s (bal_acc b) e with
  | RErr err => (s, bds, RErr err)
  | RPanic w => (s, bds, RPanic w)
  | ROk account =>
      match validate_currency account (bal_cur b) e with
      | Some err => (s, bds, RErr err)
      | None =>
          let new_window_end := length bds in
          let new_window :=
            match a_window account with
            | Some (_, old_end) => (old_end, new_window_end)
            | None => (0%nat, new_window_end)
            end in
          let account := set_window account (Some new_window) in
          let the_pad := a_pad account in
          let account := set_pad account None in
          match margin with
          | None =>
              (put_account s (bal_acc b) account, bds,
                ROk (BVBalance (BBalance b (snd <$> the_pad) None)))
          | Some margin =>
              let account := adjust_account_to_match_balance L account (bal_cur b) margin AdjAdd in
              let s := put_account s (bal_acc b) account in
              match the_pad with
              | None => (s, bds, ROk (BVBalance (BBalance b None (Some margin))))
              | Some (booked_pad_idx, _) =>
                  match bds !! booked_pad_idx with
                  | None => (s, bds, RPanic "booked_directives[booked_pad_idx]")
                  | Some padd =>
                      match b_variant padd with
                      | BVPad p =>
                          match bds !! S booked_pad_idx with
                          | None => (s, bds, RPanic "booked_directives[booked_pad_idx + 1]")
                          | Some txnd =>
                              match b_variant txnd with
                              | BVTransaction txn =>
                                  let postings := calculate_balance_pad_postings (bal_cur b) margin
                                                    (bal_acc b) (pad_source p) in
                                  let bds := <[S booked_pad_idx :=
                                       set_variant txnd (BVTransaction (set_postings txn postings))]> bds in
                                  match s_accounts s !! pad_source p with
                                  | None => (s, bds, RPanic "accounts.get_mut(pad_source).unwrap()")
                                  | Some pad_account =>
                                      let pad_account := adjust_account_to_match_balance L
                                                           pad_account (bal_cur b) margin AdjSubtract in
                                      (put_account s (pad_source p) pad_account, bds,
                                        ROk (BVBalance (BBalance b None None)))
                                  end
                              | _ => (s, bds, RPanic "directive at pad_idx + 1 is not a transaction")
                              end
                          end
                      | _ => (s, bds, RPanic "directive at pad_idx is not a pad")
                      end
                  end
              end
          end
      end
  end.
(** accumulator.rs:382-408: the margin, and then the rest of [balance]. *)
Definition m_balance_dct (s : accst P) (b : balance) (e : eidx) (bds : list bdirective)
    : accst P * list bdirective * rr bvariant :=
  match m_tolerance b with
  | None => (s, bds, RPanic "Multiplication overflowed")
  | Some tolerance =>
      match m_rollup s (bal_acc b) (bal_cur b) with
      | None => (s, bds, RPanic "Addition overflowed")
      | Some total =>
          match m_margin (bal_units b) tolerance total with
          | None => (s, bds, RPanic "Subtraction overflowed")
          | Some margin => balance_rest margin s b e bds
          end
      end
  end.

(** accumulator.rs:511-530: the scan of one transaction's postings, adding to the total. *)
Definition m_report_posting (base : string) (d : bdirective) (t : btransaction)
    (acc : option (dec * list (date * string * dec * dec * option string) * gset string)) (p : posting)
    : option (dec * list (date * string * dec * dec * option string) * gset string) :=
  match acc with
  | None => None
  | Some (total, diags, accs) =>
      if is_nonstrict_subaccount base (p_acc p) then
        match madd total (p_units p) with
        | None => None
        | Some total =>
            let description := match bt_payee t with Some x => Some x | None => bt_narration t end in
            Some (total,
              diags ++ [(b_date d, default EmptyString (strip_prefix base (p_acc p)),
                         p_units p, total, description)],
              {[ p_acc p ]} ∪ accs)
        end
      else acc
  end.
Definition m_report_directive (base : string)
    (acc : option (dec * list (date * string * dec * dec * option string) * gset string)) (d : bdirective)
    : option (dec * list (date * string * dec * dec * option string) * gset string) :=
  match b_variant d with
  | BVTransaction t => fold_left (m_report_posting base d t) (bt_postings t) acc
  | _ => acc
  end.
(** accumulator.rs:481-563 [balance_report]. *)
Definition m_balance_report (s : accst P) (base : string) (margin : dec) (cur : string)
    (e : eidx) (bds : list bdirective) : rr report :=
  match s_accounts s !! base with
  | None => RPanic "accounts.get(base_account_name).unwrap()"
  | Some base_account =>
      match a_window base_account with
      | None => RPanic "balance_window.unwrap()"
      | Some (wstart, wend) =>
          let total :=
            match bds !! wstart with
            | Some d =>
                match b_variant d with
                | BVBalance bal =>
                    if String.eqb (bal_cur (bb_raw bal)) cur then bal_units (bb_raw bal)
                    else dec_zero
                | _ => dec_zero
                end
            | None => dec_zero
            end in
          if Nat.leb wstart wend && Nat.leb wend (length bds) then
            let window := take (wend - wstart) (drop wstart bds) in
            match fold_left (m_report_directive base) window (Some (total, [], ∅)) with
            | None => RPanic "Addition overflowed"
            | Some (total, diags, accs) =>
                let reason := "accumulated " +:+ dec_to_string total +:+ ", error " +:+
                              dec_to_string margin +:+ " " +:+ cur in
                let multiple_accounts := Nat.ltb 1 (size accs) in
                ROk (with_annotation (mk_report e reason)
                       ((λ '(dt, acc, units, total, description),
                           DiagRow dt (if multiple_accounts then Some acc else None)
                             units total description) <$> diags))
            end
          else RPanic "booked_directives[balance_window]"
      end
  end.

(** accumulator.rs:140-175 [directive]; only balance assertions calculate. *)
Definition m_directive_dct (s : accst P) (d : directive) (e : eidx) (bds : list bdirective)
    : accst P * list bdirective * rr (bvariant * option bvariant) :=
  match d_variant d with
  | DBalance b => let '(s, bds, r) := m_balance_dct s b e bds in (s, bds, with_none r)
  | _ => directive_dct L ord s d e bds
  end.

(** accumulator.rs:85-135: one iteration of the loop of [collect]. *)
Definition m_collect_step (i : nat) (d : directive) (c : cst) : cres :=
  let e := eidx_of_nat i in
  let '(s, bds, r) := m_directive_dct (c_acc c) d e (c_booked c) in
  match r with
  | RPanic w => CPanic w
  | RErr err => CRun (CSt s (c_errors c ++ [err]) bds)
  | ROk (v, pad_txn) =>
      let finish errors :=
        CRun (CSt s errors
          (bds ++ [booked_of i d v] ++
           match pad_txn with Some t => [booked_of i d t] | None => [] end)) in
      match v with
      | BVBalance bb =>
          let errors := c_errors c ++
            match bb_unused_pad bb with
            | Some u => [mk_report u "unused, no balance adjustment required"]
            | None => []
            end in
          match bb_margin bb with
          | Some margin =>
              match m_balance_report s (bal_acc (bb_raw bb)) margin (bal_cur (bb_raw bb)) e bds with
              | ROk rep => finish (errors ++ [rep])
              | RErr rep => finish (errors ++ [rep])
              | RPanic w => CPanic w
              end
          | None => finish errors
          end
      | _ => finish (c_errors c)
      end
  end.
(** accumulator.rs:85: the loop. *)
Fixpoint m_collect_loop (i : nat) (ds : list directive) (c : cst) : cres :=
  match ds with
  | [] => CRun c
  | d :: ds' =>
      match m_collect_step i d c with
      | CRun c' => m_collect_loop (S i) ds' c'
      | CPanic w => CPanic w
      end
  end.
(** accumulator.rs:78-138 [collect], booking.rs:3-30 [book]. *)
Definition m_book (opt : option booking) (ds : list directive) : book_result :=
  match m_collect_loop 0 ds (CSt (acc_new (default_booking_option L opt)) [] []) with
  | CRun c => validate ord c
  | CPanic w => BookPanic w
  end.
End Machine.
