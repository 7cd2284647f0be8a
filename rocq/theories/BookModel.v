(** Model of the booking accumulator: [rust/src/api/booking.rs] and
    [rust/src/api/booking/accumulator.rs]. *)
From Coq Require Import Ascii.
From stdpp Require Import prelude gmap strings pretty.
From Verif Require Import DecModel LedgerTypes.

(** * The booking library

    [limabean_booking] is a third-party crate.  It is represented by a record of
    the functions which the accumulator calls; [P] is its [Positions] type. *)

(** [limabean_booking::Booking]. *)
Inductive lbooking := LStrict | LStrictWithSize | LNone | LAverage | LFifo | LLifo | LHifo.
Global Instance lbooking_eq_dec : EqDecision lbooking.
Proof. solve_decision. Defined.

(** booking/types.rs:79-94: conversion between the two booking enums. *)
Definition booking_into (b : booking) : lbooking :=
  match b with
  | BStrict => LStrict
  | BStrictWithSize => LStrictWithSize
  | BNone => LNone
  | BAverage => LAverage
  | BFifo => LFifo
  | BLifo => LLifo
  | BHifo => LHifo
  end.

(** [limabean_booking::PostingCost], as used at accumulator.rs:257-271, 860-872. *)
Record posting_cost := PostingCost {
  pc_date : date; pc_units : dec; pc_per_unit : dec; pc_total : dec;
  pc_label : option string; pc_merge : bool }.

(** [limabean_booking::Interpolated], as used at accumulator.rs:249-255.  [in_cost] is
    the list which [into_currency_costs] yields. *)
Record interpolated := Interpolated {
  in_units : dec; in_currency : string;
  in_cost : option (list (string * posting_cost)); in_price : option price }.

(** Result of [limabean_booking::book], accumulator.rs:205-220, 298-310. *)
Inductive lib_result (P : Type) :=
| LibOk (postings : list interpolated) (updated_inventory : list (string * P))
| LibErrTransaction (msg : string)
| LibErrPosting (idx : nat) (msg : string).
Arguments LibOk {_} _ _.
Arguments LibErrTransaction {_} _.
Arguments LibErrPosting {_} _ _.

Record booking_lib (P : Type) := BookingLib {
  (** [Positions::default()] *)
  lib_empty : P;
  (** [positions.units()] *)
  lib_units : P → gmap string dec;
  (** [positions.accumulate(units, cur, None, method)] *)
  lib_accumulate : P → dec → string → P;
  (** [book(date, postings, tolerance, inventory, booking)]; the tolerance is
      fixed for a run and therefore part of the function. *)
  lib_book : date → list posting_spec → (string → option P) → (string → lbooking) → lib_result P;
  (** [is_supported_method] *)
  lib_supported : lbooking → bool;
  (** [Booking::default()] *)
  lib_default_booking : lbooking;
  (** [tolerance.inferred_tolerance_multiplier()] *)
  lib_multiplier : option dec;
  (** [Display for Booking] *)
  lib_show_booking : lbooking → string
}.
Arguments lib_empty {_} _.
Arguments lib_units {_} _ _.
Arguments lib_accumulate {_} _ _ _ _.
Arguments lib_book {_} _ _ _ _ _.
Arguments lib_supported {_} _ _.
Arguments lib_default_booking {_} _.
Arguments lib_multiplier {_} _.
Arguments lib_show_booking {_} _ _.

(** * State *)

(** accumulator.rs:766-774 [AccountBuilder]; the window [Range] is a pair. *)
Record account (P : Type) := Account {
  a_allowed : gset string;
  a_positions : P;
  a_opened : eidx;
  a_pad : option (nat * eidx);
  a_window : option (nat * nat);
  a_booking : lbooking }.
Arguments Account {_} _ _ _ _ _ _.
Arguments a_allowed {_} _.
Arguments a_positions {_} _.
Arguments a_opened {_} _.
Arguments a_pad {_} _.
Arguments a_window {_} _.
Arguments a_booking {_} _.

(** accumulator.rs:20-28 [Accumulator]; the tolerance is part of the library record. *)
Record accst (P : Type) := AccSt {
  s_open : gmap string eidx;
  s_closed : gmap string eidx;
  s_accounts : gmap string (account P);
  s_default_booking : lbooking;
  s_warnings : list report }.
Arguments AccSt {_} _ _ _ _ _.
Arguments s_open {_} _.
Arguments s_closed {_} _.
Arguments s_accounts {_} _.
Arguments s_default_booking {_} _.
Arguments s_warnings {_} _.

(** Outcome of a Rust function returning [Result<A, IndexedReport>]; a panic is
    explicit. *)
Inductive rr (A : Type) := ROk (a : A) | RErr (e : report) | RPanic (why : string).
Arguments ROk {_} _.
Arguments RErr {_} _.
Arguments RPanic {_} _.

(** accumulator.rs:811. *)
Definition PAD_FLAG : string := "'P".

Section Accumulator.
Context {P : Type} (L : booking_lib P).
(** Iteration order of the hash map [accounts]. *)
Context (ord : gmap string (account P) → list (string * account P)).

Definition set_positions (a : account P) (p : P) : account P :=
  Account (a_allowed a) p (a_opened a) (a_pad a) (a_window a) (a_booking a).
Definition set_pad (a : account P) (x : option (nat * eidx)) : account P :=
  Account (a_allowed a) (a_positions a) (a_opened a) x (a_window a) (a_booking a).
Definition set_window (a : account P) (w : option (nat * nat)) : account P :=
  Account (a_allowed a) (a_positions a) (a_opened a) (a_pad a) w (a_booking a).
Definition set_accounts (s : accst P) (m : gmap string (account P)) : accst P :=
  AccSt (s_open s) (s_closed s) m (s_default_booking s) (s_warnings s).
Definition set_open (s : accst P) (m : gmap string eidx) : accst P :=
  AccSt m (s_closed s) (s_accounts s) (s_default_booking s) (s_warnings s).
Definition set_closed (s : accst P) (m : gmap string eidx) : accst P :=
  AccSt (s_open s) m (s_accounts s) (s_default_booking s) (s_warnings s).
Definition push_warning (s : accst P) (w : report) : accst P :=
  AccSt (s_open s) (s_closed s) (s_accounts s) (s_default_booking s) (s_warnings s ++ [w]).
Definition put_account (s : accst P) (n : string) (a : account P) : accst P :=
  set_accounts s (<[n := a]> (s_accounts s)).

(** accumulator.rs:40-49 [new]. *)
Definition acc_new (default_booking : lbooking) : accst P :=
  AccSt ∅ ∅ ∅ default_booking [].

(** accumulator.rs:776-789 [AccountBuilder::new]. *)
Definition account_new (allowed : gset string) (b : lbooking) (opened : eidx) : account P :=
  Account allowed (lib_empty L) opened None None b.

(** accumulator.rs:791-794 [is_currency_valid]. *)
Definition is_currency_valid (a : account P) (cur : string) : bool :=
  bool_decide (a_allowed a = ∅) || bool_decide (cur ∈ a_allowed a).

(** accumulator.rs:796-808 [validate_currency]; [None] is [Ok(())]. *)
Definition validate_currency (a : account P) (cur : string) (e : eidx) : option report :=
  if is_currency_valid a cur then None
  else Some (related_to (mk_report e "currency incompatible with account") (a_opened a)).

(** accumulator.rs:314-326 [validate_account]; [None] is [Ok(())]. *)
Definition validate_account (s : accst P) (name : string) (e : eidx) : option report :=
  match s_open s !! name with
  | Some _ => None
  | None =>
      match s_closed s !! name with
      | Some closed => Some (related_to (mk_report e "account was closed") closed)
      | None => Some (mk_report e "account not open")
      end
  end.

(** accumulator.rs:328-344 [get_valid_account], [get_mut_valid_account]. *)
Definition get_valid_account (s : accst P) (name : string) (e : eidx) : rr (account P) :=
  match validate_account s name e with
  | Some err => RErr err
  | None =>
      match s_accounts s !! name with
      | Some a => ROk a
      | None => RPanic "accounts.get(account_name).unwrap()"
      end
  end.

(** accumulator.rs:346-354 [validate_account_and_currency]. *)
Definition validate_account_and_currency (s : accst P) (name cur : string) (e : eidx) : rr unit :=
  match get_valid_account s name e with
  | ROk a => match validate_currency a cur e with None => ROk tt | Some err => RErr err end
  | RErr err => RErr err
  | RPanic w => RPanic w
  end.

(** [str::strip_prefix]. *)
Fixpoint strip_prefix (pre s : string) : option string :=
  match pre, s with
  | EmptyString, _ => Some s
  | String c pre', String d s' => if Ascii.eqb c d then strip_prefix pre' s' else None
  | String _ _, EmptyString => None
  end.

(** accumulator.rs:690-696 [is_nonstrict_subaccount]. *)
Definition is_nonstrict_subaccount (base candidate : string) : bool :=
  match strip_prefix base candidate with
  | None => false
  | Some EmptyString => true
  | Some (String c _) => Ascii.eqb c ":"%char
  end.

(** accumulator.rs:356-366 [account_and_subaccounts]. *)
Definition account_and_subaccounts (s : accst P) (base : string) : list (account P) :=
  snd <$> filter (λ x, is_nonstrict_subaccount base x.1 = true) (ord (s_accounts s)).

(** accumulator.rs:368-380 [total_rollup_units_for_currency]. *)
Definition total_rollup_units_for_currency (s : accst P) (base cur : string) : dec :=
  dec_sum ((λ a, default dec_zero (lib_units L (a_positions a) !! cur))
             <$> account_and_subaccounts s base).

(** accumulator.rs:698-706 [calculate_balance_margin]. *)
Definition calculate_balance_margin (balance_units tolerance account_units : dec) : option dec :=
  let margin := dec_sub balance_units account_units in
  if dec_gtb (dec_abs margin) tolerance then Some margin else None.

(** accumulator.rs:708-740 [calculate_balance_pad_postings]. *)
Definition calculate_balance_pad_postings (cur : string) (margin : dec)
    (balance_account source : string) : list posting :=
  [ Posting None (Some PAD_FLAG) balance_account margin cur None None None None None;
    Posting None (Some PAD_FLAG) source (dec_neg margin) cur None None None None None ].

(** accumulator.rs:742-764 [Adjustment], [adjust_account_to_match_balance]. *)
Inductive adjustment := AdjAdd | AdjSubtract.
Definition adjust_account_to_match_balance (a : account P) (cur : string) (units : dec)
    (adj : adjustment) : account P :=
  set_positions a
    (lib_accumulate L (a_positions a)
       (match adj with AdjAdd => units | AdjSubtract => dec_neg units end) cur).

(** accumulator.rs:388-402: the tolerance used by [balance]. *)
Definition effective_tolerance (b : balance) : dec :=
  match bal_tolerance b with
  | Some t => t
  | None =>
      let scale := dec_scale (bal_units b) in
      if Nat.ltb 0 scale then
        let multiplier := match lib_multiplier L with Some m => m | None => dec_new 5 1 end in
        dec_mul (dec_mul (dec_new 1 scale) multiplier) dec_two
      else dec_zero
  end.

Definition set_postings (t : btransaction) (l : list posting) : btransaction :=
  BTransaction (bt_flag t) (bt_payee t) (bt_narration t) l.
Definition set_variant (d : bdirective) (v : bvariant) : bdirective :=
  BDirective (b_idx d) (b_date d) (b_tags d) (b_links d) (b_metadata d) v.

(** accumulator.rs:382-479 [balance].  Returns the state and the (mutated) booked
    directives along with the result.  The unused local [positions] of
    accumulator.rs:443-444 has no effect and is left out. *)
Definition balance_dct (s : accst P) (b : balance) (e : eidx) (bds : list bdirective)
    : accst P * list bdirective * rr bvariant :=
  let margin := calculate_balance_margin (bal_units b) (effective_tolerance b)
                  (total_rollup_units_for_currency s (bal_acc b) (bal_cur b)) in
  match get_valid_account s (bal_acc b) e with
  | RErr err => (s, bds, RErr err)
  | RPanic w => (s, bds, RPanic w)
  | ROk account =>
      match validate_currency account (bal_cur b) e with
      | Some err => (s, bds, RErr err)
      | None =>
          let new_window_end := length bds in
          let new_window :=
            match a_window account with
            | Some (_, old_end) => (old_end, new_window_end)
            | None => (0%nat, new_window_end)
            end in
          let account := set_window account (Some new_window) in
          let the_pad := a_pad account in
          let account := set_pad account None in
          match margin with
          | None =>
              (put_account s (bal_acc b) account, bds,
                ROk (BVBalance (BBalance b (snd <$> the_pad) None)))
          | Some margin =>
              let account := adjust_account_to_match_balance account (bal_cur b) margin AdjAdd in
              let s := put_account s (bal_acc b) account in
              match the_pad with
              | None => (s, bds, ROk (BVBalance (BBalance b None (Some margin))))
              | Some (booked_pad_idx, _) =>
                  match bds !! booked_pad_idx with
                  | None => (s, bds, RPanic "booked_directives[booked_pad_idx]")
                  | Some padd =>
                      match b_variant padd with
                      | BVPad p =>
                          match bds !! S booked_pad_idx with
                          | None => (s, bds, RPanic "booked_directives[booked_pad_idx + 1]")
                          | Some txnd =>
                              match b_variant txnd with
                              | BVTransaction txn =>
                                  let postings := calculate_balance_pad_postings (bal_cur b) margin
                                                    (bal_acc b) (pad_source p) in
                                  let bds := <[S booked_pad_idx :=
                                       set_variant txnd (BVTransaction (set_postings txn postings))]> bds in
                                  match s_accounts s !! pad_source p with
                                  | None => (s, bds, RPanic "accounts.get_mut(pad_source).unwrap()")
                                  | Some pad_account =>
                                      let pad_account := adjust_account_to_match_balance
                                                           pad_account (bal_cur b) margin AdjSubtract in
                                      (put_account s (pad_source p) pad_account, bds,
                                        ROk (BVBalance (BBalance b None None)))
                                  end
                              | _ => (s, bds, RPanic "directive at pad_idx + 1 is not a transaction")
                              end
                          end
                      | _ => (s, bds, RPanic "directive at pad_idx is not a pad")
                      end
                  end
              end
          end
      end
  end.

(** accumulator.rs:511-530: the scan of one transaction's postings.  The accumulator is
    the running total, the diagnostics and the accounts seen. *)
Definition report_posting (base : string) (d : bdirective) (t : btransaction)
    (acc : dec * list (date * string * dec * dec * option string) * gset string) (p : posting)
    : dec * list (date * string * dec * dec * option string) * gset string :=
  let '(total, diags, accs) := acc in
  if is_nonstrict_subaccount base (p_acc p) then
    let total := dec_add total (p_units p) in
    let description := match bt_payee t with Some x => Some x | None => bt_narration t end in
    (total,
     diags ++ [(b_date d, default EmptyString (strip_prefix base (p_acc p)),
                p_units p, total, description)],
     {[ p_acc p ]} ∪ accs)
  else (total, diags, accs).

Definition report_directive (base : string)
    (acc : dec * list (date * string * dec * dec * option string) * gset string) (d : bdirective)
    : dec * list (date * string * dec * dec * option string) * gset string :=
  match b_variant d with
  | BVTransaction t => fold_left (report_posting base d t) (bt_postings t) acc
  | _ => acc
  end.

(** accumulator.rs:481-563 [balance_report].  [strip_prefix(..).unwrap()] at
    accumulator.rs:521 is total here because it is guarded by
    [is_nonstrict_subaccount].  The annotation is left as table rows. *)
Definition balance_report (s : accst P) (base : string) (margin : dec) (cur : string)
    (e : eidx) (bds : list bdirective) : rr report :=
  match s_accounts s !! base with
  | None => RPanic "accounts.get(base_account_name).unwrap()"
  | Some base_account =>
      match a_window base_account with
      | None => RPanic "balance_window.unwrap()"
      | Some (wstart, wend) =>
          let total :=
            match bds !! wstart with
            | Some d =>
                match b_variant d with
                | BVBalance bal =>
                    if String.eqb (bal_cur (bb_raw bal)) cur then bal_units (bb_raw bal)
                    else dec_zero
                | _ => dec_zero
                end
            | None => dec_zero
            end in
          if Nat.leb wstart wend && Nat.leb wend (length bds) then
            let window := take (wend - wstart) (drop wstart bds) in
            let '(total, diags, accs) :=
              fold_left (report_directive base) window (total, [], ∅) in
            let reason := "accumulated " +:+ dec_to_string total +:+ ", error " +:+
                          dec_to_string margin +:+ " " +:+ cur in
            let multiple_accounts := Nat.ltb 1 (size accs) in
            ROk (with_annotation (mk_report e reason)
                   ((λ '(dt, acc, units, total, description),
                       DiagRow dt (if multiple_accounts then Some acc else None)
                         units total description) <$> diags))
          else RPanic "booked_directives[balance_window]"
      end
  end.

(** accumulator.rs:565-619 [open]. *)
Definition open_dct (s : accst P) (o : open) (e : eidx) : accst P * rr bvariant :=
  match s_open s !! op_acc o with
  | Some opened => (s, RErr (related_to (mk_report e "account already opened") opened))
  | None =>
      let s := set_open s (<[op_acc o := e]> (s_open s)) in
      match s_closed s !! op_acc o with
      | Some closed => (s, RErr (related_to (mk_report e "account was closed") closed))
      | None =>
          let booking := match op_booking o with
                         | Some b => booking_into b
                         | None => s_default_booking s
                         end in
          let '(s, booking) :=
            if negb (lib_supported L booking) then
              let default_booking := lib_default_booking L in
              (push_warning s (mk_report e
                 ("booking method " +:+ lib_show_booking L booking +:+
                  " unsupported, falling back to default " +:+
                  lib_show_booking L default_booking)), default_booking)
            else (s, booking) in
          let s := put_account s (op_acc o)
                     (account_new (match op_currencies o with Some cs => cs | None => ∅ end) booking e) in
          let s :=
            match op_booking o with
            | Some b =>
                if lib_supported L (booking_into b) then s
                else push_warning s (mk_report e
                       "booking method {} unsupported, falling back to default")
            | None => s
            end in
          (s, ROk (BVOpen o))
      end
  end.

(** accumulator.rs:621-649 [close]. *)
Definition close_dct (s : accst P) (acc : string) (e : eidx) : accst P * rr bvariant :=
  match s_open s !! acc with
  | Some _ =>
      match s_closed s !! acc with
      | Some closed => (s, RErr (related_to (mk_report e "account was already closed") closed))
      | None =>
          (set_closed (set_open s (delete acc (s_open s))) (<[acc := e]> (s_closed s)),
            ROk (BVClose acc))
      end
  | None => (s, RErr (mk_report e "account not open"))
  end.

(** accumulator.rs:651-687 [pad]; [idx] is the number of booked directives so far. *)
Definition pad_dct (s : accst P) (p : pad) (idx : nat) (e : eidx)
    : accst P * rr (bvariant * option bvariant) :=
  match get_valid_account s (pad_acc p) e with
  | RErr err => (s, RErr err)
  | RPanic w => (s, RPanic w)
  | ROk account =>
      match a_pad account with
      | Some (_, unused_pad) =>
          (put_account s (pad_acc p) (set_pad account None),
            RErr (related_to (mk_report unused_pad "unused, second pad encountered") e))
      | None =>
          (put_account s (pad_acc p) (set_pad account (Some (idx, e))),
            ROk (BVPad p, Some (BVTransaction (BTransaction PAD_FLAG None None []))))
      end
  end.

(** accumulator.rs:221-239: the first validation error of the interpolated postings. *)
Fixpoint validate_postings (s : accst P) (e : eidx) (i : nat)
    (l : list (interpolated * posting_spec)) : rr unit :=
  match l with
  | [] => ROk tt
  | (ip, ps) :: l' =>
      match validate_account_and_currency s (ps_acc ps) (in_currency ip) (eidx_with_posting e i) with
      | ROk _ => validate_postings s e (S i) l'
      | RErr err => RErr err
      | RPanic w => RPanic w
      end
  end.

(** accumulator.rs:860-872 [cur_posting_cost_to_cost], booking_type_conversions.rs:4-25.  Prices,
    booking_type_conversions.rs:27-39, have one type in the model. *)
Definition cur_posting_cost_to_cost (cur : string) (pc : posting_cost) : cost :=
  Cost (pc_date pc) (pc_per_unit pc) (pc_total pc) cur (pc_label pc) (pc_merge pc).

(** accumulator.rs:241-288: the booked postings for one interpolated posting. *)
Definition booked_postings_of (i : nat) (ip : interpolated) (ps : posting_spec) : list posting :=
  match in_cost ip with
  | Some costs =>
      (λ '(cost_cur, c),
         Posting (Some i) (ps_flag ps) (ps_acc ps) (pc_units c) (in_currency ip)
           (Some (cur_posting_cost_to_cost cost_cur c)) None
           (ps_tags ps) (ps_links ps) (ps_metadata ps)) <$> costs
  | None =>
      [Posting (Some i) (ps_flag ps) (ps_acc ps) (in_units ip) (in_currency ip)
         None (in_price ip) (ps_tags ps) (ps_links ps) (ps_metadata ps)]
  end.

Fixpoint booked_postings_from (i : nat) (l : list (interpolated * posting_spec)) : list posting :=
  match l with
  | [] => []
  | (ip, ps) :: l' => booked_postings_of i ip ps ++ booked_postings_from (S i) l'
  end.

(** accumulator.rs:290-294: write back the updated positions. *)
Fixpoint update_inventory (s : accst P) (e : eidx) (l : list (string * P)) : accst P * rr unit :=
  match l with
  | [] => (s, ROk tt)
  | (name, p) :: l' =>
      match get_valid_account s name e with
      | ROk a => update_inventory (put_account s name (set_positions a p)) e l'
      | RErr err => (s, RErr err)
      | RPanic w => (s, RPanic w)
      end
  end.

(** accumulator.rs:196-312 [book]. *)
Definition book_txn (s : accst P) (dt : date) (postings : list posting_spec) (e : eidx)
    : accst P * rr (list posting) :=
  match lib_book L dt postings
          (λ name, a_positions <$> s_accounts s !! name)
          (λ name, match s_accounts s !! name with
                   | Some a => a_booking a
                   | None => s_default_booking s
                   end) with
  | LibOk interpolated_postings updated_inventory =>
      let zipped := zip interpolated_postings postings in
      match validate_postings s e 0 zipped with
      | RErr err => (s, RErr err)
      | RPanic w => (s, RPanic w)
      | ROk _ =>
          let booked := booked_postings_from 0 zipped in
          let '(s, r) := update_inventory s e updated_inventory in
          match r with
          | ROk _ => (s, ROk booked)
          | RErr err => (s, RErr err)
          | RPanic w => (s, RPanic w)
          end
      end
  | LibErrTransaction msg => (s, RErr (mk_report e msg))
  | LibErrPosting idx msg =>
      (s, RErr (mk_report e (msg +:+ " on posting " +:+ pretty idx)))
  end.

(** accumulator.rs:177-194 [transaction]. *)
Definition transaction_dct (s : accst P) (t : transaction) (dt : date) (e : eidx)
    : accst P * rr bvariant :=
  match book_txn s dt (tx_postings t) e with
  | (s, ROk l) =>
      (s, ROk (BVTransaction (BTransaction (tx_flag t) (tx_payee t) (tx_narration t) l)))
  | (s, RErr err) => (s, RErr err)
  | (s, RPanic w) => (s, RPanic w)
  end.

Definition with_none (r : rr bvariant) : rr (bvariant * option bvariant) :=
  match r with ROk v => ROk (v, None) | RErr e => RErr e | RPanic w => RPanic w end.

(** accumulator.rs:140-175 [directive]. *)
Definition directive_dct (s : accst P) (d : directive) (e : eidx) (bds : list bdirective)
    : accst P * list bdirective * rr (bvariant * option bvariant) :=
  match d_variant d with
  | DTransaction t => let '(s, r) := transaction_dct s t (d_date d) e in (s, bds, with_none r)
  | DPrice p => (s, bds, ROk (BVPrice p, None))
  | DBalance b => let '(s, bds, r) := balance_dct s b e bds in (s, bds, with_none r)
  | DOpen o => let '(s, r) := open_dct s o e in (s, bds, with_none r)
  | DClose c => let '(s, r) := close_dct s c e in (s, bds, with_none r)
  | DCommodity c => (s, bds, ROk (BVCommodity c, None))
  | DPad p => let '(s, r) := pad_dct s p (length bds) e in (s, bds, r)
  | DDocument a p => (s, bds, ROk (BVDocument a p, None))
  | DNote a c => (s, bds, ROk (BVNote a c, None))
  | DEvent t x => (s, bds, ROk (BVEvent t x, None))
  | DQuery n c => (s, bds, ROk (BVQuery n c, None))
  | DCustom c => (s, bds, ROk (BVCustom c, None))
  end.

(** State of the loop of [collect]. *)
Record cst := CSt { c_acc : accst P; c_errors : list report; c_booked : list bdirective }.

Inductive cres := CRun (c : cst) | CPanic (why : string).

Definition booked_of (i : nat) (d : directive) (v : bvariant) : bdirective :=
  BDirective i (d_date d) (d_tags d) (d_links d) (d_metadata d) v.

(** accumulator.rs:85-135: one iteration of the loop of [collect]. *)
Definition collect_step (i : nat) (d : directive) (c : cst) : cres :=
  let e := eidx_of_nat i in
  let '(s, bds, r) := directive_dct (c_acc c) d e (c_booked c) in
  match r with
  | RPanic w => CPanic w
  | RErr err => CRun (CSt s (c_errors c ++ [err]) bds)
  | ROk (v, pad_txn) =>
      let finish errors :=
        CRun (CSt s errors
          (bds ++ [booked_of i d v] ++
           match pad_txn with Some t => [booked_of i d t] | None => [] end)) in
      match v with
      | BVBalance bb =>
          let errors := c_errors c ++
            match bb_unused_pad bb with
            | Some u => [mk_report u "unused, no balance adjustment required"]
            | None => []
            end in
          match bb_margin bb with
          | Some margin =>
              match balance_report s (bal_acc (bb_raw bb)) margin (bal_cur (bb_raw bb)) e bds with
              | ROk rep => finish (errors ++ [rep])
              | RErr rep => finish (errors ++ [rep])
              | RPanic w => CPanic w
              end
          | None => finish errors
          end
      | _ => finish (c_errors c)
      end
  end.

(** accumulator.rs:85: the loop, [i] being the index of the first directive of [ds]. *)
Fixpoint collect_loop (i : nat) (ds : list directive) (c : cst) : cres :=
  match ds with
  | [] => CRun c
  | d :: ds' =>
      match collect_step i d c with
      | CRun c' => collect_loop (S i) ds' c'
      | CPanic w => CPanic w
      end
  end.

(** Result of booking: accumulator.rs:30-37 [BookingSuccess], [BookingFailure]. *)
Inductive book_result :=
| BookSuccess (directives : list bdirective) (warnings : list report)
| BookFailure (errors : list report)
| BookPanic (why : string).

(** accumulator.rs:52-76 [validate]. *)
Definition unused_pad_reports (accounts : gmap string (account P)) : list report :=
  omap (λ x : string * account P,
          match a_pad x.2 with
          | Some (_, p) => Some (mk_report p "unused, no balance directive")
          | None => None
          end) (ord accounts).

Definition validate (c : cst) : book_result :=
  let errors := c_errors c ++ unused_pad_reports (s_accounts (c_acc c)) in
  match errors with
  | [] => BookSuccess (c_booked c) (s_warnings (c_acc c))
  | _ => BookFailure errors
  end.

(** accumulator.rs:78-138 [collect]. *)
Definition collect (s : accst P) (ds : list directive) : book_result :=
  match collect_loop 0 ds (CSt s [] []) with
  | CRun c => validate c
  | CPanic w => BookPanic w
  end.

(** booking.rs:3-30 [book]; the option is [options.booking_method()], which the
    code converts to the library's enum (beancount_parser_lima's own enum is
    identified with [booking]). *)
Definition default_booking_option (opt : option booking) : lbooking :=
  match opt with
  | Some b => if lib_supported L (booking_into b) then booking_into b else lib_default_booking L
  | None => lib_default_booking L
  end.

Definition book (opt : option booking) (ds : list directive) : book_result :=
  collect (acc_new (default_booking_option opt)) ds.

End Accumulator.
Arguments CSt {_} _ _ _.
Arguments c_acc {_} _.
Arguments c_errors {_} _.
Arguments c_booked {_} _.
Arguments CRun {_} _.
Arguments CPanic {_} _.
