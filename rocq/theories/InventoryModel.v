(** Model of [clj/src/limabean/core/inventory.clj], [journal.clj].

    Postings are what [xf/postings] (xf.clj:8-14) gives.  Only the fields which are
    used are modelled; a posting's other entries go unchanged into journal
    entries.  [cell/mark] (cell.clj:22-27), which tags maps for display, is left
    out.  A thrown exception is [None]. *)
From Coq Require Import Ascii QArith.
From stdpp Require Import prelude gmap strings.
From Verif Require Import DecModel LedgerTypes CljModel.

Record ccost := CCost {
  cc_date : date; cc_cur : string; cc_per_unit : cnum; cc_total : cnum;
  cc_label : option string; cc_merge : option bool }.
Record position := Position { pos_units : cnum; pos_cur : string; pos_cost : option ccost }.
Record cposting := CPosting {
  cp_date : option date; cp_payee : option string; cp_narration : option string;
  cp_flag : option string; cp_acc : string; cp_units : cnum; cp_cur : string; cp_cost : option ccost }.

(** The values of [:booking], spec.clj:48, are those of the type [booking]. *)

(** Keys of lots, inventory.clj:68-74 [position-key]; [None] is the empty vector. *)
Definition ckey := option (date * string * cnum * option string * option bool).
Definition position_key (p : position) : ckey :=
  match pos_cost p with
  | Some c => Some (cc_date c, cc_cur c, cc_per_unit c, cc_label c, cc_merge c)
  | None => None
  end.
(** [=] on keys. *)
Definition key_equiv (x y : ckey) : bool :=
  match x, y with
  | None, None => true
  | Some (d1, c1, u1, l1, m1), Some (d2, c2, u2, l2, m2) =>
      bool_decide (d1 = d2) && bool_decide (c1 = c2) && cn_equiv u1 u2 && bool_decide (l1 = l2) && bool_decide (m1 = m2)
  | _, _ => false
  end.

(** inventory.clj:16-27. *)
Definition compare_nil_first {A} (cmp : A → A → comparison) (x y : option A) : comparison :=
  match x, y with
  | None, None => Eq
  | None, Some _ => Lt
  | Some _, None => Gt
  | Some a, Some b => cmp a b
  end.
(** inventory.clj:29-37. *)
Definition different_or (c else_ : comparison) : comparison := match c with Eq => else_ | _ => c end.
(** inventory.clj:39-60 [compare-cost-keys]. *)
Definition compare_cost_keys (x y : ckey) : comparison :=
  match x, y with
  | None, None => Eq
  | None, Some _ => Lt
  | Some _, None => Gt
  | Some (d1, c1, u1, l1, m1), Some (d2, c2, u2, l2, m2) =>
      different_or (date_compare d1 d2)
        (different_or (str_compare c1 c2)
          (different_or (cn_compare u1 u2)
            (different_or (compare_nil_first str_compare l1 l2)
              (compare_nil_first bool_compare m1 m2))))
  end.

(** inventory.clj:62-67 [booking-rule]. *)
Inductive rule := RMerge | RAppend.
Definition booking_rule (m : booking) : option rule :=
  match m with
  | BStrict | BStrictWithSize | BFifo | BLifo | BHifo => Some RMerge
  | BNone => Some RAppend
  | BAverage => None
  end.

(** A map from lot keys, as a list of its entries: an entry keeps the key with
    which it was made. *)
Notation lots := (list (ckey * position)).
Definition lots_get (k : ckey) (m : lots) : option position :=
  match filter (λ e, key_equiv e.1 k = true) m with e :: _ => Some e.2 | [] => None end.
Fixpoint lots_assoc (k : ckey) (v : position) (m : lots) : lots :=
  match m with
  | [] => [(k, v)]
  | e :: m' => if key_equiv e.1 k then (e.1, v) :: m' else e :: lots_assoc k v m'
  end.

(** inventory.clj:80-112: the [:positions] of a single-currency accumulator. *)
Inductive sca := ScaMerge (m : lots) | ScaAppend (simple : option position) (at_cost : list position).
Definition new_sca (r : rule) : sca :=
  match r with RMerge => ScaMerge [] | RAppend => ScaAppend None [] end.
Definition add_units (p0 p1 : position) : option position :=
  (λ u, Position u (pos_cur p0) (pos_cost p0)) <$> cn_add (pos_units p0) (pos_units p1).
(** inventory.clj:76-78, 84-91, 99-106, 114-117. *)
Definition sca_accumulate (s : sca) (p1 : position) : option sca :=
  match s with
  | ScaMerge m =>
      let k := position_key p1 in
      match lots_get k m with
      | Some p0 => (λ p, ScaMerge (lots_assoc k p m)) <$> add_units p0 p1
      | None => Some (ScaMerge (lots_assoc k p1 m))
      end
  | ScaAppend simple at_cost =>
      match pos_cost p1 with
      | Some _ => Some (ScaAppend simple (at_cost ++ [p1]))
      | None =>
          match simple with
          | Some p0 => (λ p, ScaAppend (Some p) at_cost) <$> add_units p0 p1
          | None => Some (ScaAppend (Some p1) at_cost)
          end
      end
  end.

Section Inventory.
(** The order in which a hash map lists its entries. *)
Context (ho : list (ckey * position) → list (ckey * position)).

(** inventory.clj:92-97, 107-111, 119-121: what is passed to the reducing function.
    [(get positions k)] for the keys in order. *)
Definition sca_positions (s : sca) : list position :=
  match s with
  | ScaMerge m =>
      omap (λ k, lots_get k m) (sort_by compare_cost_keys ((λ e, e.1) <$> ho m))
  | ScaAppend simple at_cost => match simple with Some p => p :: at_cost | None => at_cost end
  end.

(** inventory.clj:123-138. *)
Record inv_acc := InvAcc { ia_rule : rule; ia_scas : gmap string sca }.
Definition accumulator (m : booking) : option inv_acc := (λ r, InvAcc r ∅) <$> booking_rule m.
Definition accumulate (i : inv_acc) (p : position) : option inv_acc :=
  let s := default (new_sca (ia_rule i)) (ia_scas i !! pos_cur p) in
  (λ s', InvAcc (ia_rule i) (<[pos_cur p := s']> (ia_scas i))) <$> sca_accumulate s p.

(** inventory.clj:140-154 [positions]. *)
Definition positions (i : inv_acc) : list position :=
  cur ← sort_strings ((λ e, e.1) <$> map_to_list (ia_scas i));
  match ia_scas i !! cur with
  | Some s => filter (λ p, cn_is_zero (pos_units p) = false) (sca_positions s)
  | None => []
  end.

Definition to_position (p : cposting) : position := Position (cp_units p) (cp_cur p) (cp_cost p).

(** inventory.clj:182-207 [build]. *)
Definition build_step (booking : string → booking) (m : gmap string inv_acc) (p : cposting)
    : option (gmap string inv_acc) :=
  i ← (match m !! cp_acc p with Some i => Some i | None => accumulator (booking (cp_acc p)) end);
  i' ← accumulate i (to_position p);
  Some (<[cp_acc p := i']> m).
Definition inventory_build (postings : list cposting) (booking : string → booking)
    : option (gmap string (list position)) :=
  (λ cumulated : gmap string inv_acc,
     omap (λ i, match positions i with [] => None | ps => Some ps end) cumulated)
  <$> fold_opt (build_step booking) ∅ postings.

(** journal.clj:9-32 [with-bal], [build]: postings without cost and the balance
    after each. *)
Definition without_cost (p : cposting) : cposting :=
  CPosting (cp_date p) (cp_payee p) (cp_narration p) (cp_flag p) (cp_acc p) (cp_units p) (cp_cur p) None.
Fixpoint journal_from (st : inv_acc) (ps : list cposting) : option (list (cposting * list position)) :=
  match ps with
  | [] => Some []
  | p :: ps' =>
      st' ← accumulate st (to_position (without_cost p));
      r ← journal_from st' ps';
      Some ((without_cost p, positions st') :: r)
  end.
Definition journal_build (ps : list cposting) : option (list (cposting * list position)) :=
  st ← accumulator BNone; journal_from st ps.
End Inventory.

(** inventory.clj:156-162 [positions->units-by-currency]: starts from [0M]. *)
Definition num_add_dec (a : dec) (b : cnum) : dec := dec_add a (cn_dec b).
Definition units_by_currency (ps : list position) : gmap string dec :=
  fold_left (λ r p, <[pos_cur p := num_add_dec (default dec_zero (r !! pos_cur p)) (pos_units p)]> r) ps ∅.
(** inventory.clj:164-168 [positions->currencies]. *)
Definition currencies_of (ps : list position) : list string :=
  sort_strings ((λ e, e.1) <$> map_to_list (units_by_currency ps)).
(** inventory.clj:170-175 [positions->units]. *)
Definition positions_units (ps : list position) : list (dec * string) :=
  omap (λ c, (λ u, (u, c)) <$> units_by_currency ps !! c) (currencies_of ps).
(** inventory.clj:177-180 [positions->units-of]. *)
Definition units_of (ps : list position) (cur : string) : dec :=
  default dec_zero (units_by_currency ps !! cur).
(** inventory.clj:209-217 [cur-freq]. *)
Definition cur_freq (inv : gmap string (list position)) : gmap string nat :=
  fold_left (λ m cur, <[cur := S (default 0 (m !! cur))]> m)
    (e ← map_to_list inv; currencies_of e.2) ∅.
