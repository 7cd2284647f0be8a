(** What an inventory and a journal are, said without the accumulators. *)
From Coq Require Import Ascii QArith.
From stdpp Require Import prelude gmap strings.
From Verif Require Import DecModel LedgerTypes CljModel InventoryModel.

Fixpoint qsum (l : list Q) : Q := match l with [] => 0 | x :: l' => x + qsum l' end.

(** Units posted to an account in a currency. *)
Definition posted (acc cur : string) (ps : list cposting) : Q :=
  qsum ((λ p, cn_value (cp_units p)) <$> filter (λ p, cp_acc p = acc ∧ cp_cur p = cur) ps).
(** Units held in a currency. *)
Definition held (cur : string) (l : list position) : Q :=
  qsum ((λ p, cn_value (pos_units p)) <$> filter (λ p, pos_cur p = cur) l).
(** The positions of an account. *)
Definition holding (inv : gmap string (list position)) (acc : string) : list position :=
  default [] (inv !! acc).

(** The same number, and both written without a point or both with. *)
Definition same_number (a b : cnum) : Prop := is_dec a = is_dec b ∧ cn_value a == cn_value b.
(** The same cost. *)
Definition same_cost (a b : option ccost) : Prop :=
  match a, b with
  | None, None => True
  | Some x, Some y =>
      cc_date x = cc_date y ∧ cc_cur x = cc_cur y ∧ same_number (cc_per_unit x) (cc_per_unit y) ∧
      cc_label x = cc_label y ∧ cc_merge x = cc_merge y
  | _, _ => False
  end.
Global Instance Qeq_decision (a b : Q) : Decision (a == b) := Qeq_dec a b.
Global Instance same_number_dec a b : Decision (same_number a b).
Proof. unfold same_number. destruct (decide (is_dec a = is_dec b)), (Qeq_dec (cn_value a) (cn_value b)); [left|right..]; tauto. Defined.
Global Instance same_cost_dec a b : Decision (same_cost a b).
Proof. destruct a, b; unfold same_cost; apply _. Defined.
(** Costs which agree when numbers are compared by value. *)
Definition equal_cost (a b : option ccost) : Prop :=
  match a, b with
  | None, None => True
  | Some x, Some y =>
      cc_date x = cc_date y ∧ cc_cur x = cc_cur y ∧ cn_value (cc_per_unit x) == cn_value (cc_per_unit y) ∧
      cc_label x = cc_label y ∧ cc_merge x = cc_merge y
  | _, _ => False
  end.

(** Units posted to an account in a currency at a cost. *)
Definition posted_at (acc cur : string) (cost : option ccost) (ps : list cposting) : Q :=
  qsum ((λ p, cn_value (cp_units p)) <$>
    filter (λ p, cp_acc p = acc ∧ cp_cur p = cur ∧ same_cost (cp_cost p) cost) ps).

Global Instance equal_cost_dec a b : Decision (equal_cost a b).
Proof. destruct a, b; unfold equal_cost; apply _. Defined.
(** The same where costs are compared by value. *)
Definition posted_equal (acc cur : string) (cost : option ccost) (ps : list cposting) : Q :=
  qsum ((λ p, cn_value (cp_units p)) <$>
    filter (λ p, cp_acc p = acc ∧ cp_cur p = cur ∧ equal_cost (cp_cost p) cost) ps).
(** Whether the price per unit is written with a point. *)
Definition cost_kind (c : option ccost) : option bool := (λ c, is_dec (cc_per_unit c)) <$> c.

(** The methods under which lots are merged, and the one under which they are kept
    apart. *)
Definition merges (m : booking) : bool :=
  match m with BStrict | BStrictWithSize | BFifo | BLifo | BHifo => true | _ => false end.
Definition keeps_apart (m : booking) : bool := match m with BNone => true | _ => false end.

(** One position with these units if they are not zero, else none. *)
Definition one_unless_zero (units : Q) (l : list position) : Prop :=
  (units == 0 ∧ l = []) ∨ (¬ units == 0 ∧ ∃ p, l = [p] ∧ cn_value (pos_units p) == units).

(** Alphabetical order, by the codes of the characters. *)
Fixpoint before (a b : string) : Prop :=
  match a, b with
  | _, EmptyString => False
  | EmptyString, String _ _ => True
  | String x a', String y b' => (N_of_ascii x < N_of_ascii y)%N ∨ (x = y ∧ before a' b')
  end.
Definition earlier (a b : date) : Prop :=
  (date_year a < date_year b)%Z ∨ (date_year a = date_year b ∧
    ((date_month a < date_month b)%Z ∨ (date_month a = date_month b ∧ (date_day a < date_day b)%Z))).
(** Nothing, then the values in order. *)
Definition absent_first {A} (lt : A → A → Prop) (a b : option A) : Prop :=
  match a, b with None, Some _ => True | Some x, Some y => lt x y | _, None => False end.
(** Strictly before, going by date, currency, price per unit, label and merge. *)
Definition cheaper (a b : ccost) : Prop :=
  earlier (cc_date a) (cc_date b) ∨ (cc_date a = cc_date b ∧
   (before (cc_cur a) (cc_cur b) ∨ (cc_cur a = cc_cur b ∧
     ((cn_value (cc_per_unit a) < cn_value (cc_per_unit b))%Q ∨ (cn_value (cc_per_unit a) == cn_value (cc_per_unit b) ∧
       (absent_first before (cc_label a) (cc_label b) ∨ (cc_label a = cc_label b ∧
         absent_first (λ x y, x = false ∧ y = true) (cc_merge a) (cc_merge b)))))))).
Definition position_before (a b : position) : Prop :=
  before (pos_cur a) (pos_cur b) ∨ (pos_cur a = pos_cur b ∧ absent_first cheaper (pos_cost a) (pos_cost b)).

(** The whole numbers posted to an account in a currency, taken as positive, add up to
    less than 2^63. *)
Definition whole (n : cnum) : Z := match n with CLong z => Z.abs z | _ => 0%Z end.
Fixpoint zsum (l : list Z) : Z := match l with [] => 0%Z | x :: l' => (x + zsum l')%Z end.
Definition in_range (acc cur : string) (ps : list cposting) : Prop :=
  (zsum ((λ p, whole (cp_units p)) <$> filter (λ p, cp_acc p = acc ∧ cp_cur p = cur) ps) < 2 ^ 63)%Z.
Definition in_range_all (cur : string) (ps : list cposting) : Prop :=
  (zsum ((λ p, whole (cp_units p)) <$> filter (λ p, cp_cur p = cur) ps) < 2 ^ 63)%Z.

(** The first [n] postings summed in one currency. *)
Definition running (cur : string) (ps : list cposting) : Q :=
  qsum ((λ p, cn_value (cp_units p)) <$> filter (λ p, cp_cur p = cur) ps).
