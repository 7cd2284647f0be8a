(** What tables are to show. *)
From Coq Require Import Ascii QArith.
From stdpp Require Import prelude gmap strings.
From Verif Require Import DecModel LedgerTypes WireModel WireSpec CljModel InventoryModel RollupModel.

(** What is to be seen of a cost: all but its total.  Numbers are seen with their
    digits: 5 and 5.00 look different, an integer and a decimal of scale 0 do not. *)
Definition shown_cost (c : ccost) : date * string * dec * option string * bool :=
  (cc_date c, cc_cur c, cn_dec (cc_per_unit c), cc_label c, match cc_merge c with Some true => true | _ => false end).
Definition shown_position (p : position) : dec * string * option (date * string * dec * option string * bool) :=
  (cn_dec (pos_units p), pos_cur p, shown_cost <$> pos_cost p).
Definition shown_positions (ps : list position) := shown_position <$> ps.
(** Of an entry of a journal. *)
Definition shown_entry (e : cposting * list position) :=
  (cp_date e.1, cp_acc e.1, cp_payee e.1, cp_narration e.1, cp_flag e.1, cn_dec (cp_units e.1), cp_cur e.1, shown_positions e.2).
(** Dates of a position, of an entry: years which are written with four digits. *)
Definition position_dated (p : position) : Prop := match pos_cost p with Some c => ok_date (cc_date c) | None => True end.
Definition entry_dated (e : cposting * list position) : Prop :=
  match cp_date e.1 with Some d => ok_date d | None => True end ∧ Forall position_dated e.2.
