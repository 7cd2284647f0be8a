(** Model of [clj/src/limabean/core/cell.clj] and of the cells of positions
    (inventory.clj), journal entries (journal.clj) and roll-up entries (rollup.clj).

    Not modelled: cells of values other than inventories, positions, journals and
    roll-ups; the program which lays out cells (third-party crate [tabulator]). *)
From Coq Require Import Ascii QArith.
From stdpp Require Import prelude gmap strings pretty.
From Verif Require Import DecModel LedgerTypes IsoModel JsonModel JsonText WireModel CljModel InventoryModel RollupModel FormatModel.

(** cell.clj:5-18: [EMPTY], [stack], [row], [align-left], [anchored]. *)
Inductive cell :=
| CEmpty
| CStack (cells : list cell)
| CRow (cells : list cell) (gutter : string)
| CAligned (s : string)
| CAnchored (s : string) (i : Z).

(** cell.clj:6-7. *)
Definition space_minor : string := " ".
Definition space_medium : string := "  ".

(** [str/index-of] for one character. *)
Fixpoint index_of (c : ascii) (s : string) : option nat :=
  match s with
  | EmptyString => None
  | String x s' => if Ascii.eqb x c then Some 0 else S <$> index_of c s'
  end.

(** cell.clj:68 [::string], 86 [::nil]. *)
Definition str_cell (s : string) : cell := CAligned s.
Definition opt_cell {A} (f : A → cell) (o : option A) : cell := match o with Some x => f x | None => CEmpty end.
(** cell.clj:70 [::local-date]. *)
Definition date_cell (d : date) : cell := str_cell (fmt_date d).
(** cell.clj:72-76 [::number]. *)
Definition text_anchor (s : string) : Z :=
  let dp := match index_of "." s with
            | Some i => i
            | None => match index_of "/" s with Some i => i | None => String.length s end
            end in
  (Z.of_nat dp - 1)%Z.
Definition num_cell (n : cnum) : cell := CAnchored (num_text n) (text_anchor (num_text n)).
(** cell.clj:57-62 [::vector]. *)
Definition vec_cell (l : list cell) : cell :=
  match l with [] => CEmpty | [c] => c | _ => CStack l end.
(** cell.clj:51-55 [::map], for a map from strings; the keys are sorted. *)
Definition map_cell {A} (f : A → cell) (m : gmap string A) : cell :=
  CStack (omap (λ k, (λ v, CRow [str_cell k; f v] space_medium) <$> m !! k) (sort_strings ((λ e, e.1) <$> map_to_list m))).

(** inventory.clj:219-224 [cost->cell]. *)
Definition cost_cell (c : ccost) : cell :=
  CRow [date_cell (cc_date c); str_cell (cc_cur c); num_cell (cc_per_unit c); opt_cell str_cell (cc_label c);
        (match cc_merge c with Some true => str_cell "*" | _ => CEmpty end)] space_minor.
(** inventory.clj:226-232 [cell :position]. *)
Definition position_cell (p : position) : cell :=
  let units := CRow [num_cell (pos_units p); str_cell (pos_cur p)] space_minor in
  match pos_cost p with
  | Some c => CRow [units; cost_cell c] space_medium
  | None => CRow [units] space_medium
  end.
(** The cell of an inventory, as [show] makes it (show.clj:5-10). *)
Definition inventory_cell (inv : gmap string (list position)) : cell :=
  map_cell (λ ps, vec_cell (position_cell <$> ps)) inv.
(** journal.clj:33-38 [cell :journal/entry]. *)
Definition journal_entry_cell (e : cposting * list position) : cell :=
  let '(p, bal) := e in
  CRow [opt_cell date_cell (cp_date p); str_cell (cp_acc p); opt_cell str_cell (cp_payee p); opt_cell str_cell (cp_narration p);
        opt_cell str_cell (cp_flag p); num_cell (cp_units p); str_cell (cp_cur p); vec_cell (position_cell <$> bal)] space_medium.
Definition journal_cell (j : list (cposting * list position)) : cell := vec_cell (journal_entry_cell <$> j).
(** rollup.clj:70-82 [cell :rollup/entry]. *)
Definition rollup_entry_cell (e : entry) : cell :=
  CRow (opt_cell (λ u, num_cell (CDec u)) <$> entry_cells e) space_medium.
Definition rollup_cell (r : gmap string entry) : cell := map_cell rollup_entry_cell r.

(** tabulate.clj:5-10: what is sent to the tabulator. *)
Fixpoint cell_json (c : cell) : json :=
  match c with
  | CEmpty => JObj [("empty", JNull)]
  | CStack l => JObj [("stack", JArr (map cell_json l))]
  | CRow l g => JObj [("row", JArr [JArr (map cell_json l); JStr g])]
  | CAligned s => JObj [("aligned", JArr [JStr s; JStr "left"])]
  | CAnchored s i => JObj [("anchored", JArr [JStr s; JNum (Dec i 0)])]
  end.
