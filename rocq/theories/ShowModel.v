(** Model of [show]: [clj/src/limabean/adapter/show.clj], [adapter/tabulate.clj],
    [adapter/shell.clj], the rest of [core/cell.clj], and [limabean-pod tabulate]
    ([rust/src/bin/limabean-pod/main.rs], [errors.rs]).

    Not modelled: how the third-party crate [tabulator] lays out a cell ([layout]), what
    serde says about text it cannot read ([complaint]), and values marked with
    [:cell/type] other than those of [CellModel.v]. *)
From Coq Require Import Ascii QArith.
From stdpp Require Import prelude gmap strings pretty.
From Verif Require Import DecModel LedgerTypes IsoModel JsonModel JsonText WireModel BookModel SpanModel ParserModel ServerModel CljModel InventoryModel ClientModel
  RollupModel FormatModel PluginModel LoaderModel EncodeModel ReadModel SystemModel UserModel CellModel.

(** cell.clj:46-49 [try-sort], for what is in a set: strings are sorted, and so are
    keywords.  Simplification: sets of other values are left in their order, which is
    what happens if they cannot be compared. *)
Definition sort_name (v : cval) : option (bool * string) :=
  match v with VStr s => Some (false, s) | VKw k => Some (true, k) | _ => None end.
Definition named (kw : bool) (v : cval) : bool :=
  match sort_name v with Some (b, _) => Bool.eqb b kw | None => false end.
Definition name_of (v : cval) : string := match sort_name v with Some (_, s) => s | None => "" end.
Definition try_sort {A} (l : list (cval * A)) : list (cval * A) :=
  if forallb (λ x, named false x.1) l || forallb (λ x, named true x.1) l
  then sort_by (λ x y, str_compare (name_of x.1) (name_of y.1)) l else l.
(** cell.clj:30-86 [cell], for unmarked values; keywords are sorted by their names.
    Simplifications: a map is taken not to have the same key twice; [VThrow] is no
    value. *)
Fixpoint value_cell (v : cval) : cell :=
  match v with
  | VNil | VThrow => CEmpty
  | VBool b => str_cell (if b then "true" else "false")
  | VNum n => num_cell n
  | VStr s => str_cell s
  | VKw k => str_cell (":" +:+ k)
  | VDate d => date_cell d
  | VVec l => vec_cell (map value_cell l)
  | VSet l => vec_cell ((try_sort (map (λ x, (x, value_cell x)) l)).*2)
  | VMap fs =>
      CStack ((λ kc, CRow [str_cell (":" +:+ kc.1); kc.2] space_medium) <$>
        sort_by (λ x y, str_compare x.1 y.1) (map (λ kv, (kv.1, value_cell kv.2)) fs))
  end.

(** What [Cell::from_json] of [tabulator] makes of JSON, main.rs:75: enums as serde has
    them, with the names of their variants in lower case; an anchor is not negative.
    Simplification: of alignments only [left]. *)
Fixpoint get_cell (j : json) : option cell :=
  match j with
  | JObj [(k, v)] =>
      if String.eqb k "empty" then match v with JNull => Some CEmpty | _ => None end
      else if String.eqb k "stack" then match v with JArr l => CStack <$> mapM get_cell l | _ => None end
      else if String.eqb k "row" then
        match v with JArr [JArr l; JStr g] => (λ cs, CRow cs g) <$> mapM get_cell l | _ => None end
      else if String.eqb k "aligned" then
        match v with JArr [JStr s; JStr a] => if String.eqb a "left" then Some (CAligned s) else None | _ => None end
      else if String.eqb k "anchored" then
        match v with JArr [JStr s; JNum (Dec i 0)] => if (0 <=? i)%Z then Some (CAnchored s i) else None | _ => None end
      else None
  | _ => None
  end.

(** What is left of a process which has ended. *)
Record ended_proc := EndedProc { ep_out : string; ep_err : string; ep_exit : Z }.

Section Show.
Context (utf8 : string → bool) (depth : nat) (layout : cell → string) (complaint : string → string).

(** main.rs:57-82 [main], [tabulate]; errors.rs:9-24. *)
Definition tabulate (input : string) : ended_proc :=
  let failed why := EndedProc "" ("limabean-pod " +:+ why +:+ ServerModel.line_end) 1 in
  if utf8 input then
    match parse_json depth input ≫= get_cell with
    | Some c => EndedProc (layout c +:+ ServerModel.line_end) "" 0
    | None => failed ("JSON decode error: " +:+ complaint input +:+ ServerModel.line_end +:+ input)
    end
  else failed "unexpected error stream did not contain valid UTF-8".

(** Whether the program is found, and if not why. *)
Context (found : option string).
(** shell.clj:4-13 [try-sh] of [limabean-pod tabulate]. *)
Definition try_sh (input : string) : string + exn :=
  match found with
  | Some why => inr (Exn ["limabean-podexception"] (Some (why +:+ ServerModel.line_end)))
  | None =>
      let p := tabulate input in
      if (ep_exit p =? 0)%Z then inl (ep_out p) else inr (Exn ["limabean-podfailed"] (Some (ep_err p)))
  end.
(** tabulate.clj:5-10 [render]. *)
Definition render (c : cell) : string + exn := try_sh (generate_string (cell_json c)).
(** show.clj:5-10 [show]: what it prints, and whether it returns. *)
Definition show (c : cell) : string * outcome :=
  match render c with inl t => (t, Returned) | inr e => ("", Threw e) end.
End Show.
