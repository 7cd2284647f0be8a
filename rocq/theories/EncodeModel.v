(** What the client sends: [cheshire/generate-string] of Clojure data, with the
    encoders of [clj/src/limabean/adapter/json.clj], as a JSON tree.

    Simplifications: numbers are exact decimals, however they are written; the text
    of a date is that of the server ([LocalDate/toString] agrees with it for years of
    four digits). *)
From Coq Require Import Ascii QArith.
From stdpp Require Import prelude gmap strings.
From Verif Require Import DecModel LedgerTypes IsoModel JsonModel WireModel CljModel InventoryModel ClientModel.

(** A map has one entry for each key. *)
Fixpoint distinct {A} (fs : list (string * A)) : list (string * A) :=
  match fs with
  | [] => []
  | kv :: fs' => if existsb (λ e, String.eqb e.1 kv.1) fs' then distinct fs' else kv :: distinct fs'
  end.

Section Encode.
(** The orders in which sets and maps are written. *)
Context (so : list json → list json) (mo : list (string * json) → list (string * json)).
(** Keywords are written by their name; json.clj:13-17 writes dates. *)
Fixpoint encode (v : cval) : json :=
  match v with
  | VNil => JNull
  | VBool b => JBool b
  | VNum n => JNum (cn_dec n)
  | VStr s => JStr s
  | VKw s => JStr s
  | VDate d => JStr (fmt_date d)
  | VThrow => JNull
  | VVec l => JArr (map encode l)
  | VSet l => JArr (so (map encode l))
  | VMap fs => JObj (mo (distinct (map (λ '(k, v), (k, encode v)) fs)))
  end.
End Encode.
