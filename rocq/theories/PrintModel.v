(** Model of how the client prints and dumps directives:
    [clj/src/limabean/core/type.clj], [clj/src/limabean/adapter/print.clj],
    [clj/src/limabean/adapter/debug.clj] and the dumping in
    [clj/src/limabean/adapter/loader.clj]. *)
From Coq Require Import Ascii QArith.
From stdpp Require Import prelude gmap strings.
From Verif Require Import DecModel LedgerTypes IsoModel JsonModel CljModel InventoryModel ClientModel FormatModel PluginModel LoaderModel.

(** A value with the [:type] of its metadata; other metadata is left out. *)
Record typed (A : Type) := Typed { ty_kind : option string; ty_value : A }.
Arguments Typed {_}. Arguments ty_kind {_}. Arguments ty_value {_}.

(** core/type.clj:3-6 [type-as]. *)
Definition type_as {A} (kind : string) (x : typed A) : typed A :=
  if decide (ty_kind x = Some kind) then x else Typed (Some kind) (ty_value x).
(** core/type.clj:8-12 [directives]; what is given as a list is made a vector, which has
    no type yet. *)
Definition type_directives (ds : list (typed cval)) : typed (list (typed cval)) :=
  type_as "limabean/directives" (Typed None (type_as "limabean/dct" <$> ds)).

Section Print.
Context (so : list cval → list cval).
(** The texts with a line end between each two, print.clj:15-16, debug.clj:17-18:
    [(interpose "\n" (map format/directive->str directives))]. *)
Definition directives_text (ds : list cval) : option string :=
  String.concat line_end <$> mapM (directive_text so) ds.

(** adapter/print.clj:9-11, [print-method] for a directive.  How Clojure prints a value
    of any other type is not modelled. *)
Definition print_directive (x : typed cval) : option string :=
  if decide (ty_kind x = Some "limabean/dct") then directive_text so (ty_value x) else None.
(** adapter/print.clj:13-16, [print-method] for directives. *)
Definition print_directives (x : typed (list (typed cval))) : option string :=
  if decide (ty_kind x = Some "limabean/directives") then directives_text (ty_value <$> ty_value x) else None.

(** * Dumps *)

(** [.getName] of a [java.io.File]: what comes after the last slash.  A path with slashes
    at its end is left out. *)
Fixpoint file_name_from (acc s : string) : string :=
  match s with
  | EmptyString => acc
  | String c s' => if Ascii.eqb c "/" then file_name_from "" s' else file_name_from (acc +:+ String c "") s'
  end.
Definition file_name (path : string) : string := file_name_from "" path.
(** loader.clj:20: [(str/replace name #"\.[^.]*$" "")], without the last dot and what
    comes after it. *)
Fixpoint dotted (s : string) : bool := match s with EmptyString => false | String c s' => Ascii.eqb c "." || dotted s' end.
Fixpoint strip_extension (s : string) : string :=
  match s with
  | EmptyString => EmptyString
  | String c s' => if Ascii.eqb c "." && negb (dotted s') then EmptyString else String c (strip_extension s')
  end.
(** loader.clj:21: [(str/replace (name k) #"-directives$" "")]. *)
Fixpoint strip_directives (s : string) : string :=
  if String.eqb s "-directives" then EmptyString
  else match s with EmptyString => EmptyString | String c s' => String c (strip_directives s') end.
(** loader.clj:18-22. *)
Definition dump_name (path k : string) : string :=
  strip_extension (file_name path) +:+ "." +:+ strip_directives k +:+ ".beancount".

(** loader.clj:15-23 [dump] and debug.clj:9-24 [dump]: the name of the file below
    $LIMABEAN_DEBUG_DIR, and what is written.  [None] is an exception, of which there is
    a warning; what has been written until then is left out. *)
Definition dump (path k : string) (ds : list cval) : string * option string := (dump_name path k, directives_text ds).
(** What is written, in this order, while the ledger at [path] is loaded, if
    $LIMABEAN_DEBUG_DIR is defined: loader.clj:49 by [get-raw-directives], loader.clj:77
    by [run-plugins :raw], loader.clj:171 by [book-raw-directives], loader.clj:77 by
    [run-plugins :booked].  Each stage dumps what it has put into the map, or in the case
    of [run-plugins] what it has taken from it; later stages keep it, so [m] is the map in
    the end. *)
Definition load_dumps (path : string) (m : loaded) : list (string * option string) :=
  match l_raw m with Some ds => [dump path "raw-directives" ds] | None => [] end ++
  match l_raw_xf m with Some _ => [dump path "raw-directives" (default [] (l_raw m))] | None => [] end ++
  match l_booked m with Some ds => [dump path "booked-directives" ds] | None => [] end ++
  match l_booked_xf m with Some _ => [dump path "booked-directives" (default [] (l_booked m))] | None => [] end.
(** The files in the end: a later one replaces an earlier one of that name. *)
Definition files_of (ws : list (string * option string)) : gmap string (option string) :=
  foldl (λ fs w, <[w.1 := w.2]> fs) ∅ ws.
End Print.
