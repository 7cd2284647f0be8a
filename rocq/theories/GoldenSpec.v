(** What golden tests are for: the specification of [GoldenProps.v]. *)
From Coq Require Import Ascii QArith.
From stdpp Require Import prelude gmap strings.
From Verif Require Import DecModel LedgerTypes IsoModel JsonModel CljModel InventoryModel ClientModel FormatModel PluginModel LoaderModel EdnModel ReadSpec EdnSpec GoldenModel.
Local Open Scope nat_scope.

(** * Which tests there are *)

(** The beginning of a path, up to a slash; a name without slashes. *)
Definition folder (d : string) : Prop := d = "" ∨ ∃ d', d = d' +:+ "/".
Definition no_slash : string → Prop := every (λ c, c ≠ "/"%char).
(** The ledger [n.beancount] is tested by what is in [n.golden] beside it. *)
Definition is_test (path : string) (t : golden_test) : Prop :=
  ∃ d n, folder d ∧ no_slash n ∧ n ≠ "" ∧ path = d +:+ n +:+ ".beancount" ∧ (¬ ∃ m, n = m +:+ ".fyi") ∧
    t = GoldenTest n path (d +:+ n +:+ ".golden").
(** A file with no name before the dot. *)
Definition nameless (path : string) : Prop := ∃ d, folder d ∧ path = d +:+ ".beancount".

(** * What is expected *)

Section Match.
(** [finds re s]: the pattern is found in the string.  [elements v]: what a vector is
    compared with if it is compared with [v]. *)
Context (finds : string → string → Prop) (elements : edn → option (list edn)).
(** What a strict matcho pattern is the pattern of: whatever is equal to it; strings in which a
    regular expression is found; for vectors, as many elements which are of the patterns
    in it; for maps, the same keys with values which are of the patterns in it. *)
Inductive alike : edn → edn → Prop :=
| K_equal p x : equal p x → alike p x
| K_regex re s : finds re s → alike (ERegex re) (EStr s)
| K_vector ps x xs : elements x = Some xs → Forall2 alike ps xs → alike (EVec ps) x
| K_map ps xs : length ps = length xs → Forall (λ kp, Exists (λ kx, equal kp.1 kx.1 ∧ alike kp.2 kx.2) xs) ps →
    alike (EMap ps) (EMap xs).
End Match.

(** What there is under a key of what was loaded; [nil] if there is nothing. *)
Inductive at_key : option beans → string → edn → Prop :=
| K_none k : at_key None k ENil
| K_raw b : at_key (Some b) "raw-xf-directives" (default ENil (be_raw_xf b))
| K_directives b : at_key (Some b) "directives" (default ENil (be_directives b))
| K_error b : at_key (Some b) "error" (default ENil (be_error b)).
Definition keys : list string := ["raw-xf-directives"; "directives"; "error"].
(** Equal in all that is tested. *)
Definition equal_beans (b b' : beans) : Prop :=
  option_Forall2 equal (be_raw_xf b) (be_raw_xf b') ∧ option_Forall2 equal (be_directives b) (be_directives b') ∧
  option_Forall2 equal (be_error b) (be_error b').

(** * What is written *)

(** Of each query, the expression which shows it. *)
Inductive query : string → string → Prop :=
| U_inventory : query "inventory" "(show (inventory))"
| U_rollup : query "rollup" "(show (rollup (inventory)))"
| U_journal : query "journal" "(show (journal))".
(** The names of the files which may be written in a golden directory. *)
Definition golden_names : list string :=
  ["directives.edn"; "directives.fyi.beancount"; "raw-xf-directives.edn"; "raw-xf-directives.fyi.beancount";
   "inventory"; "rollup"; "journal"; "error.edn"].
(** What is there of the test was not written for a ledger which had an error if this
    one has none, or the other way round. *)
Definition not_stale (fs : files) (t : golden_test) (b : beans) : Prop :=
  match be_error b with
  | None => fs !! (gt_dir t +:+ "/error.edn") = None
  | Some _ => ∀ name, name ∈ golden_names → name ≠ "error.edn" → fs !! (gt_dir t +:+ "/" +:+ name) = None
  end.
