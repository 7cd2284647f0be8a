(** What opening accounts automatically is to achieve: the specification of
    [AutoProps.v]. *)
From Coq Require Import Ascii QArith Sorted.
From stdpp Require Import prelude gmap strings.
From Verif Require Import DecModel LedgerTypes JsonModel WireModel CljModel InventoryModel InventorySpec ClientModel FormatModel PluginModel PluginSpec.

(** Directive [d] opens account [a]. *)
Definition opens (d : cval) (a : string) : Prop := vget "dct" d = Some (VKw "open") ∧ vget "acc" d = Some (VStr a).
(** Directive [d] is a transaction with a posting to account [a]. *)
Definition posts_to (d : cval) (a : string) : Prop :=
  vget "dct" d = Some (VKw "txn") ∧ ∃ ps p, vget "postings" d = Some (VVec ps) ∧ p ∈ ps ∧ vget "acc" p = Some (VStr a).
(** Each posting of a transaction names its account. *)
Definition accounts_named (d : cval) : Prop :=
  vget "dct" d = Some (VKw "txn") → ∀ ps p, vget "postings" d = Some (VVec ps) → p ∈ ps → ∃ a, vget "acc" p = Some (VStr a).

(** [o] opens account [a] for directive [d], on the same date, with the metadata
    [auto:] and the mark of the plugin; there is nothing else in it. *)
Definition opened_for (plugin : string) (d : cval) (a : string) (o : cval) : Prop :=
  opens o a ∧ vget "date" o = Some (default VNil (vget "date" d)) ∧
  vget "metadata" o = Some (VMap [("auto", VNil)]) ∧ vget "provenance" o = Some (VVec [VStr plugin]) ∧
  ∀ k, k ∉ ["dct"; "date"; "acc"; "metadata"; "provenance"] → vget k o = None.
(** [os] opens those accounts of directive [i] which no directive before it opens or
    posts to, each once and in the order of their names. *)
Definition opens_missing (plugin : string) (ds : list cval) (i : nat) (d : cval) (os : list cval) : Prop :=
  ∃ accs, Forall2 (opened_for plugin d) accs os ∧ StronglySorted before accs ∧
    ∀ a, a ∈ accs ↔ posts_to d a ∧ ∀ j e, j < i → ds !! j = Some e → ¬ opens e a ∧ ¬ posts_to e a.
(** [out] is [ds] with such opens before each directive. *)
Definition with_opens (plugin : string) (ds out : list cval) : Prop :=
  ∃ opened, length opened = length ds ∧ out = mjoin (zip_with (λ os d, os ++ [d]) opened ds) ∧
    ∀ i d os, ds !! i = Some d → opened !! i = Some os → opens_missing plugin ds i d os.

(** What a plugin passes on of all of [ds]. *)
Definition passed_on (p : plugin_xf) (ds : list cval) : option (list cval) :=
  let given (h : list cval) (e : emission) := match e with Pass j => option_list (h !! j) | Emit d => [d] end in
  match mapM (λ h, (λ es, es ≫= given h) <$> px_step p h) (beginnings ds), px_done p ds with
  | Some outs, Some es => Some (mjoin outs ++ (es ≫= given ds))
  | _, _ => None
  end.
