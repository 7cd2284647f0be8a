(** Plugins of several kinds, one after the other: the specification of [MixProps.v]. *)
From Coq Require Import Ascii QArith.
From stdpp Require Import prelude gmap strings.
From Verif Require Import DecModel LedgerTypes IsoModel JsonModel WireModel CljModel InventoryModel ClientModel FormatModel PluginModel PluginSpec EncodeModel
  AutoModel AutoLedgerSpec EditModel EditSpec.

(** What becomes of a ledger as a whole. *)
Notation turn := (list directive → list directive → Prop).
Fixpoint turned_by (Ts : list turn) (ds l : list directive) : Prop :=
  match Ts with
  | [] => l = ds
  | T :: Ts' => ∃ ds', T ds ds' ∧ turned_by Ts' ds' l
  end.
(** Before a posting to an account there is an open of it. *)
Definition opened_first (l : list directive) : Prop :=
  ∀ k d a, l !! k = Some d → posting_to d a → ∃ i e, i < k ∧ l !! i = Some e ∧ opening_of e a.

(** What each plugin is to do. *)
Section Turns.
Context (dp : string → option dec) (jso : list json → list json) (jmo : list (string * json) → list (string * json)).
Inductive turns : plugin_xf → turn → Prop :=
| TEdit xf R : edits dp jso jmo xf R → turns xf (edited R)
| TFail config cs : config ≫= vget "phase" = Some (VKw "raw") → config ≫= vget "matching" = Some (VMap (configured <$> cs)) →
    turns (fail_plugin false config) (edited unchanged)
| TAuto : turns auto_accounts opens_filled_in.
End Turns.
