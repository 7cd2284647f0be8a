(** What plugins after booking do to the directives which the user sees: the
    specification of [AfterProps.v]. *)
From Coq Require Import Ascii QArith.
From stdpp Require Import prelude gmap strings.
From Verif Require Import DecModel LedgerTypes IsoModel CljModel InventoryModel InventorySpec ClientModel FormatModel PluginModel EditModel ViewSpec.

(** * Changes of what the user sees *)

(** A change: what becomes of a directive as the user sees it. *)
Notation change := (cdirective → list cdirective → Prop).
(** [l] is [ds] where each directive has been replaced by what becomes of it. *)
Definition changed (R : change) (ds l : list cdirective) : Prop :=
  ∃ parts, Forall2 R ds parts ∧ l = mjoin parts.
(** Several changes, one after the other. *)
Fixpoint changed_by (Rs : list change) (ds l : list cdirective) : Prop :=
  match Rs with
  | [] => l = ds
  | R :: Rs' => ∃ ds', changed R ds ds' ∧ changed_by Rs' ds' l
  end.

(** The directive stays as it is. *)
Definition kept : change := λ d ds, ds = [d].
(** After each open of one of these accounts there is a close of it, on the same
    date. *)
Definition closed_after (accs : list string) : change := λ d ds,
  (∃ a, cd_dct d = "open" ∧ cd_acc d = Some a ∧ a ∈ accs ∧
        ds = [d; CDirective "close" (cd_date d) (Some a) None None None None []]) ∨
  (¬ (cd_dct d = "open" ∧ ∃ a, cd_acc d = Some a ∧ a ∈ accs)) ∧ ds = [d].
(** Before each event there is another one, on the same date. *)
Definition announced : change := λ d ds,
  cd_dct d = "event" ∧ ds = [CDirective "event" (cd_date d) None None None None None []; d] ∨
  cd_dct d ≠ "event" ∧ ds = [d].
(** Postings to some accounts have units added to them. *)
Definition same_but_units (q q' : cposting) : Prop :=
  q' = CPosting (cp_date q) (cp_payee q) (cp_narration q) (cp_flag q) (cp_acc q) (cp_units q') (cp_cur q) (cp_cost q).
Definition posting_adjusted (adj : string → option Q) (q q' : cposting) : Prop :=
  match adj (cp_acc q) with
  | Some a => same_but_units q q' ∧ cn_value (cp_units q') == cn_value (cp_units q) + a
  | None => q' = q
  end.
Definition adjusted (adj : string → option Q) : change := λ d ds,
  ∃ ps, Forall2 (posting_adjusted adj) (cd_postings d) ps ∧
    ds = [CDirective (cd_dct d) (cd_date d) (cd_acc d) (cd_cur d) (cd_payee d) (cd_narration d) (cd_booking d) ps].

(** * What each plugin is to do *)

(** By its configuration.  A plugin which marks directives as failed changes nothing
    else of them. *)
Inductive alters : plugin_xf → change → Prop :=
| AIdentity : alters identity_plugin kept
| AFail config : alters (fail_plugin true config) kept
| AClose config accs : config ≫= vget "phase" = Some (VKw "booked") → config ≫= vget "accs" = Some (VSet (VStr <$> accs)) →
    alters (auto_close true config) (closed_after accs)
| ACloseOther config : config ≫= vget "phase" ≠ Some (VKw "booked") → alters (auto_close true config) kept
| AEvent : alters create_event announced
| AAdjust config adj :
    (∀ acc, match config ≫= vget acc with
            | Some (VNum n) => ∃ a, adj acc = Some a ∧ a == cn_value n
            | None | Some VNil | Some (VBool false) => adj acc = None
            | Some _ => False
            end) → alters (adjust_postings config) (adjusted adj).

(** Units cannot be added to a posting: what is to be added is no number, or both are
    whole numbers of 64 bits and their sum is none. *)
Definition not_addable (config : option cval) (q : cposting) : Prop :=
  ∃ x, config ≫= vget (cp_acc q) = Some x ∧ x ≠ VNil ∧ x ≠ VBool false ∧
    ∀ n, x = VNum n → ∃ y z, n = CLong y ∧ cp_units q = CLong z ∧ ¬ (- 2 ^ 63 ≤ y + z < 2 ^ 63)%Z.

(** * What the reports are to show *)

(** A change which adds or removes only directives which are neither transactions nor
    opens. *)
Definition of_reports (d : cdirective) : Prop := cd_dct d = "txn" ∨ cd_dct d = "open".
Global Instance of_reports_dec d : Decision (of_reports d).
Proof. unfold of_reports. apply _. Defined.
Definition quiet (R : change) : Prop := ∀ d ds, R d ds → filter of_reports ds = filter of_reports [d].
(** The changes add, in all, [t acc] to each posting to [acc]. *)
Inductive adds : list change → (string → Q) → Prop :=
| AddsNone : adds [] (λ _, 0%Q)
| AddsQuiet R Rs t : quiet R → adds Rs t → adds (R :: Rs) t
| AddsTo adj Rs t : adds Rs t → adds (adjusted adj :: Rs) (λ acc, default 0 (adj acc) + t acc)%Q.
(** The units of these entries in the currency, with [t acc] added to each. *)
Definition entry_units_with (t : string → Q) (cur : string) (es : list (citem * posting)) : Q :=
  qsum ((λ e, dec_value (p_units e.2) + t (p_acc e.2))%Q <$> filter (λ e, p_cur e.2 = cur) es).
