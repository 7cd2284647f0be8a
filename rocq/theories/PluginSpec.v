(** What a chain of plugins is to do, and how directives and spans belong together:
    the specification of [PluginProps.v], without objects and their identity. *)
From Coq Require Import Ascii QArith.
From stdpp Require Import prelude gmap strings.
From Verif Require Import DecModel LedgerTypes IsoModel JsonModel WireModel CljModel InventoryModel ClientModel FormatModel PluginModel.

(** A directive with an error. *)
Definition erroneous (d : cval) : bool :=
  match vget "err" d with None | Some VNil | Some (VBool false) => false | Some _ => true end.

(** The mark of a plugin: its name, and the phase if it is the booked phase, at the
    end of the provenance of the directive. *)
Definition mark (name : string) (booked : bool) (d : cval) : option cval :=
  let put (old : list cval) :=
    vassoc "provenance" (VVec (old ++ (if booked then [VKw "booked"] else []) ++ [VStr name])) d in
  match vget "provenance" d with
  | None | Some VNil => put []
  | Some (VVec old) => put old
  | Some _ => None
  end.

Section Chain.
Context (spec : cval → bool).
(** A new directive from a plugin: if it has no error it is marked and has to meet the
    specification. *)
Definition made (name : string) (booked : bool) (d : cval) : option cval :=
  if erroneous d then Some d
  else match mark name booked d with Some d' => if spec d' then Some d' else None | None => None end.
(** What leaves a plugin when it has received the directives [h]. *)
Definition leaves (name : string) (booked : bool) (h : list cval) (es : option (list emission)) : option (list cval) :=
  match es with
  | None => None
  | Some es => mjoin <$> mapM (λ e, match e with
                                     | Pass j => Some (option_list (h !! j))
                                     | Emit d => (λ d', [d']) <$> made name booked d
                                     end) es
  end.
(** The beginnings of a list, from one element on. *)
Definition beginnings (ds : list cval) : list (list cval) := (λ n, take (S n) ds) <$> seq 0 (length ds).
(** One plugin, given all of [ds]. *)
Definition through (booked : bool) (p : string * plugin_xf) (ds : list cval) : option (list cval) :=
  match mapM (λ h, leaves p.1 booked h (px_step p.2 h)) (beginnings ds), leaves p.1 booked ds (px_done p.2 ds) with
  | Some outs, Some last => Some (mjoin outs ++ last)
  | _, _ => None
  end.
(** One plugin after the other. *)
Fixpoint chain (booked : bool) (ps : list (string * plugin_xf)) (ds : list cval) : option (list cval) :=
  match ps with
  | [] => Some ds
  | p :: ps' => match through booked p ds with Some ds' => chain booked ps' ds' | None => None end
  end.
(** All directives are looked at first. *)
Definition acceptable (ds : list cval) : bool := forallb (λ d, erroneous d || spec d) ds.
End Chain.

(** The plugins of one phase, in order. *)
Definition of_phase (booked : bool) (ps : list plugin) : list (string * plugin_xf) :=
  omap (λ p, (λ xf, (pl_name p, xf)) <$> (if booked then pl_booked p else pl_raw p)) ps.

(** The provenance of a directive. *)
Definition provenance_of (d : cval) : list cval :=
  match vget "provenance" d with Some (VVec l) => l | _ => [] end.

(** A plugin which only passes directives on, each when it is received. *)
Definition passive : plugin_xf :=
  PluginXf (λ h, Some [Pass (pred (length h))]) (λ _, Some []).
(** A plugin which gives [d'] instead of each [d] for which [f d = Some d']. *)
Definition replacing (f : cval → option cval) : plugin_xf :=
  PluginXf (λ h, match last h with
                 | Some d => match f d with Some d' => Some [Emit d'] | None => Some [Pass (pred (length h))] end
                 | None => Some []
                 end) (λ _, Some []).

(** * Spans *)

Definition is_map (v : cval) : bool := match v with VMap _ => true | _ => false end.
(** A directive is a map and so are its postings. *)
Definition well_shaped (d : cval) : bool := is_map d && forallb is_map (vpostings d).
(** [d'] is [d] with its own span and one for each posting. *)
Definition with_spans (d : cval) (g : list cval) (d' : cval) : Prop :=
  match g with
  | [] => False
  | s :: ss =>
      vget "span-p" d' = Some s ∧
      Forall3 (λ p s p', vget "span-p" p' = Some s ∧ ∀ f, f ≠ "span-p" → vget f p' = vget f p)
        (vpostings d) ss (vpostings d') ∧
      ∀ f, f ≠ "span-p" → f ≠ "postings" → vget f d' = vget f d
  end.
(** What a directive is to receive: if it is marked its own spans, else none. *)
Definition spans_given (d : cval) (g : list cval) (d' : cval) : Prop :=
  if marked d then with_spans d g d' else d' = d ∧ g = [].
(** The plugins, and the phase, which a directive came through. *)
Definition came_from (d : cval) (names : list string) : Prop :=
  ∃ l, vget "provenance" d = Some (VVec l) ∧ Forall2 (λ v t, v = VStr t ∨ ∃ k, v = VKw k ∧ t = ":" +:+ k) l names.
