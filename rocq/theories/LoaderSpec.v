(** What loading a ledger is to do: the specification of [LoaderProps.v]. *)
From Coq Require Import Ascii QArith.
From stdpp Require Import prelude gmap strings.
From Verif Require Import DecModel LedgerTypes IsoModel JsonModel WireModel CljModel InventoryModel ClientModel FormatModel PluginModel PluginSpec LoaderModel.

(** The result in an answer, if it is not an error. *)
Definition result_of (a : answer) : option cval := match a_err a with None => a_ok a | Some _ => None end.

(** At most one request, for synthetic spans. *)
Definition maybe_spans (l : list pod_request) : Prop := l = [] ∨ ∃ rs, l = [RSpans rs].

(** How a phase of plugins fails: something is thrown and there is no output, or some
    directives of the output have an error and these are given. *)
Definition phase_failed (e : plugins_error) (out : option (list cval)) : Prop :=
  match e with
  | PeThrown => out = None
  | PeDirectives bad => ∃ xs, out = Some xs ∧ bad = List.filter erroneous xs ∧ bad ≠ []
  end.
(** How it succeeds: there are no plugins for it, or no directive of its output has an
    error. *)
Definition phase_passed (booked : bool) (ps : list plugin) (out : option (list cval)) : Prop :=
  (of_phase booked ps = [] ∧ out = None) ∨
  (of_phase booked ps ≠ [] ∧ ∃ xs, out = Some xs ∧ Forall (λ d, erroneous d = false) xs).
(** All plugins are usable. *)
Definition resolved (ps : list plugin) : Prop := Forall (λ p, pl_err p = None) ps.

(** What is there to be seen after loading has failed or succeeded, and what was asked
    of the pod. *)
Definition parsing_failed (m : loaded) : Prop :=
  l_asked m = [RPlugins] ∧ l_plugins m = [] ∧
  l_raw m = None ∧ l_raw_xf m = None ∧ l_booked m = None ∧ l_booked_xf m = None ∧ l_directives m = None.
Definition resolution_failed (m : loaded) (bad : list plugin) : Prop :=
  l_asked m = [RPlugins; ROptions] ∧
  bad ≠ [] ∧ (∀ p, p ∈ bad ↔ p ∈ l_plugins m ∧ is_Some (pl_err p)) ∧
  l_raw m = None ∧ l_raw_xf m = None ∧ l_booked m = None ∧ l_booked_xf m = None ∧ l_directives m = None.
Definition raw_failed (m : loaded) (e : plugins_error) : Prop :=
  (∃ sp, l_asked m = [RPlugins; ROptions; RDirectives] ++ sp ∧ maybe_spans sp) ∧
  resolved (l_plugins m) ∧ is_Some (l_raw m) ∧ phase_failed e (l_raw_xf m) ∧
  l_booked m = None ∧ l_booked_xf m = None ∧ l_directives m = None.
Definition booking_failed (m : loaded) : Prop :=
  (∃ sp, l_asked m = [RPlugins; ROptions; RDirectives] ++ sp ++ [RBook (l_raw_xf m)] ∧ maybe_spans sp) ∧
  resolved (l_plugins m) ∧ is_Some (l_raw m) ∧ phase_passed false (l_plugins m) (l_raw_xf m) ∧
  l_booked m = None ∧ l_booked_xf m = None ∧ l_directives m = None.
Definition booked_failed (m : loaded) (e : plugins_error) : Prop :=
  (∃ sp sp', l_asked m = [RPlugins; ROptions; RDirectives] ++ sp ++ [RBook (l_raw_xf m)] ++ sp' ∧
             maybe_spans sp ∧ maybe_spans sp') ∧
  resolved (l_plugins m) ∧ is_Some (l_raw m) ∧ phase_passed false (l_plugins m) (l_raw_xf m) ∧
  is_Some (l_booked m) ∧ phase_failed e (l_booked_xf m) ∧ l_directives m = None.
Definition succeeded (m : loaded) : Prop :=
  (∃ sp sp', l_asked m = [RPlugins; ROptions; RDirectives] ++ sp ++ [RBook (l_raw_xf m)] ++ sp' ∧
             maybe_spans sp ∧ maybe_spans sp') ∧
  resolved (l_plugins m) ∧ is_Some (l_raw m) ∧ phase_passed false (l_plugins m) (l_raw_xf m) ∧
  is_Some (l_booked m) ∧ phase_passed true (l_plugins m) (l_booked_xf m) ∧
  l_directives m = (match l_booked_xf m with Some x => Some x | None => l_booked m end).
Definition outcome_shown (m : loaded) : Prop :=
  match l_error m with
  | Some (LeParser _) => parsing_failed m
  | Some (LePlugins bad) => resolution_failed m bad
  | Some (LeRaw e) => raw_failed m e
  | Some (LeBooking _) => booking_failed m
  | Some (LeBooked e) => booked_failed m e
  | None => succeeded m
  end.

(** * Tracing to the source *)

(** [new] is [old] except that it has the span, synthetic span and provenance of
    [from], where that has them. *)
Definition traced (from old new : cval) : Prop :=
  (∀ k, k = "span" ∨ k = "span-p" ∨ k = "provenance" →
     vget k new = match vget k from with Some v => Some v | None => vget k old end) ∧
  ∀ k, k ≠ "span" → k ≠ "span-p" → k ≠ "provenance" → k ≠ "postings" → vget k new = vget k old.
(** The directive or posting with the number given under [idx]. *)
Definition numbered (l : list cval) (b : cval) : cval :=
  match vget "idx" b with
  | Some (VNum (CLong z)) => if (0 <=? z)%Z then default VNil (l !! Z.to_nat z) else VNil
  | _ => VNil
  end.
Definition traced_directive (raw : list cval) (b b' : cval) : Prop :=
  traced (numbered raw b) b b' ∧
  Forall2 (λ p p', traced (numbered (vpostings (numbered raw b)) p) p p' ∧ vget "postings" p' = vget "postings" p)
    (vpostings b) (vpostings b').

(** * Plugins *)

(** The name under which the ledger asks for a plugin. *)
Definition named (p : cval) : string := match vget "name" p with Some (VStr s) => s | _ => "" end.

Section Resolve.
Context (env : string → option namespace) (read_config : option cval → option (option cval)).
Context (options : option cval).
(** A plugin can be used: its namespace can be loaded, has one of the two functions,
    its configuration can be read, and what it has of the two functions does not
    throw for this configuration and the options. *)
Definition usable (p : cval) : Prop :=
  ∃ n c, env (replace_char "_" "-" (named p)) = Some n ∧ (ns_raw n ≠ None ∨ ns_booked n ≠ None) ∧
    read_config (vget "config" p) = Some c ∧
    (∀ f, ns_raw n = Some f ∨ ns_booked n = Some f → is_Some (f c options)).
(** [q] is [p] with what its functions give. *)
Definition resolved_as (p : cval) (q : plugin) : Prop :=
  pl_name q = named p ∧ pl_err q = None ∧
  ∃ n c, env (replace_char "_" "-" (named p)) = Some n ∧ read_config (vget "config" p) = Some c ∧
    (match ns_raw n with Some f => f c options = Some (pl_raw q) | None => pl_raw q = None end) ∧
    (match ns_booked n with Some f => f c options = Some (pl_booked q) | None => pl_booked q = None end).
End Resolve.
