(** Model of [clj/src/limabean/adapter/loader.clj], of the methods of
    [adapter/pod.clj] and of the resolution of plugins of [adapter/plugins.clj].

    Not modelled: dumping of directives for debugging, metadata which gives the type of
    values ([type/directives]), warnings (the server sends none, see [ServerModel.v])
    and the registry (see [ClientModel.v]). *)
From Coq Require Import Ascii QArith.
From stdpp Require Import prelude gmap strings.
From Verif Require Import DecModel LedgerTypes IsoModel JsonModel WireModel CljModel InventoryModel ClientModel FormatModel PluginModel.

(** * The pod *)

Inductive pod_request :=
| RPlugins | ROptions | RDirectives
| RBook (ds : option (list cval))
| RSpans (rs : list (string * string)).
(** What comes back: pod.clj:58-67 [invoke], the result and the error if they count as
    true; a pod which is no longer there gives neither. *)
Record answer := Answer { a_ok : option cval; a_err : option cval }.
(** pod.clj:79-87 [map-error]. *)
Inductive failure := FSpanned (data : option cval) | FIndexed (data : option cval) | FMessage (m : option cval).
Definition failure_of (e : cval) : failure :=
  match vget "code" e with
  | Some (VNum (CLong 2)) => FSpanned (vget "data" e)
  | Some (VNum (CLong 3)) => FIndexed (vget "data" e)
  | _ => FMessage (vget "message" e)
  end.
Definition spanned_of (f : option failure) : option cval := match f with Some (FSpanned d) => d | _ => None end.
Definition indexed_of (f : option failure) : option cval := match f with Some (FIndexed d) => d | _ => None end.

(** * Plugins *)

(** A namespace: its functions [booked-xf] and [raw-xf], which are called with the
    configuration and the options and may throw, or return nil. *)
Definition xf_fn := option cval → option cval → option (option plugin_xf).
Record namespace := Namespace { ns_booked : option xf_fn; ns_raw : option xf_fn }.

(** [(str/replace name #"_" "-")]. *)
Definition ns_name (name : string) : string := replace_char "_" "-" name.

Section Load.
(** The namespaces which can be required. *)
Context (env : string → option namespace).
(** [limabean-edn/read-string]: [None] if it throws. *)
Context (read_config : option cval → option (option cval)).
Context (code : nat → nat) (spec : bool → cval → bool) (so : list cval → list cval).
(** The answers of the pod; they may depend on what was asked before. *)
Context (ask : list pod_request → pod_request → answer).

(** plugins.clj:6-21 [resolve-xfs], 23-36 [resolve-xfs-with-config'], 38-44. *)
Definition resolve_plugin (options : option cval) (p : cval) : plugin :=
  let name := match vget "name" p with Some (VStr s) => s | _ => "" end in
  let failed m := Plugin name None None (Some m) in
  match env (ns_name name) with
  | None => failed "could not load namespace for plugin"
  | Some n =>
      match ns_booked n, ns_raw n with
      | None, None => failed "Failed to find either booked-xf or raw-xf in plugin"
      | b, r =>
          match read_config (vget "config" p) with
          | None => failed "Error resolving config"
          | Some c =>
              let call (f : option xf_fn) : option (option plugin_xf) :=
                match f with None => Some None | Some f => f c options end in
              match call b, call r with
              | Some b', Some r' => Plugin name r' b' None
              | _, _ => failed "Error resolving config"
              end
          end
      end
  end.

(** * Loading *)

Inductive plugins_error := PeDirectives (ds : list cval) | PeThrown.
Inductive booking_error := BeReports (rs : list creport) | BeThrown.
Inductive load_error :=
| LePlugins (ps : list plugin)
| LeParser (reports : option cval)
| LeRaw (e : plugins_error)
| LeBooking (e : booking_error)
| LeBooked (e : plugins_error).
(** The map which is threaded through the stages. *)
Record loaded := Loaded {
  l_plugins : list plugin; l_options : option cval;
  l_raw : option (list cval); l_raw_xf : option (list cval);
  l_booked : option (list cval); l_booked_xf : option (list cval);
  l_directives : option (list cval);
  l_error : option load_error;
  (** What was asked of the pod. *)
  l_asked : list pod_request }.
Definition start : loaded := Loaded [] None None None None None None None [].
Definition asked (m : loaded) (r : pod_request) : loaded :=
  Loaded (l_plugins m) (l_options m) (l_raw m) (l_raw_xf m) (l_booked m) (l_booked_xf m) (l_directives m) (l_error m) (l_asked m ++ [r]).
Definition fail_with (m : loaded) (e : load_error) : loaded :=
  Loaded (l_plugins m) (l_options m) (l_raw m) (l_raw_xf m) (l_booked m) (l_booked_xf m) (l_directives m) (Some e) (l_asked m).
Definition vec (v : option cval) : list cval := match v with Some (VVec l) => l | _ => [] end.

(** loader.clj:25-40 [get-plugins-and-options]. *)
Definition get_plugins_and_options (m : loaded) : option loaded :=
  let a := ask (l_asked m) RPlugins in
  let m1 := asked m RPlugins in
  match a_err a, a_ok a with
  | None, Some ok =>
      let options := match a_err (ask (l_asked m1) ROptions) with None => a_ok (ask (l_asked m1) ROptions) | Some _ => None end in
      let m2 := asked m1 ROptions in
      let ps := resolve_plugin options <$> vec (Some ok) in
      let m3 := Loaded ps options (l_raw m2) (l_raw_xf m2) (l_booked m2) (l_booked_xf m2) (l_directives m2) (l_error m2) (l_asked m2) in
      match filter (λ p, is_Some (pl_err p)) ps with
      | [] => Some m3
      | bad => Some (fail_with m3 (LePlugins bad))
      end
  | e, _ => Some (fail_with m1 (LeParser (spanned_of (failure_of <$> e))))
  end.

(** loader.clj:42-50 [get-raw-directives]: throws if there are none. *)
Definition get_raw_directives (m : loaded) : option loaded :=
  let a := ask (l_asked m) RDirectives in
  let m1 := asked m RDirectives in
  match a_err a, a_ok a with
  | None, Some ok =>
      Some (Loaded (l_plugins m1) (l_options m1) (Some (vec (vget "directives" ok))) (l_raw_xf m1) (l_booked m1)
              (l_booked_xf m1) (l_directives m1) (l_error m1) (l_asked m1))
  | _, _ => None
  end.

(** What the pod returns for synthetic spans, pod.clj:115-118, 72-77 [ok-or-throw]. *)
Definition create_spans (h : list pod_request) (rs : list (string * string)) : option (list cval) :=
  match a_err (ask h (RSpans rs)) with Some _ => None | None => Some (vec (a_ok (ask h (RSpans rs)))) end.

(** loader.clj:52-89 [run-plugins]. *)
Definition run_phase (booked : bool) (m : loaded) : option loaded :=
  let ps := l_plugins m in
  if negb (has_plugins ps booked) then Some m
  else
    let ds := default [] (if booked then l_booked m else l_raw m) in
    let wrap := if booked then LeBooked else LeRaw in
    match run_plugins code (spec booked) ps booked ds with
    | None => Some (fail_with m (wrap PeThrown))
    | Some out =>
        let m1 := match span_requests so out with
                  | Some (r :: rs) => asked m (RSpans (r :: rs))
                  | _ => m
                  end in
        match merge_with_provenance so (create_spans (l_asked m)) out with
        | None => Some (fail_with m1 (wrap PeThrown))
        | Some xs =>
            let m2 := Loaded (l_plugins m1) (l_options m1) (l_raw m1) (if booked then l_raw_xf m1 else Some xs)
                        (l_booked m1) (if booked then Some xs else l_booked_xf m1) (l_directives m1) (l_error m1) (l_asked m1) in
            match filter (λ d, truthy (vget "err" d) = true) xs with
            | [] => Some m2
            | bad => Some (fail_with m2 (wrap (PeDirectives bad)))
            end
        end
    end.

(** loader.clj:91-93 [merge-span-and-provenance]. *)
Definition merge_field (k : string) (from into : cval) : option cval :=
  match vget k from with Some v => vassoc k v into | None => Some into end.
Definition merge_span_and_provenance (booked raw : cval) : option cval :=
  a ← merge_field "span" raw booked; b ← merge_field "span-p" raw a; merge_field "provenance" raw b.
(** [(get v i)] for a vector and what should be an index. *)
Definition vnth (l : list cval) (i : option cval) : option cval :=
  match i with
  | Some (VNum (CLong z)) => if (0 <=? z)%Z then l !! Z.to_nat z else None
  | _ => None
  end.
(** [merge] with nil. *)
Definition or_nil (v : option cval) : cval := default VNil v.
(** loader.clj:95-110 [resolve-directives-from-raw]. *)
Definition resolve_directive (raw : list cval) (b : cval) : option cval :=
  let r := or_nil (vnth raw (vget "idx" b)) in
  b1 ← merge_span_and_provenance b r;
  match vget "postings" b with
  | Some (VVec ps) =>
      ps' ← mapM (λ p, merge_span_and_provenance p (or_nil (vnth (vpostings r) (vget "idx" p)))) ps;
      vassoc "postings" (VVec ps') b1
  | None | Some VNil | Some (VBool false) => Some b1
  | Some _ => None
  end.

(** loader.clj:112-115 [dct-name]; [(name nil)] throws. *)
Definition dct_name (d : cval) : option string :=
  match vget "dct" d with
  | Some (VKw "txn") => Some "transaction"
  | Some (VKw k) => Some k
  | Some (VStr s) => Some s
  | _ => None
  end.
(** loader.clj:117-130 [resolve-report-idx]: description, span and context. *)
Record located := Located { lo_description : option string; lo_span : option cval; lo_context : option (list cval) }.
Definition resolve_idx (raw : list cval) (idx : option cval) : option located :=
  let (di, pi) := match idx with Some (VVec l) => (l !! 0, l !! 1) | _ => (None, None) end in
  let dct := vnth raw di in
  let d := or_nil dct in
  let dspan := either "span" "span-p" d in
  let pst := vnth (vpostings d) pi in
  let p := or_nil pst in
  let pspan := either "span" "span-p" p in
  base ← (match pst, dct with
          | Some _, _ => Some (Some "posting")
          | None, Some d => n ← dct_name d; Some (Some n)
          | None, None => Some None
          end);
  desc ← (if truthy (vget "provenance" d) && (truthy (vget "span" p) || truthy (vget "span" d))
          then n ← join_provenance d; Some (Some (default "" base +:+ ", modified by " +:+ n))
          else Some base);
  Some (Located desc (match pspan with Some s => Some s | None => dspan end)
          (match pst with Some _ => Some [VStr "txn"; default VNil dspan] | None => None end)).
Definition vstr (o : option string) : cval := match o with Some s => VStr s | None => VNil end.
(** loader.clj:132-154 [resolve-report-related], [resolve-report-from-raw]. *)
Definition resolve_report (raw : list cval) (r : cval) : option creport :=
  l ← resolve_idx raw (vget "idx" r);
  related ← (match vget "related" r with
             | Some (VVec rs) =>
                 xs ← mapM (λ i, x ← resolve_idx raw (Some i);
                                 Some (VVec [vstr (lo_description x); default VNil (lo_span x)])) rs;
                 Some (Some xs)
             | None | Some VNil | Some (VBool false) => Some None
             | Some _ => None
             end);
  Some (CReport (Some (VStr ("invalid " +:+ default "" (lo_description l)))) (vget "reason" r) (lo_span l)
          (vget "annotation" r) (lo_context l) related).

(** loader.clj:156-178 [book-raw-directives].  The reports are made when they are
    printed ([map] is lazy); that they are made here is a simplification. *)
Definition book_raw_directives (m : loaded) : option loaded :=
  let r := RBook (l_raw_xf m) in
  let a := ask (l_asked m) r in
  let m1 := asked m r in
  let raw := match l_raw_xf m with Some ds => ds | None => default [] (l_raw m) end in
  match a_err a, a_ok a with
  | None, Some ok =>
      match mapM (resolve_directive raw) (vec (vget "directives" ok)) with
      | Some ds =>
          Some (Loaded (l_plugins m1) (l_options m1) (l_raw m1) (l_raw_xf m1) (Some ds) (l_booked_xf m1) (l_directives m1)
                  (l_error m1) (l_asked m1))
      | None => Some (fail_with m1 (LeBooking BeThrown))
      end
  | e, _ =>
      match mapM (resolve_report raw) (vec (indexed_of (failure_of <$> e))) with
      | Some rs => Some (fail_with m1 (LeBooking (BeReports rs)))
      | None => Some (fail_with m1 (LeBooking BeThrown))
      end
  end.

(** loader.clj:191-193: the directives for the user. *)
Definition final_directives (m : loaded) : option loaded :=
  let ds := match l_booked_xf m with Some x => x | None => default [] (l_booked m) end in
  Some (Loaded (l_plugins m) (l_options m) (l_raw m) (l_raw_xf m) (l_booked m) (l_booked_xf m) (Some ds) (l_error m) (l_asked m)).

(** macros.clj:3-10 [bind->]. *)
Fixpoint bind_stages (stages : list (loaded → option loaded)) (m : loaded) : option loaded :=
  match stages with
  | [] => Some m
  | f :: fs => match l_error m with Some _ => Some m | None => m' ← f m; bind_stages fs m' end
  end.
(** loader.clj:180-195 [load-beanfile]. *)
Definition load : option loaded :=
  bind_stages [get_plugins_and_options; get_raw_directives; run_phase false; book_raw_directives; run_phase true; final_directives] start.
End Load.
