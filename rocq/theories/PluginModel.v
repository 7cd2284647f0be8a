(** Model of [clj/src/limabean/adapter/plugins.clj],
    [adapter/synthetic_spans.clj], [util.clj], [plugin.clj] and of
    [dct-errors->reports] of [adapter/error.clj]. *)
From Coq Require Import Ascii QArith.
From stdpp Require Import prelude gmap strings.
From Verif Require Import DecModel LedgerTypes IsoModel JsonModel WireModel CljModel InventoryModel ClientModel FormatModel.

(** [assoc]. *)
Fixpoint fields_assoc (k : string) (v : cval) (fs : list (string * cval)) : list (string * cval) :=
  match fs with
  | [] => [(k, v)]
  | kv :: fs' => if String.eqb kv.1 k then (k, v) :: filter (λ e, e.1 ≠ k) fs' else kv :: fields_assoc k v fs'
  end.
Definition vassoc (k : string) (v : cval) (m : cval) : option cval :=
  match m with
  | VMap fs => Some (VMap (fields_assoc k v fs))
  | VNil => Some (VMap [(k, v)])
  | _ => None
  end.

(** * Plugins *)

(** A transducer, as far as it can be observed: for the directives received so far,
    what it passes on in answer to the last one, and what it passes on at the end.
    It may pass on a directive which it has received, that is the same object, or a
    new one.  [None] is an exception.  A transducer which ends the reduction early
    ([reduced]) is one which passes nothing on from then on. *)
Inductive emission := Pass (j : nat) | Emit (d : cval).
Record plugin_xf := PluginXf {
  px_step : list cval → option (list emission);
  px_done : list cval → option (list emission) }.

(** A resolved plugin, plugins.clj:6-44: its name, and its transducers or an
    error. *)
Record plugin := Plugin {
  pl_name : string; pl_raw : option plugin_xf; pl_booked : option plugin_xf; pl_err : option string }.

(** Objects and their identity. *)
Record obj := Obj { o_id : nat; o_val : cval }.
(** The identity of the next object, and the hash codes in [known-directives]. *)
Record glob := Glob { g_next : nat; g_known : gset nat }.

(** [(contains? existing phase)], plugins.clj:80: [existing] is a vector, the keys of
    which are its indices. *)
Definition vec_contains (l : list cval) (k : cval) : bool :=
  match k with
  | VNum (CLong z) => (0 <=? z)%Z && (z <? Z.of_nat (length l))%Z
  | _ => false
  end.
(** plugins.clj:72-81 [provenance-tagf]; [phase] is whether the phase is named. *)
Definition provenance_tag (name : string) (phase : bool) (d : cval) : option cval :=
  match vget "provenance" d with
  | None | Some VNil => Some []
  | Some (VVec l) => Some l
  | Some _ => None
  end ≫= λ existing,
  let l := if phase && negb (vec_contains existing (VKw "booked")) then existing ++ [VKw "booked"] else existing in
  vassoc "provenance" (VVec (l ++ [VStr name])) d.

Section Chain.
(** [System/identityHashCode] of an object. *)
Context (code : nat → nat).
(** Whether a directive meets the specification, spec.clj. *)
Context (spec : cval → bool).

(** plugins.clj:51-70 [tag-and-validate-unseen], the step; without a tag the function
    [tagf] is the identity. *)
Definition tag_step (tag : option (string * bool)) (o : obj) (g : glob) : option (obj * glob) :=
  if truthy (vget "err" (o_val o)) then Some (o, g)
  else if bool_decide (code (o_id o) ∈ g_known g) then Some (o, g)
  else
    r ← (match tag with
         | None => Some (o, g)
         | Some (name, phase) =>
             v ← provenance_tag name phase (o_val o);
             Some (Obj (g_next g) v, Glob (S (g_next g)) (g_known g))
         end);
    if spec (o_val r.1) then Some (r.1, Glob (g_next r.2) ({[code (o_id r.1)]} ∪ g_known r.2)) else None.

(** The stages of the composed transducer. *)
Inductive stage := Tagger (tag : option (string * bool)) | Plug (p : plugin_xf).

(** What a plugin passes on, as objects. *)
Definition emitted (h : list obj) (e : emission) (g : glob) : option obj * glob :=
  match e with
  | Pass j => (h !! j, g)
  | Emit d => (Some (Obj (g_next g) d), Glob (S (g_next g)) (g_known g))
  end.

(** The state: for each stage the objects it has received. *)
Notation state := (list (list obj)).
Notation result := (option (state * glob * list obj)).

Fixpoint emit_all (next : state → glob → obj → result) (h : list obj) (es : list emission) (hs : state) (g : glob) : result :=
  match es with
  | [] => Some (hs, g, [])
  | e :: es' =>
      let (x, g1) := emitted h e g in
      match x with
      | None => emit_all next h es' hs g1
      | Some o =>
          r1 ← next hs g1 o;
          let '(hs1, g2, out1) := r1 in
          r2 ← emit_all next h es' hs1 g2;
          let '(hs2, g3, out2) := r2 in
          Some (hs2, g3, out1 ++ out2)
      end
  end.
(** One directive goes through all stages before the next, as transducers do,
    plugins.clj:83-96, 103-113. *)
Fixpoint feed (sts : list stage) (hs : state) (g : glob) (o : obj) : result :=
  match sts, hs with
  | [], _ => Some (hs, g, [o])
  | Tagger t :: sts', hs =>
      r ← tag_step t o g;
      x ← feed sts' (tail hs) r.2 r.1;
      let '(hs1, g1, out) := x in Some (hd [] hs :: hs1, g1, out)
  | Plug p :: sts', hs =>
      let h := hd [] hs ++ [o] in
      es ← px_step p (o_val <$> h);
      x ← emit_all (feed sts') h es (tail hs) g;
      let '(hs1, g1, out) := x in Some (h :: hs1, g1, out)
  end.
Fixpoint feed_list (sts : list stage) (hs : state) (g : glob) (os : list obj) : result :=
  match os with
  | [] => Some (hs, g, [])
  | o :: os' =>
      r1 ← feed sts hs g o;
      let '(hs1, g1, out1) := r1 in
      r2 ← feed_list sts hs1 g1 os';
      let '(hs2, g2, out2) := r2 in
      Some (hs2, g2, out1 ++ out2)
  end.
(** The completion: each stage may pass on more, and then completes the next. *)
Fixpoint finish (sts : list stage) (hs : state) (g : glob) : option (list obj) :=
  match sts with
  | [] => Some []
  | Tagger _ :: sts' => finish sts' (tail hs) g
  | Plug p :: sts' =>
      let h := hd [] hs in
      es ← px_done p (o_val <$> h);
      r ← emit_all (feed sts') h es (tail hs) g;
      let '(hs1, g1, out) := r in
      out' ← finish sts' hs1 g1;
      Some (out ++ out')
  end.

Definition select (booked : bool) (p : plugin) : option plugin_xf := if booked then pl_booked p else pl_raw p.
(** plugins.clj:83-96 [compose-and-wrap-resolved-plugins]. *)
Definition stages_of (ps : list plugin) (booked : bool) : list stage :=
  Tagger None :: (p ← ps; match select booked p with Some xf => [Plug xf; Tagger (Some (pl_name p, booked))] | None => [] end).
(** The directives as objects. *)
Definition objects (ds : list cval) : list obj := imap Obj ds.
(** plugins.clj:103-113 [run-plugins-of-kind]. *)
Definition run_plugins (ps : list plugin) (booked : bool) (ds : list cval) : option (list cval) :=
  let sts := stages_of ps booked in
  r ← feed_list sts (replicate (length sts) []) (Glob (length ds) ∅) (objects ds);
  let '(hs, g, out) := r in
  out' ← finish sts hs g;
  Some (o_val <$> out ++ out').
End Chain.
(** plugins.clj:98-101 [has-specified-plugins?]. *)
Definition has_plugins (ps : list plugin) (booked : bool) : bool :=
  existsb (λ p, match select booked p with Some _ => true | None => false end) ps.

(** plugin.clj:9-15 [dct-error!]. *)
Definition dct_error (ns message : string) (d : cval) : option cval :=
  match vget "err" d with
  | None | Some VNil => Some []
  | Some (VVec l) => Some l
  | Some _ => None
  end ≫= λ l, vassoc "err" (VVec (l ++ [VMap [("message", VStr message); ("plugin", VStr ns)]])) d.

(** * Synthetic spans *)

Section Spans.
Context (so : list cval → list cval).
(** [(str/join " " provenance)]. *)
Definition join_provenance (d : cval) : option string :=
  match vget "provenance" d with
  | Some (VVec l) => String.concat " " <$> mapM (λ v, str_text (Some v)) l
  | _ => None
  end.
Definition marked (d : cval) : bool := truthy (vget "provenance" d).
(** synthetic_spans.clj:7-21 [create-with-provenance], the requests: name and
    content. *)
Definition span_requests_of (d : cval) : option (list (string * string)) :=
  if marked d then
    match join_provenance d, element_texts so d with
    | Some n, Some ts => Some (map (λ t, ("Synthetic directive from " +:+ n, t)) ts)
    | _, _ => None
    end
  else Some [].
Definition span_requests (ds : list cval) : option (list (string * string)) :=
  mjoin <$> mapM span_requests_of ds.

(** synthetic_spans.clj:23-26 [n-spans]. *)
Definition n_spans (d : cval) : nat := if marked d then S (length (vpostings d)) else 0.

(** util.clj:16-29 [map-n]. *)
Fixpoint map_n {A B} (num_f : A → nat) (f : A → list B → option A) (l : list A) (xs : list B) : option (list A) :=
  match l with
  | [] => Some []
  | a :: l' =>
      let n := num_f a in
      if (n =? 0)%nat then r ← map_n num_f f l' xs; Some (a :: r)
      else a' ← f a (take n xs); r ← map_n num_f f l' (drop n xs); Some (a' :: r)
  end.
(** synthetic_spans.clj:34-42: [mapv] stops at the end of the shorter. *)
Definition merge_spans (d : cval) (spans : list cval) : option cval :=
  d1 ← vassoc "span-p" (default VNil (head spans)) d;
  match tail spans with
  | [] => Some d1
  | rest =>
      ps ← mapM (λ '(p, s), vassoc "span-p" s p) (zip (vpostings d) rest);
      vassoc "postings" (VVec ps) d1
  end.
(** synthetic_spans.clj:28-44 [merge-with-provenance]; [create] is what the server
    answers, pod.clj:115-118. *)
Definition merge_with_provenance (create : list (string * string) → option (list cval)) (ds : list cval)
    : option (list cval) :=
  rs ← span_requests ds;
  spans ← (match rs with [] => Some [] | _ => create rs end);
  match spans with [] => Some ds | _ => map_n n_spans merge_spans ds spans end.
End Spans.

(** * Errors of plugins *)

(** A report as the client sends it. *)
Record creport := CReport {
  cr_message : option cval; cr_reason : option cval; cr_span : option cval; cr_annotation : option cval;
  cr_context : option (list cval); cr_related : option (list cval) }.
(** error.clj:21-31 [dct-errors->reports].  Line 28 looks [:span-p] up in the keyword
    [:dct], not in the directive, as it is done here. *)
Definition dct_errors_reports (ds : list cval) : list creport :=
  d ← ds;
  e ← (match vget "err" d with Some (VVec l) => l | _ => [] end);
  [CReport (vget "plugin" e) (vget "message" e) (either "span-p" "span" d) None None
     (if truthy (vget "span" d) && truthy (vget "span-p" (VKw "dct"))
      then Some [VVec [VStr "source"; default VNil (vget "span" d)]] else None)].
