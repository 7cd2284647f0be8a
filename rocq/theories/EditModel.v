(** Model of the plugins of [clj/test-plugins/src/limabean/test/plugins/], which the
    examples of [examples/beancount] and the cases of [test-cases] name.

    [assoc] returns the same map if the value is the same object; it is taken to be a
    new one here, but for sets of tags.  The difference is whether a directive which
    stays as it is is marked. *)
From Coq Require Import Ascii QArith.
From stdpp Require Import prelude gmap strings.
From Verif Require Import DecModel LedgerTypes IsoModel JsonModel WireModel CljModel InventoryModel ClientModel FormatModel PluginModel.

(** What the step of such a plugin passes on: the directive itself or a new one. *)
Inductive item := Same | New (d : cval).
(** A transducer the step of which looks at the directive only; init and completion do
    nothing, for example identity.clj:3-13. *)
Definition stepwise (f : cval → option (list item)) : plugin_xf :=
  PluginXf (λ h, match last h with
                 | None => Some []
                 | Some d => map (λ e, match e with Same => Pass (pred (length h)) | New d' => Emit d' end) <$> f d
                 end) (λ _, Some []).

(** [=] on keywords, strings and other simple values.  Simplification: collections are
    taken to differ. *)
Definition simple_eq (a b : cval) : bool :=
  match a, b with
  | VNil, VNil => true
  | VBool x, VBool y => Bool.eqb x y
  | VStr x, VStr y | VKw x, VKw y => String.eqb x y
  | VNum x, VNum y => cn_equiv x y
  | VDate x, VDate y => match date_compare x y with Eq => true | _ => false end
  | _, _ => false
  end.
(** [dissoc]. *)
Definition vdissoc (k : string) (m : cval) : option cval :=
  match m with
  | VNil => Some VNil
  | VMap fs => Some (VMap (filter (λ e, e.1 ≠ k) fs))
  | _ => None
  end.
(** [(or (:k config) v)]. *)
Definition config_or (k : string) (v : cval) (config : option cval) : cval :=
  default v (config ≫= vget_true k).

(** identity.clj:3-13 [raw-xf], 15-25 [booked-xf]. *)
Definition identity_plugin : plugin_xf := stepwise (λ _, Some [Same]).

(** set_narration.clj:3-18 [raw-xf]. *)
Definition set_narration_step (narration : cval) (d : cval) : option (list item) :=
  if is_txn d then (λ d', [New d']) <$> vassoc "narration" narration d else Some [Same].
Definition set_narration (config : option cval) : plugin_xf :=
  stepwise (set_narration_step (config_or "narration" (VStr "unspecified in config") config)).

(** [(= (select-keys dct keys) matching)], tag_matching.clj:18, fail.clj:19. *)
Definition matches (matching : list (string * cval)) (d : cval) : bool :=
  forallb (λ kv, match vget kv.1 d with Some w => simple_eq w kv.2 | None => false end) matching.
Definition config_matching (config : option cval) : list (string * cval) :=
  match config ≫= vget_true "matching" with Some (VMap fs) => fs | _ => [("unmatched", VBool true)] end.
(** tag_matching.clj:19, [(conj (or % #{}) tag)]; [None] within is the same set. *)
Definition conj_tag (tag : cval) (tags : option cval) : option (option cval) :=
  match tags with
  | None | Some VNil | Some (VBool false) => Some (Some (VSet [tag]))
  | Some (VSet l) => Some (if existsb (simple_eq tag) l then None else Some (VSet (l ++ [tag])))
  | Some (VVec l) => Some (Some (VVec (l ++ [tag])))
  | Some _ => None
  end.
(** tag_matching.clj:4-21 [raw-xf]. *)
Definition tag_matching_step (matching : list (string * cval)) (tag : cval) (d : cval) : option (list item) :=
  if matches matching d then
    match conj_tag tag (vget "tags" d) with
    | None => None
    | Some None => Some [Same]
    | Some (Some ts) => (λ d', [New d']) <$> vassoc "tags" ts d
    end
  else Some [Same].
Definition tag_matching (config : option cval) : plugin_xf :=
  stepwise (tag_matching_step (config_matching config) (config_or "tag" (VStr "auto-tag") config)).

(** [merge].  Simplification: what is merged is a map or nil. *)
Definition vmerge (m : option cval) (n : cval) : option cval :=
  match n, m with
  | VNil, _ => Some (default VNil m)
  | VMap fs, (None | Some VNil) => Some n
  | VMap fs, Some (VMap old) => Some (VMap (foldl (λ m kv, fields_assoc kv.1 kv.2 m) old fs))
  | _, _ => None
  end.
(** set_metadata.clj:3-17 [raw-xf]; the configuration has for kinds of directives what
    is to be added. *)
Definition set_metadata_step (config : option cval) (d : cval) : option (list item) :=
  match vget "dct" d, config with
  | Some (VKw kind), Some c =>
      match vget kind c with
      | Some new => m ← vmerge (vget "metadata" d) new; (λ d', [New d']) <$> vassoc "metadata" m d
      | None => Some [Same]
      end
  | _, _ => Some [Same]
  end.
Definition set_metadata (config : option cval) : plugin_xf := stepwise (set_metadata_step config).

(** duplicate_txns.clj:16-20. *)
Definition duplicate_of (d : cval) : option cval :=
  d1 ← vdissoc "span" d;
  ps ← (match vget "postings" d1 with
        | None | Some VNil => Some []
        | Some (VVec l) => mapM (vdissoc "span") l
        | Some _ => None
        end);
  d2 ← vassoc "postings" (VVec ps) d1;
  m ← vassoc "dup" VNil (default VNil (vget "metadata" d2));
  vassoc "metadata" m d2.
(** duplicate_txns.clj:3-22 [raw-xf]. *)
Definition duplicate_txns_step (d : cval) : option (list item) :=
  if is_txn d then (λ d', [New d'; Same]) <$> duplicate_of d else Some [Same].
Definition duplicate_txns : plugin_xf := stepwise duplicate_txns_step.

(** auto_close.clj:3-23 [xf].  The step calls the next reducing function twice with the
    same result; as [into] reduces into a transient vector, which is changed in place,
    both directives are there in the end. *)
Definition auto_close_step (phase : string) (config : option cval) (d : cval) : option (list item) :=
  let wanted := match config ≫= vget "phase" with Some (VKw p) => String.eqb p phase | _ => false end in
  let opening := match vget "dct" d with Some (VKw "open") => true | _ => false end in
  let listed := match config ≫= vget "accs" with
                | Some (VSet l) => existsb (simple_eq (default VNil (vget "acc" d))) l
                | _ => false
                end in
  if wanted && opening && listed then
    Some [Same; New (VMap [("date", default VNil (vget "date" d)); ("dct", VKw "close"); ("acc", default VNil (vget "acc" d))])]
  else Some [Same].
(** auto_close.clj:26-29 [raw-xf], 31-34 [booked-xf]. *)
Definition auto_close (booked : bool) (config : option cval) : plugin_xf :=
  stepwise (auto_close_step (if booked then "booked" else "raw") config).

(** fail.clj:4-22 [xf], 24-27 [raw-xf], 29-32 [booked-xf].  Simplification: the message
    is a string. *)
Definition fail_step (matching : list (string * cval)) (message : string) (d : cval) : option (list item) :=
  if matches matching d then (λ d', [New d']) <$> dct_error "limabean.test.plugins.fail" message d else Some [Same].
Definition fail_plugin (booked : bool) (config : option cval) : plugin_xf :=
  let wanted := match config ≫= vget "phase" with
                | Some (VKw p) => String.eqb p (if booked then "booked" else "raw")
                | _ => false
                end in
  let matching := if wanted then match config ≫= vget "matching" with Some (VMap fs) => fs | _ => [("unmatched", VBool true)] end
                  else [("unmatched", VBool true)] in
  stepwise (fail_step matching (match config_or "message" (VStr "bad directive") config with VStr s => s | _ => "" end)).

(** create_event.clj:3-21 [booked-xf]; [str] of a description which is not there is
    empty. *)
Definition create_event_step (d : cval) : option (list item) :=
  match vget "dct" d with
  | Some (VKw "event") =>
      let shown := match vget "description" d with Some (VStr s) => s | _ => "" end in
      let date := match vget "date" d with Some v => [("date", v)] | None => [] end in
      Some [New (VMap (date ++ [("dct", VKw "event"); ("type", VStr "Planning"); ("description", VStr ("Anticipating " +:+ shown))])); Same]
  | _ => Some [Same]
  end.
Definition create_event : plugin_xf := stepwise create_event_step.

(** adjust_postings_after_booking.clj:21-24; [None] is the exception of adding what is no
    number.  The keys of the configuration are accounts. *)
Definition adjustment (config : option cval) (p : cval) : option cval :=
  match vget "acc" p with Some (VStr a) => config ≫= vget a | _ => None end.
Definition adjust_posting (config : option cval) (p : cval) : option cval :=
  match adjustment config p with
  | None | Some VNil | Some (VBool false) => Some p
  | Some (VNum n) =>
      match vget "units" p with Some (VNum u) => x ← cn_add n u; vassoc "units" (VNum x) p | _ => None end
  | Some _ => None
  end.
(** adjust_postings_after_booking.clj:4-27 [booked-xf]. *)
Definition adjust_step (config : option cval) (d : cval) : option (list item) :=
  if is_txn d && existsb (λ p, bool_decide (is_Some (adjustment config p))) (vpostings d) then
    ps ← mapM (adjust_posting config) (vpostings d); (λ d', [New d']) <$> vassoc "postings" (VVec ps) d
  else Some [Same].
Definition adjust_postings (config : option cval) : plugin_xf := stepwise (adjust_step config).
