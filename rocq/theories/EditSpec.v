(** Edits of a ledger, and how they show in the data of the client: the specification of
    [EditProps.v]. *)
From Coq Require Import Ascii QArith.
From stdpp Require Import prelude gmap strings.
From Verif Require Import DecModel LedgerTypes IsoModel JsonModel WireModel CljModel InventoryModel ClientModel FormatModel PluginModel PluginSpec EncodeModel EditModel.

(** * Edits of a ledger *)

(** An edit: what becomes of a directive. *)
Notation edit := (directive → list directive → Prop).
(** [l] is [ds] where each directive has been replaced by what becomes of it. *)
Definition edited (R : edit) (ds l : list directive) : Prop :=
  ∃ parts, Forall2 R ds parts ∧ l = mjoin parts.
(** Several edits, one after the other. *)
Fixpoint edited_by (Rs : list edit) (ds l : list directive) : Prop :=
  match Rs with
  | [] => l = ds
  | R :: Rs' => ∃ ds', edited R ds ds' ∧ edited_by Rs' ds' l
  end.

(** The directive stays as it is. *)
Definition unchanged : edit := λ d ds, ds = [d].
(** Each transaction has this narration. *)
Definition with_narration (s : string) (d : directive) : directive :=
  match d_variant d with
  | DTransaction t =>
      Directive (d_span d) (d_date d) (d_tags d) (d_links d) (d_metadata d)
        (DTransaction (Transaction (tx_flag t) (tx_payee t) (Some s) (tx_postings t)))
  | _ => d
  end.
Definition narrated (s : string) : edit := λ d ds, ds = [with_narration s d].
(** Some directives have this tag in addition. *)
Definition with_tag (s : string) (d : directive) : directive :=
  Directive (d_span d) (d_date d) (Some ({[s]} ∪ default ∅ (d_tags d))) (d_links d) (d_metadata d) (d_variant d).
(** The kind of a directive, its account, and what is written on a transaction. *)
Definition kind_name (d : directive) : string :=
  match d_variant d with
  | DTransaction _ => "txn" | DPrice _ => "price" | DBalance _ => "balance" | DOpen _ => "open" | DClose _ => "close"
  | DCommodity _ => "commodity" | DPad _ => "pad" | DDocument _ _ => "document" | DNote _ _ => "note" | DEvent _ _ => "event"
  | DQuery _ _ => "query" | DCustom _ => "custom"
  end.
Inductive criterion := HasKind (k : string) | HasPayee (s : string) | HasNarration (s : string).
Definition meets (d : directive) (c : criterion) : Prop :=
  match c, d_variant d with
  | HasKind k, _ => kind_name d = k
  | HasPayee s, DTransaction t => tx_payee t = Some s
  | HasNarration s, DTransaction t => tx_narration t = Some s
  | _, _ => False
  end.
(** The same in the configuration of a plugin. *)
Definition configured (c : criterion) : string * cval :=
  match c with
  | HasKind k => ("dct", VKw k)
  | HasPayee s => ("payee", VStr s)
  | HasNarration s => ("narration", VStr s)
  end.
Definition tagged (cs : list criterion) (s : string) : edit := λ d ds,
  (Forall (meets d) cs → ds = [with_tag s d]) ∧ (¬ Forall (meets d) cs → ds = [d]).
(** Directives have this metadata in addition, which prevails. *)
Definition with_metadata (new : gmap string meta_value) (d : directive) : directive :=
  Directive (d_span d) (d_date d) (d_tags d) (d_links d) (Some (new ∪ default ∅ (d_metadata d))) (d_variant d).
Definition annotated (new : string → option (gmap string meta_value)) : edit := λ d ds,
  ds = [match new (kind_name d) with Some m => with_metadata m d | None => d end].
(** Before each transaction there is a copy of it, which comes from nowhere in the
    ledger and has the metadata [dup:]. *)
Definition nowhere (q : posting_spec) : posting_spec :=
  PostingSpec None (ps_flag q) (ps_acc q) (ps_units q) (ps_cur q) (ps_cost q) (ps_price q) (ps_tags q) (ps_links q) (ps_metadata q).
Definition copy_of (d : directive) (t : transaction) : directive :=
  Directive None (d_date d) (d_tags d) (d_links d) (Some (<["dup" := MVNull]> (default ∅ (d_metadata d))))
    (DTransaction (Transaction (tx_flag t) (tx_payee t) (tx_narration t) (nowhere <$> tx_postings t))).
Definition duplicated : edit := λ d ds,
  ds = match d_variant d with DTransaction t => [copy_of d t; d] | _ => [d] end.
(** After each open of one of these accounts there is a close of it, on the same
    date. *)
Definition closed_at_once (accs : list string) : edit := λ d ds,
  match d_variant d with
  | DOpen o => (op_acc o ∈ accs → ds = [d; Directive None (d_date d) None None None (DClose (op_acc o))]) ∧
               (op_acc o ∉ accs → ds = [d])
  | _ => ds = [d]
  end.

(** * Data of the client *)
Section Holds.
(** How the server reads numbers which are strings, and how the client orders what it
    sends. *)
Context (dp : string → option dec) (jso : list json → list json) (jmo : list (string * json) → list (string * json)).

(** What is at a key is neither a keyword nor a date, which are written in the same way
    as strings. *)
Definition texts (k : string) (v : cval) : Prop := match vget k v with Some (VKw _) | Some (VDate _) => False | _ => True end.
(** As the client has directives: a map with a vector of maps for its postings, the kind of which is
    a keyword, and what is written on transactions is on no other directive; accounts,
    payee and narration are such texts. *)
Definition proper (v : cval) : Prop :=
  well_shaped v = true ∧ (∃ kind, vget "dct" v = Some (VKw kind)) ∧
  (is_txn v = true ∨ Forall (λ k, vget k v = None) ["postings"; "payee"; "narration"]) ∧
  Forall (λ k, texts k v) ["acc"; "payee"; "narration"] ∧
  match vget "postings" v with Some (VVec ps) => Forall (texts "acc") ps | Some (VSet _) => False | _ => True end.
(** The client has the directive [d] in the form [v]: sent to the server, [v] is read as
    [d]. *)
Definition holds (v : cval) (d : directive) : Prop :=
  get_directive dp (encode jso jmo v) = Some d ∧ proper v.
Definition item_holds (v : cval) (e : item) (d : directive) : Prop :=
  match e with Same => holds v d | New v' => holds v' d end.
(** A plugin step [f] makes the edit [R]. *)
Definition makes (f : cval → option (list item)) (R : edit) : Prop :=
  ∀ v d es, holds v d → f v = Some es → ∃ ds, R d ds ∧ Forall2 (item_holds v) es ds.
(** What is to be added as metadata, in the data of the client and in the ledger. *)
Definition holds_metadata (v : cval) (m : gmap string meta_value) : Prop :=
  ∃ fs, v = VMap fs ∧
  ∀ k, match vget k v with
       | Some w => plain k = true ∧ ∃ x, get_meta dp (encode jso jmo w) = Some x ∧ m !! k = Some x
       | None => m !! k = None
       end.
End Holds.

(** * The edits which the plugins are to make *)
Section Plugins.
Context (dp : string → option dec) (jso : list json → list json) (jmo : list (string * json) → list (string * json)).
(** By the configuration of a plugin. *)
Inductive edits : plugin_xf → edit → Prop :=
| EIdentity : edits identity_plugin unchanged
| ENarration config s : config ≫= vget "narration" = Some (VStr s) → edits (set_narration config) (narrated s)
| ENarrationDefault : edits (set_narration None) (narrated "unspecified in config")
| ETag config cs s : config ≫= vget "matching" = Some (VMap (configured <$> cs)) →
    config ≫= vget "tag" = Some (VStr s) → plain s = true → edits (tag_matching config) (tagged cs s)
| EMetadata config new :
    (∀ kind, match config ≫= vget kind with
             | Some c => ∃ m, new kind = Some m ∧ holds_metadata dp jso jmo c m
             | None => new kind = None
             end) → edits (set_metadata config) (annotated new)
| EDuplicate : edits duplicate_txns duplicated
| EClose config accs : config ≫= vget "phase" = Some (VKw "raw") → config ≫= vget "accs" = Some (VSet (VStr <$> accs)) →
    edits (auto_close false config) (closed_at_once accs)
| ECloseLater config : config ≫= vget "phase" ≠ Some (VKw "raw") → edits (auto_close false config) unchanged.
End Plugins.
