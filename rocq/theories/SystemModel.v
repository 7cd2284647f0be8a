(** The client and the server together: [clj/src/limabean/adapter/pod.clj] talking to
    the server of [ServerModel.v], and [clj/src/limabean/adapter/error.clj].

    Messages are JSON trees here: what is written on one side is read as the same tree
    on the other.  [PipeModel.v] has the text which goes over the pipe, and [PipeProps.v]
    shows that it makes no difference. *)
From Coq Require Import Ascii QArith.
From stdpp Require Import prelude gmap strings.
From Verif Require Import DecModel LedgerTypes IsoModel JsonModel WireModel BookModel SpanModel ParserModel JsonText ServerModel
  CljModel InventoryModel ClientModel FormatModel PluginModel LoaderModel EncodeModel ReadModel.

(** pod.clj:90-122: the method called, and its parameters if there are any. *)
Definition method_name (r : pod_request) : string :=
  match r with
  | RPlugins => "parser.plugins" | ROptions => "parser.options" | RDirectives => "parser.directives"
  | RBook _ => "book" | RSpans _ => "parser.create-synthetic-spans"
  end.
Definition request_params (r : pod_request) : option cval :=
  match r with
  | RBook (Some ds) => Some (VVec ds)
  | RSpans rs => Some (VVec ((λ nc, VMap [("name", VStr nc.1); ("content", VStr nc.2)]) <$> rs))
  | _ => None
  end.
(** pod.clj:58-67: of the answer, what counts as true. *)
Definition counted (o : option cval) : option cval := if truthy o then o else None.
Definition answer_of (j : json) : answer :=
  Answer (counted (vget "result" (decode None j))) (counted (vget "error" (decode None j))).
(** A pod which is no longer there: [.readLine] gives nil, and so does reading that. *)
Definition no_answer : answer := Answer None None.

Section System.
Context {P S : Type} (env : server_env P S).
(** The orders in which the client writes sets and maps. *)
Context (jso : list json → list json) (jmo : list (string * json) → list (string * json)).
(** The ledger as the server has read it, the orders of the server's hash tables for
    each request and the sources at the start. *)
Context (hl : health) (hs : nat → orders P) (sources : S).

(** pod.clj:25-32 [write-msg], 58-65 [invoke]: ids count from 1. *)
Definition message (id : nat) (method : string) (params : option cval) : json :=
  encode jso jmo (VMap ([("method", VStr method)] ++ match params with Some p => [("params", p)] | None => [] end ++
                        [("id", VNum (CLong (Z.of_nat id))); ("jsonrpc", VStr "2.0")])).
(** server.rs:116-188 [dispatch] of the line for [j], see [dispatch]. *)
Definition dispatch_tree (h : orders P) (s : S) (j : json) : S * reply :=
  match get_request env j with
  | None => (s, Reply (other_error env None ERROR_PARSE (env_parse_message env (generate_string j +:+ ServerModel.line_end))))
  | Some rq =>
      if String.eqb (rq_jsonrpc rq) JSONRPC_VERSION then dispatch_method env hl h s (rq_id rq) (rq_method rq)
      else (s, Reply (other_error env (rq_id rq) ERROR_INVALID_REQUEST
                        ("JSON-RPC protocol must be 2.0, found " +:+ rq_jsonrpc rq)))
  end.
(** pod.clj:58-67 [invoke], as call number [n] of a pod which is in a state, or which
    has crashed. *)
Definition invoke (n : nat) (s : option S) (method : string) (params : option cval) : option S * answer :=
  match s with
  | None => (None, no_answer)
  | Some s =>
      match dispatch_tree (hs n) s (message n method params) with
      | (s', Reply j) => (Some s', answer_of j)
      | (_, Crash _) => (None, no_answer)
      end
  end.
(** The state of the pod after some requests; [status] was number 1. *)
Fixpoint state_after (n : nat) (s : option S) (h : list pod_request) : option S :=
  match h with
  | [] => s
  | r :: h' => state_after (Datatypes.S n) (invoke n s (method_name r) (request_params r)).1 h'
  end.
Definition pod_state (h : list pod_request) : option S := state_after 2 (Some sources) h.
Definition ask (h : list pod_request) (r : pod_request) : answer :=
  (invoke (length h + 2) (pod_state h) (method_name r) (request_params r)).2.

(** pod.clj:134-151 [start]: throws what is left of an error. *)
Definition pod_start : option cval := a_err (invoke 1 (Some sources) "status" None).2.
(** loader.clj:180-195 [load-beanfile]; on the left the exception from starting. *)
Definition load_beanfile (ns : string → option namespace) (read_config : option cval → option (option cval))
    (code : nat → nat) (spec : bool → cval → bool) (so : list cval → list cval) : option cval + option loaded :=
  match pod_start with
  | Some e => inl (vget "message" e)
  | None => inr (load ns read_config code spec so ask)
  end.

(** A report as it is sent.  Simplification: where there is no reason, it is sent as
    null, which the server refuses just as well. *)
Definition report_value (r : creport) : cval :=
  VMap ([("message", or_nil (cr_message r)); ("reason", or_nil (cr_reason r)); ("span", or_nil (cr_span r))] ++
        match cr_annotation r with Some a => [("annotation", a)] | None => [] end ++
        match cr_context r with Some c => [("context", VVec c)] | None => [] end ++
        match cr_related r with Some l => [("related", VVec l)] | None => [] end).
(** error.clj:33-39 [print-error], the reports; nil for those of the parser leads to
    an empty list. *)
Definition error_reports_of (e : load_error) : option (list cval) :=
  match e with
  | LePlugins _ => None
  | LeParser (Some (VVec rs)) => Some rs
  | LeParser _ => Some []
  | LeRaw (PeDirectives ds) | LeBooked (PeDirectives ds) => Some (report_value <$> dct_errors_reports ds)
  | LeRaw PeThrown | LeBooked PeThrown => Some []
  | LeBooking (BeReports rs) => Some (report_value <$> rs)
  | LeBooking BeThrown => Some []
  end.
(** error.clj:41-54 [print-errors] as far as the server formats reports, pod.clj:103-106
    [format-errors]: the text printed; [None] if printing throws. *)
Definition printed_reports (m : loaded) : option (option cval) :=
  match l_error m ≫= error_reports_of with
  | None => Some None
  | Some rs =>
      let a := (invoke (length (l_asked m) + 2) (pod_state (l_asked m)) "parser.format-errors" (Some (VVec rs))).2 in
      match a_err a with Some _ => None | None => Some (a_ok a) end
  end.
End System.
