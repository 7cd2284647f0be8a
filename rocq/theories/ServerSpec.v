(** Vocabulary for the server properties: lines, requests and responses. *)
From Coq Require Import Ascii.
From stdpp Require Import prelude gmap strings.
From Verif Require Import DecModel LedgerTypes JsonModel WireSpec SpanModel ParserModel JsonText ServerModel.

(** ** Lines *)

Fixpoint occurs (c : ascii) (s : string) : Prop :=
  match s with EmptyString => False | String c' s' => c = c' ∨ occurs c s' end.
Definition join (l : list string) : string := foldr String.append "" l.
(** [input] consists of the given lines, each ended by a newline, and an
    unfinished rest. *)
Definition splits_into (input : string) (lines : list string) (rest : string) : Prop :=
  input = join ((λ l, l +:+ line_end) <$> lines) +:+ rest ∧
  (∀ l, l ∈ lines → ¬ occurs newline l) ∧ ¬ occurs newline rest.

(** The lines which the server takes from its input: an unfinished line counts,
    unless reading failed in it. *)
Definition lines_taken (lines : list string) (rest : string) (fails : bool) : list string :=
  ((λ l, l +:+ line_end) <$> lines) ++ if fails || String.eqb rest "" then [] else [rest].

(** ** Requests *)

(** Integers of 32 bits stay integers, other 64-bit integers become floating
    point numbers. *)
Definition id_json (j : json) (i : rpc_id) : Prop :=
  match i with
  | IdString s => name_json j s
  | IdInt z => j = JNum (Dec z 0) ∧ (- 2 ^ 31 <= z < 2 ^ 31)%Z
  | IdFloat z => j = JNum (Dec z 0) ∧ (- 2 ^ 63 <= z < 2 ^ 64)%Z ∧ ¬ (- 2 ^ 31 <= z < 2 ^ 31)%Z
  end.

Definition labelled_json (j : json) (x : string * span) : Prop :=
  ∃ a b, j = JArr [a; b] ∧ text_json a x.1 ∧ span_json b x.2.
Definition report_json (j : json) (r : wire_report) : Prop := ∃ fs, j = JObj fs ∧
  has text_json "message" fs (wr_message r) ∧ has text_json "reason" fs (wr_reason r) ∧
  has span_json "span" fs (wr_span r) ∧ has_opt (list_json labelled_json) "contexts" fs (wr_contexts r) ∧
  has_opt (list_json labelled_json) "related" fs (wr_related r) ∧
  has_opt text_json "annotation" fs (wr_annotation r).
Definition synthetic_json (j : json) (s : synthetic_span) : Prop := ∃ fs, j = JObj fs ∧
  has text_json "name" fs (sy_name s) ∧ has text_json "content" fs (sy_content s).

Section Spec.
Context (dec_parse : string → option dec).

Definition method_json (fs : fields) (m : method) : Prop :=
  match m with
  | MStatus => has text_json "method" fs "status"
  | MPlugins => has text_json "method" fs "parser.plugins"
  | MDirectives => has text_json "method" fs "parser.directives"
  | MOptions => has text_json "method" fs "parser.options"
  | MFormatErrors rs => has text_json "method" fs "parser.format-errors" ∧
      has (list_json report_json) "params" fs rs
  | MFormatWarnings rs => has text_json "method" fs "parser.format-warnings" ∧
      has (list_json report_json) "params" fs rs
  | MResolveSpans l => has text_json "method" fs "parser.resolve-spans" ∧
      has (list_json span_json) "params" fs l
  | MCreateSyntheticSpans l => has text_json "method" fs "parser.create-synthetic-spans" ∧
      has (list_json synthetic_json) "params" fs l
  | MBook params => has text_json "method" fs "book" ∧
      has_opt (list_json (directive_json dec_parse)) "params" fs params
  end.

(** A well-formed request: a JSON object with a version, an optional id, a method
    and the parameters which the method needs. *)
Definition request_json (j : json) (rq : request) : Prop := ∃ fs, j = JObj fs ∧
  has name_json "jsonrpc" fs (rq_jsonrpc rq) ∧ has_opt id_json "id" fs (rq_id rq) ∧
  method_json fs (rq_method rq).
End Spec.

(** ** Responses *)

(** A response to a request with this id ([JNull] if it had none), carrying a
    result. *)
Definition is_result (i result : json) (j : json) : Prop :=
  j = JObj [("jsonrpc", JStr "2.0"); ("id", i); ("result", result)].
(** The same with an error. *)
Definition is_error (i : json) (code : Z) (message : string) (data : option json) (j : json) : Prop :=
  j = JObj [("jsonrpc", JStr "2.0"); ("id", i);
            ("error", JObj (("code", JNum (Dec code 0)) :: ("message", JStr message) ::
                            match data with Some d => [("data", d)] | None => [] end))].

(** The id of a response or request, [JNull] if it has none. *)
Definition id_of (j : json) : json :=
  match j with JObj fs => match entries "id" fs with [i] => i | _ => JNull end | _ => JNull end.

Definition is_response (i j : json) : Prop :=
  (∃ r, is_result i r j) ∨ ∃ c m d, is_error i c m d j.

(** Methods whose answer does not involve source locations. *)
Definition about_ledger (m : method) : bool :=
  match m with
  | MStatus | MPlugins | MDirectives | MOptions | MBook _ => true
  | MFormatErrors _ | MFormatWarnings _ | MResolveSpans _ | MCreateSyntheticSpans _ => false
  end.
(** Methods which report parse errors without an id. *)
Definition fetches (m : method) : bool :=
  match m with MPlugins | MDirectives | MOptions => true | _ => false end.

Section Session.
Context {P S : Type} (env : server_env P S).

(** The line is the text of a well-formed request. *)
Definition is_request (line : string) (j : json) (rq : request) : Prop :=
  env_parse env line = Some j ∧ request_json (env_dec_parse env) j rq.

(** The id with which a request is answered: its own, except that a large integer
    becomes a floating point number. *)
Definition answer_id (rq : request) : json :=
  match rq_id rq with
  | None => JNull
  | Some (IdString s) => JStr s
  | Some (IdInt z) => JNum (Dec z 0)
  | Some (IdFloat z) => JNum (env_float env z)
  end.

(** The synthetic spans which a line asks for. *)
Definition asked_for (line : string) (l : list synthetic_span) : Prop :=
  (∃ j i, is_request line j (Request "2.0" i (MCreateSyntheticSpans l))) ∨
  ((∀ j i l', ¬ is_request line j (Request "2.0" i (MCreateSyntheticSpans l'))) ∧ l = []).
(** Creating synthetic spans one after the other. *)
Definition create_all (s : S) (l : list synthetic_span) : S :=
  foldl (λ s x, (src_create (env_sources env) s (sy_name x) (sy_content x)).1) s l.
End Session.

(** ** Sessions *)

(** Serving the given lines in state [s], from the [n]th line on, leads to state
    [s'] and the given responses, one for each line. *)
Inductive session {P S} (env : server_env P S) (hl : health) (hs : nat → orders P)
    : nat → S → list string → S → list json → Prop :=
| session_nil n s : session env hl hs n s [] s []
| session_cons n s l s1 j ls s2 js :
    dispatch env hl (hs n) s l = (s1, Reply j) → session env hl hs (1 + n) s1 ls s2 js →
    session env hl hs n s (l :: ls) s2 (j :: js).

(** The directives which a book request is about. *)
Definition ledger_of (p : parsed) (params : option (list directive)) : list directive :=
  match params with Some ds => ds | None => from_directive <$> pa_directives p end.
