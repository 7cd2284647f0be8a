(** Model of the JSON-RPC server: [rust/src/api/server.rs] and
    [rust/src/api/json_rpc.rs], with the report types of
    [rust/src/api/types.rs].

    Simplifications: logging is left out; writing a response does not fail (the
    code panics if standard output is closed); serialization of a response does
    not fail (server.rs:410-426), as all its map keys are strings. *)
From Coq Require Import Ascii.
From stdpp Require Import prelude gmap strings.
From Verif Require Import DecModel LedgerTypes JsonModel WireModel BookModel SpanModel ParserModel JsonText.

(** types.rs:23-38 [Report] as it is sent. *)
Record wire_report := WireReport {
  wr_message : string; wr_reason : string; wr_span : span;
  wr_contexts : option (list (string * span)); wr_related : option (list (string * span));
  wr_annotation : option string }.

(** types.rs:15-21 [SyntheticSpan]. *)
Record synthetic_span := SyntheticSpan { sy_name : string; sy_content : string }.

(** raw.rs:313-323 [SpannedSource]. *)
Record spanned_source := SpannedSource {
  ss_file_name : option string; ss_start_line : nat; ss_end_line : nat; ss_content : string }.

(** json_rpc.rs:148-154 [Id].  A floating point id can only arise from an
    integer: the number features of serde_json turn other numbers into something
    which none of the three alternatives accepts. *)
Inductive rpc_id := IdString (s : string) | IdInt (z : Z) | IdFloat (z : Z).

(** json_rpc.rs:20-41 [RequestMethod]. *)
Inductive method :=
| MStatus | MPlugins | MDirectives | MOptions
| MFormatErrors (rs : list wire_report)
| MFormatWarnings (rs : list wire_report)
| MResolveSpans (l : list span)
| MCreateSyntheticSpans (l : list synthetic_span)
| MBook (params : option (list directive)).

(** json_rpc.rs:8-16 [Request]. *)
Record request := Request { rq_jsonrpc : string; rq_id : option rpc_id; rq_method : method }.

(** json_rpc.rs:156-165. *)
Definition JSONRPC_VERSION : string := "2.0".
Definition ERROR_BEANFILE_IO_ERROR : Z := 1.
Definition ERROR_REPORT : Z := 2.
Definition ERROR_INDEXED_REPORT : Z := 3.
Definition ERROR_PARSE : Z := -32700.
Definition ERROR_INVALID_REQUEST : Z := -32600.

(** server.rs:48-53 [Parsed]; the warnings are never used. *)
Record parsed := Parsed { pa_directives : list pdirective; pa_options : poptions; pa_plugins : list pplugin }.

(** server.rs:40-46 [Server], [HealthyServer] without the sources, which are
    passed around separately; made at server.rs:23-38, 55-77: a file which cannot be
    read, or the outcome of parsing it. *)
Inductive health :=
| Healthy (p : parsed + list perror)
| Unhealthy (why : string).

(** The parser's source map [SyntheticSources] with state [S]; [None] is a
    panic. *)
Record source_lib (S : Type) := SourceLib {
  (** [resolve_span] *)
  src_resolve : S → span → option spanned_source;
  (** [create_synthetic_span] *)
  src_create : S → string → string → S * span;
  (** [write_report], for errors ([false]) and warnings ([true]) *)
  src_write_report : S → bool → wire_report → option string }.
Arguments src_resolve {_} _ _ _.
Arguments src_create {_} _ _ _ _.
Arguments src_write_report {_} _ _ _ _.

(** Everything else the server relies on. *)
Record server_env (P S : Type) := ServerEnv {
  (** the booking library with the tolerances from the options *)
  env_booking : poptions → booking_lib P;
  env_sources : source_lib S;
  (** [serde_json::from_str] into a tree, after trimming white space *)
  env_parse : string → option json;
  (** the text of its error, or of the error in reading a request from the tree *)
  env_parse_message : string → string;
  (** [FromStr for Decimal] *)
  env_dec_parse : string → option dec;
  (** conversion of an integer to [f64] and its text *)
  env_float : Z → dec;
  (** the text of the table in an annotation *)
  env_layout : list diag_row → string;
  (** whether bytes are UTF-8 *)
  env_utf8 : string → bool }.
Arguments env_booking {_ _} _ _.
Arguments env_sources {_ _} _.
Arguments env_parse {_ _} _ _.
Arguments env_parse_message {_ _} _ _.
Arguments env_dec_parse {_ _} _ _.
Arguments env_float {_ _} _ _.
Arguments env_layout {_ _} _ _.
Arguments env_utf8 {_ _} _ _.

(** The iteration orders of the hash tables made while one request is served. *)
Record orders (P : Type) := Orders {
  or_accounts : gmap string (account P) → list (string * account P);
  or_wire : hash_order;
  or_numbers : gmap string dec → list (string * dec) }.
Arguments or_accounts {_} _.
Arguments or_wire {_} _.
Arguments or_numbers {_} _.

Section Server.
Context {P S : Type} (env : server_env P S).

(** ** Reading requests *)

(** json_rpc.rs:148-154, untagged. *)
Definition get_id (j : json) : option rpc_id :=
  match j with
  | JStr s => if plain s then Some (IdString s) else None
  | JNum (Dec z O) =>
      if ((-2147483648 <=? z) && (z <=? 2147483647))%Z then Some (IdInt z)
      else if ((-9223372036854775808 <=? z) && (z <=? 18446744073709551615))%Z then Some (IdFloat z)
      else None
  | _ => None
  end.

(** A pair is an array of two. *)
Definition get_labelled_span (j : json) : option (string * span) :=
  match j with
  | JArr [a; b] => x ← as_owned a; y ← get_span b; Some (x, y)
  | _ => None
  end.

(** types.rs:23-38. *)
Definition get_report : json → option wire_report := as_obj (λ fs,
  m ← get_req as_owned "message" fs; r ← get_req as_owned "reason" fs; s ← get_req get_span "span" fs;
  c ← get_opt (as_list get_labelled_span) "contexts" fs;
  l ← get_opt (as_list get_labelled_span) "related" fs; a ← get_opt as_owned "annotation" fs;
  Some (WireReport m r s c l a)).

(** types.rs:15-21. *)
Definition get_synthetic_span : json → option synthetic_span := as_obj (λ fs,
  n ← get_req as_owned "name" fs; c ← get_req as_owned "content" fs; Some (SyntheticSpan n c)).

(** json_rpc.rs:20-54, internally tagged; unit variants ignore the other
    fields. *)
Definition get_method (fs : fields) : option method :=
  tag ← get_req as_owned "method" fs;
  if String.eqb tag "status" then Some MStatus
  else if String.eqb tag "parser.plugins" then Some MPlugins
  else if String.eqb tag "parser.directives" then Some MDirectives
  else if String.eqb tag "parser.options" then Some MOptions
  else if String.eqb tag "parser.format-errors" then
    MFormatErrors <$> get_req (as_list get_report) "params" fs
  else if String.eqb tag "parser.format-warnings" then
    MFormatWarnings <$> get_req (as_list get_report) "params" fs
  else if String.eqb tag "parser.resolve-spans" then
    MResolveSpans <$> get_req (as_list get_span) "params" fs
  else if String.eqb tag "parser.create-synthetic-spans" then
    MCreateSyntheticSpans <$> get_req (as_list get_synthetic_span) "params" fs
  else if String.eqb tag "book" then
    MBook <$> get_opt (as_list (get_directive (env_dec_parse env))) "params" fs
  else None.

(** json_rpc.rs:8-16; the method is flattened, so it is read from the fields
    which are not the request's own. *)
Definition get_request : json → option request := as_obj (λ fs,
  v ← get_req as_borrowed "jsonrpc" fs; i ← get_opt get_id "id" fs;
  m ← get_method (filter (λ kv, existsb (String.eqb kv.1) ["jsonrpc"; "id"] = false) fs);
  Some (Request v i m)).

(** server.rs:122: from the text. *)
Definition read_request (line : string) : option request :=
  j ← env_parse env line; get_request j.

(** ** Writing responses *)

Definition of_Z (z : Z) : json := JNum (Dec z 0).
Definition or_null {A} (enc : A → json) (o : option A) : json :=
  match o with Some x => enc x | None => JNull end.

Definition put_id (i : rpc_id) : json :=
  match i with IdString s => JStr s | IdInt z => of_Z z | IdFloat z => JNum (env_float env z) end.

(** json_rpc.rs:56-72 [ResultResponse]; server.rs:401-428 [write_response]. *)
Definition result_response (i : option rpc_id) (r : json) : json :=
  JObj [("jsonrpc", JStr JSONRPC_VERSION); ("id", or_null put_id i); ("result", r)].

(** json_rpc.rs:104-146 [ErrorResponse], [ErrorData]; server.rs:476-499
    [write_error]. *)
Definition error_response (i : option rpc_id) (code : Z) (message : string) (data : option json) : json :=
  JObj [("jsonrpc", JStr JSONRPC_VERSION); ("id", or_null put_id i);
        ("error", JObj ([("code", of_Z code); ("message", JStr message)] ++ put_opt "data" id data))].

Definition put_labelled_span (x : string * span) : json := JArr [JStr x.1; put_span x.2].

(** types.rs:23-38. *)
Definition put_report (r : wire_report) : json :=
  JObj ([("message", JStr (wr_message r)); ("reason", JStr (wr_reason r)); ("span", put_span (wr_span r))] ++
        put_opt "contexts" (λ l, JArr (put_labelled_span <$> l)) (wr_contexts r) ++
        put_opt "related" (λ l, JArr (put_labelled_span <$> l)) (wr_related r) ++
        put_opt "annotation" JStr (wr_annotation r)).

(** types.rs:40-50 [IndexedReport]. *)
Definition put_indexed_report (r : report) : json :=
  JObj ([("reason", JStr (r_reason r)); ("idx", put_eidx (r_idx r))] ++
        put_opt "related" (λ l, JArr (put_eidx <$> l)) (r_related r) ++
        put_opt "annotation" (λ a, JStr (env_layout env a)) (r_annotation r)).

(** parser_type_conversions.rs:454-492 [from_error_or_warning], [create_reports_from_parser_errors]. *)
Definition none_if_empty {A} (l : list A) : option (list A) := match l with [] => None | _ => Some l end.
Definition from_error (e : perror) : wire_report :=
  WireReport (pe_message e) (pe_reason e) (pe_span e) (none_if_empty (pe_contexts e))
    (none_if_empty (pe_related e)) None.

(** parser_type_conversions.rs:509-529: a spanned report with its annotation as text. *)
Definition wire_of (r : spanned_report) : wire_report :=
  WireReport (sr_message r) (sr_reason r) (sr_span r) (sr_contexts r) (sr_related r)
    (env_layout env <$> sr_annotation r).

(** server.rs:430-462 [write_error_reports], [write_indexed_error_reports]. *)
Definition error_reports (i : option rpc_id) (rs : list wire_report) : json :=
  error_response i ERROR_REPORT "Error reports" (Some (JArr (put_report <$> rs))).
Definition indexed_error_reports (i : option rpc_id) (rs : list report) : json :=
  error_response i ERROR_INDEXED_REPORT "Error reports" (Some (JArr (put_indexed_report <$> rs))).
(** server.rs:464-474 [write_other_error]. *)
Definition other_error (i : option rpc_id) (code : Z) (message : string) : json :=
  error_response i code message None.

(** types.rs:7-13 [Plugin]. *)
Definition put_plugin (p : pplugin) : json :=
  JObj [("name", JStr (ppl_module p)); ("config", or_null JStr (ppl_config p))].

Definition put_plugin_mode (m : plugin_mode) : json :=
  JStr match m with PMDefault => "default" | PMRaw => "raw" end.

(** raw.rs:245-289 [Options]. *)
Definition put_options (h : orders P) (o : options) : json :=
  JObj ([("name-assets", JStr (o_name_assets o)); ("name-liabilities", JStr (o_name_liabilities o));
         ("name-equity", JStr (o_name_equity o)); ("name-income", JStr (o_name_income o));
         ("name-expenses", JStr (o_name_expenses o))] ++
        put_opt "title" JStr (o_title o) ++
        put_opt "account-previous-balances" JStr (o_account_previous_balances o) ++
        put_opt "account-previous-earnings" JStr (o_account_previous_earnings o) ++
        put_opt "account-previous-conversions" JStr (o_account_previous_conversions o) ++
        put_opt "account-current-earnings" JStr (o_account_current_earnings o) ++
        put_opt "account-current-conversions" JStr (o_account_current_conversions o) ++
        put_opt "account-unrealized-gains" JStr (o_account_unrealized_gains o) ++
        put_opt "account-rounding" JStr (o_account_rounding o) ++
        put_opt "conversion-currency" JStr (o_conversion_currency o) ++
        put_opt "inferred-tolerance-default"
          (λ m, JObj ((λ kv, (kv.1, put_num kv.2)) <$> or_numbers h m)) (o_tolerance_default o) ++
        put_opt "inferred-tolerance-default-fallback" put_num (o_tolerance_fallback o) ++
        put_opt "inferred-tolerance-multiplier" put_num (o_tolerance_multiplier o) ++
        put_opt "infer-tolerance-from-cost" JBool (o_tolerance_from_cost o) ++
        put_opt "documents" (put_set (or_wire h)) (o_documents o) ++
        put_opt "operating-currency" (put_set (or_wire h)) (o_operating_currency o) ++
        put_opt "render-commas" JBool (o_render_commas o) ++
        put_opt "booking-method" put_booking (o_booking_method o) ++
        put_opt "plugin-processing-mode" put_plugin_mode (o_plugin_mode o)).

(** raw.rs:313-323 [SpannedSource]. *)
Definition put_spanned_source (s : spanned_source) : json :=
  JObj (put_opt "file-name" JStr (ss_file_name s) ++
        [("start-line", of_nat (ss_start_line s)); ("end-line", of_nat (ss_end_line s));
         ("content", JStr (ss_content s))]).

(** ** Methods *)

(** The answer to a request, or the panic which ends the server. *)
Inductive reply := Reply (j : json) | Crash (why : string).

(** server.rs:190-198 [status]: a unit variant is written as null. *)
Definition status (i : option rpc_id) : reply := Reply (result_response i JNull).

(** server.rs:202-221 [parser_plugins]; the id is not passed on when parsing
    failed. *)
Definition parser_plugins (i : option rpc_id) (p : parsed + list perror) : reply :=
  match p with
  | inl p => Reply (result_response i (JArr (put_plugin <$> pa_plugins p)))
  | inr errors => Reply (error_reports None (from_error <$> errors))
  end.

(** server.rs:223-247 [parser_directives], json_rpc.rs:91-96 [RawDirectives]. *)
Definition parser_directives (h : orders P) (i : option rpc_id) (p : parsed + list perror) : reply :=
  match p with
  | inl p =>
      Reply (result_response i
        (JObj [("directives", JArr ((λ d, put_directive (or_wire h) (from_directive d)) <$> pa_directives p));
               ("warnings", JNull)]))
  | inr errors => Reply (error_reports None (from_error <$> errors))
  end.

(** server.rs:249-265 [parser_options]. *)
Definition parser_options (h : orders P) (i : option rpc_id) (p : parsed + list perror) : reply :=
  match p with
  | inl p => Reply (result_response i (put_options h (from_options (pa_options p))))
  | inr errors => Reply (error_reports None (from_error <$> errors))
  end.

(** server.rs:267-296 [parser_format_report]: the text written for each report,
    and the buffer so far. *)
Definition line_end : string := String newline "".
Definition format_one (s : S) (warning : bool) (r : wire_report) : option string :=
  t ← src_write_report (env_sources env) s warning r;
  Some (t +:+ match wr_annotation r with Some a => a +:+ line_end | None => "" end).
Fixpoint format_reports (s : S) (warning : bool) (sep : bool) (rs : list wire_report) : option string :=
  match rs with
  | [] => Some ""
  | r :: rs' =>
      t ← format_one s warning r;
      rest ← format_reports s warning true rs';
      Some ((if sep then line_end else "") +:+ t +:+ rest)
  end.
Definition parser_format_report (i : option rpc_id) (s : S) (warning : bool) (rs : list wire_report) : reply :=
  match format_reports s warning false rs with
  | Some t => Reply (result_response i (JStr t))
  | None => Crash "write_report"
  end.

(** server.rs:298-311 [parser_resolve_spans]. *)
Definition parser_resolve_spans (i : option rpc_id) (s : S) (l : list span) : reply :=
  match mapM (src_resolve (env_sources env) s) l with
  | Some ss => Reply (result_response i (JArr (put_spanned_source <$> ss)))
  | None => Crash "resolve_span"
  end.

(** server.rs:312-333 [parser_create_synthetic_spans]. *)
Fixpoint create_spans (s : S) (l : list synthetic_span) : S * list span :=
  match l with
  | [] => (s, [])
  | x :: l' =>
      let '(s1, sp) := src_create (env_sources env) s (sy_name x) (sy_content x) in
      let '(s2, sps) := create_spans s1 l' in (s2, sp :: sps)
  end.
Definition parser_create_synthetic_spans (i : option rpc_id) (s : S) (l : list synthetic_span) : S * reply :=
  let '(s', sps) := create_spans s l in
  (s', Reply (result_response i (JArr (put_span <$> sps)))).

(** server.rs:335-398 [book], json_rpc.rs:98-102 [BookedDirectives]. *)
Definition book_request (h : orders P) (i : option rpc_id) (p : parsed + list perror)
    (params : option (list directive)) : reply :=
  match p with
  | inl p =>
      let '(ds, to_spans) :=
        match params with
        | Some ds => (ds, false)
        | None => (from_directive <$> pa_directives p, true)
        end in
      match book (env_booking env (pa_options p)) (or_accounts h) (po_booking_method (pa_options p)) ds with
      | BookSuccess bs _ =>
          Reply (result_response i (JObj [("directives", JArr (put_bdirective (or_wire h) <$> bs))]))
      | BookFailure errors =>
          if to_spans : bool then
            match create_reports_from_booking_errors errors ds with
            | Some rs => Reply (error_reports i (wire_of <$> rs))
            | None => Crash "unresolvable error"
            end
          else Reply (indexed_error_reports i errors)
      | BookPanic w => Crash w
      end
  | inr errors => Reply (error_reports i (from_error <$> errors))
  end.

(** ** Dispatch *)

(** server.rs:139-184: the match on health and method. *)
Definition dispatch_method (hl : health) (h : orders P) (s : S) (i : option rpc_id) (m : method) : S * reply :=
  match hl with
  | Unhealthy why => (s, Reply (other_error i ERROR_BEANFILE_IO_ERROR why))
  | Healthy p =>
      match m with
      | MStatus => (s, status i)
      | MPlugins => (s, parser_plugins i p)
      | MDirectives => (s, parser_directives h i p)
      | MOptions => (s, parser_options h i p)
      | MFormatErrors rs => (s, parser_format_report i s false rs)
      | MFormatWarnings rs => (s, parser_format_report i s true rs)
      | MResolveSpans l => (s, parser_resolve_spans i s l)
      | MCreateSyntheticSpans l => parser_create_synthetic_spans i s l
      | MBook params => (s, book_request h i p params)
      end
  end.

(** server.rs:116-188 [dispatch]. *)
Definition dispatch (hl : health) (h : orders P) (s : S) (line : string) : S * reply :=
  match read_request line with
  | None => (s, Reply (other_error None ERROR_PARSE (env_parse_message env line)))
  | Some rq =>
      if String.eqb (rq_jsonrpc rq) JSONRPC_VERSION then dispatch_method hl h s (rq_id rq) (rq_method rq)
      else (s, Reply (other_error (rq_id rq) ERROR_INVALID_REQUEST
                        ("JSON-RPC protocol must be 2.0, found " +:+ rq_jsonrpc rq)))
  end.

(** ** The loop *)

(** [BufRead::read_line]: up to and including a newline, or what is left. *)
Fixpoint read_lines (s : string) : list string :=
  match s with
  | EmptyString => []
  | String c s' =>
      if (c =? newline)%char then String c "" :: read_lines s'
      else match read_lines s' with [] => [String c ""] | l :: ls => String c l :: ls end
  end.

Inductive outcome := Exited (code : nat) | Panicked (why : string).

(** server.rs:81-114 [serve], from the [n]th line on.  The text written so far is
    the sequence of response lines.  [fails] says whether reading ends with an
    input/output error instead of the end of input. *)
Fixpoint serve_loop (hl : health) (hs : nat → orders P) (fails : bool) (n : nat) (s : S) (ls : list string)
    : string * outcome :=
  match ls with
  | [] => ("", Exited (if fails then 1 else 0))
  | l :: ls' =>
      if env_utf8 env l then
        match dispatch hl (hs n) s l with
        | (s', Reply j) =>
            let '(out, end_) := serve_loop hl hs fails (Datatypes.S n) s' ls' in
            (print_json j +:+ line_end +:+ out, end_)
        | (_, Crash w) => ("", Panicked w)
        end
      else ("", Exited 1)
  end.

(** What is read before an input/output error does not include an unfinished
    line. *)
Fixpoint terminated (l : string) : bool :=
  match l with EmptyString => false | String c l' => (c =? newline)%char || terminated l' end.
Definition serve (hl : health) (hs : nat → orders P) (s : S) (input : string) (fails : bool) : string * outcome :=
  serve_loop hl hs fails 0 s
    (if fails then filter (λ l, terminated l = true) (read_lines input) else read_lines input).

End Server.
