(** The server.  [env] is everything the server relies on: the booking library,
    the source map, the JSON reader.  [hl] is the result of loading the ledger,
    [hs n] the hash orders used for the [n]th line, [s] the state of the source
    map. *)
From Coq Require Import Ascii QArith.
From stdpp Require Import prelude gmap strings.
From Verif Require Import DecModel LedgerTypes JsonModel IsoModel WireModel WireSpec WireFacts BookModel BookSpec BookLib
  ReportSpec SpanModel SpanSpec SimFacts ParserModel ParserSpec ParserFacts JsonText ServerModel ServerSpec TextFacts ServerFacts
  OutputSpec AnswerFacts SampleLib SampleLedgers WireSamples ServerSamples.
Local Open Scope nat_scope.

(** ** C29: one response line per request line *)

(** Every input consists of lines. *)
Theorem C29_input_lines : ∀ input, ∃ lines rest, splits_into input lines rest.
Proof. exact split_exists. Qed.
Print Assumptions C29_input_lines.

(** The output is one line for each answered line, in order.  All lines are
    answered, unless one of them is not text or makes the server panic. *)
Theorem C29_one_response_per_line :
  ∀ P S (env : server_env P S) hl hs s input fails lines rest out e,
    splits_into input lines rest → serve env hl hs s input fails = (out, e) →
    ∃ answered todo s' js, lines_taken lines rest fails = answered ++ todo ∧
      session env hl hs 0 s answered s' js ∧ length js = length answered ∧
      out = join ((λ j, print_json j +:+ line_end) <$> js) ∧
      match todo with
      | [] => e = Exited (if fails then 1 else 0)
      | l :: _ => (env_utf8 env l = false ∧ e = Exited 1) ∨
          env_utf8 env l = true ∧
          ∃ w s2, dispatch env hl (hs (length answered)) s' l = (s2, Crash w) ∧ e = Panicked w
      end.
Proof. exact @serve_session. Qed.
Print Assumptions C29_one_response_per_line.

Theorem C29_response_is_one_line : ∀ j, ¬ occurs newline (print_json j).
Proof. exact no_newline_json. Qed.
Print Assumptions C29_response_is_one_line.

(** The panics: booking a ledger with a pad from an account which was not opened,
    or a span which the source map does not know. *)
Theorem C29_panic_causes :
  ∀ P S (env : server_env P S) hl h s line s' w,
    (∀ m, or_accounts h m ≡ₚ map_to_list m) →
    dispatch env hl h s line = (s', Crash w) →
    ∃ j rq p, is_request env line j rq ∧ hl = Healthy p ∧
      match rq_method rq with
      | MBook params => ∃ pd, p = inl pd ∧
          ∃ j dj b k dk pad, ledger_of pd params !! j = Some dj ∧ d_variant dj = DBalance b ∧
            k < j ∧ ledger_of pd params !! k = Some dk ∧ d_variant dk = DPad pad ∧ pad_acc pad = bal_acc b ∧
            ∀ i o, i < j → ¬ opens_at (ledger_of pd params) i (pad_source pad) o
      | MFormatErrors rs => ∃ r, r ∈ rs ∧ src_write_report (env_sources env) s false r = None
      | MFormatWarnings rs => ∃ r, r ∈ rs ∧ src_write_report (env_sources env) s true r = None
      | MResolveSpans l => ∃ x, x ∈ l ∧ src_resolve (env_sources env) s x = None
      | _ => False
      end.
Proof. exact @crash_cause. Qed.
Print Assumptions C29_panic_causes.

Example C29_example :
  splits_into (join (line_of <$> [req_status; req_create])) [print_json req_status; print_json req_create] "" ∧
  (serve sample_env good_health (λ _, sample_orders) sample_start
     (join (line_of <$> [req_status; req_create]) +:+ "nonsense") false) =
    (join (line_of <$>
       [ JObj [("jsonrpc", JStr "2.0"); ("id", JNum (Dec 7 0)); ("result", JNull)];
         JObj [("jsonrpc", JStr "2.0"); ("id", JNum (Dec 11 0));
               ("result", JArr [put_span (Span 1 0 5); put_span (Span 2 0 6)])];
         JObj [("jsonrpc", JStr "2.0"); ("id", JNull);
               ("error", JObj [("code", JNum (Dec (-32700) 0)); ("message", JStr "expected value")])] ]), Exited 0) ∧
  (serve sample_env good_health (λ _, sample_orders) sample_start
     (join (line_of <$> [req_status]) +:+ "nonsense") true).2 = Exited 1 ∧
  (serve sample_env good_health (λ _, sample_orders) sample_start (join (line_of <$> [req_lost; req_status])) false) =
    ("", Panicked "resolve_span").
Proof.
  split; [|by vm_compute]. split; [by vm_compute|]. split.
  - intros l [->|[->|?%elem_of_nil]%elem_of_cons]%elem_of_cons; [apply no_newline_json..|done].
  - by vm_compute.
Qed.

(** ** C30: responses carry the request's id *)

(** This is false when the ledger did not parse. *)
Theorem C30_refuted :
  ∃ (env : server_env holding sample_sources) hl h s line j rq s' r,
    is_request env line j rq ∧ dispatch env hl h s line = (s', Reply r) ∧ id_of r ≠ id_of j.
Proof.
  exists sample_env, sample_broken, sample_orders, sample_start, (line_of req_plugins), req_plugins,
    (Request "2.0" (Some (IdInt 8)) MPlugins).
  eexists _, _. split; [by apply sample_is_request; vm_compute|]. split; [vm_compute; reflexivity|]. by vm_compute.
Qed.
Print Assumptions C30_refuted.

(** The id is kept, unless the ledger did not parse and the request asks for what
    was parsed, or the id is an integer of more than 32 bits. *)
Theorem C30_id_partial :
  ∀ P S (env : server_env P S) hl h s line j rq s' r,
    is_request env line j rq → dispatch env hl h s line = (s', Reply r) →
    (∀ z, rq_id rq ≠ Some (IdFloat z)) →
    ¬ (rq_jsonrpc rq = "2.0" ∧ (∃ es, hl = Healthy (inr es)) ∧ fetches (rq_method rq) = true) →
    id_of r = id_of j.
Proof. exact @id_preserved. Qed.
Print Assumptions C30_id_partial.

(** In the first of these cases it is lost. *)
Theorem C30_id_lost :
  ∀ P S (env : server_env P S) es h s line j rq s' r,
    is_request env line j rq → dispatch env (Healthy (inr es)) h s line = (s', Reply r) →
    rq_jsonrpc rq = "2.0" → fetches (rq_method rq) = true → id_of r = JNull.
Proof. exact @id_lost. Qed.
Print Assumptions C30_id_lost.

Example C30_example :
  is_request sample_env (line_of req_directives) req_directives (Request "2.0" (Some (IdString "abc")) MDirectives) ∧
  (∃ r, ask good_health req_directives = (sample_start, Reply r) ∧ id_of r = JStr "abc") ∧
  (∃ r, ask sample_broken req_directives = (sample_start, Reply r) ∧ id_of r = JNull) ∧
  (∃ r, ask sample_broken req_book = (sample_start, Reply r) ∧ id_of r = id_of req_book) ∧
  is_request sample_env (line_of req_big) req_big (Request "2.0" (Some (IdFloat 4294967296)) MStatus) ∧
  (∃ r, ask good_health req_big = (sample_start, Reply r) ∧ id_of r = JNum (Dec 42949672960 1)).
Proof.
  split; [by apply sample_is_request; vm_compute|]. split; [by eexists; vm_compute|].
  split; [by eexists; vm_compute|]. split; [by eexists; vm_compute|].
  split; [by apply sample_is_request; vm_compute|by eexists; vm_compute].
Qed.

(** ** C31: error precedence and codes *)
Theorem C31_malformed :
  ∀ P S (env : server_env P S) hl h s line,
    (∀ j rq, ¬ is_request env line j rq) →
    ∃ r, dispatch env hl h s line = (s, Reply r) ∧ is_error JNull (-32700) (env_parse_message env line) None r.
Proof. exact @malformed_answered. Qed.
Print Assumptions C31_malformed.

Theorem C31_wrong_version :
  ∀ P S (env : server_env P S) hl h s line j rq,
    is_request env line j rq → rq_jsonrpc rq ≠ "2.0" →
    ∃ r, dispatch env hl h s line = (s, Reply r) ∧
      is_error (answer_id env rq) (-32600) ("JSON-RPC protocol must be 2.0, found " +:+ rq_jsonrpc rq) None r.
Proof. exact @dispatch_version. Qed.
Print Assumptions C31_wrong_version.

Theorem C31_unhealthy :
  ∀ P S (env : server_env P S) why h s line j rq,
    is_request env line j rq → rq_jsonrpc rq = "2.0" →
    ∃ r, dispatch env (Unhealthy why) h s line = (s, Reply r) ∧ is_error (answer_id env rq) 1 why None r.
Proof. exact @dispatch_unhealthy. Qed.
Print Assumptions C31_unhealthy.

Theorem C31_response_shape :
  ∀ P S (env : server_env P S) hl h s line s' r,
    dispatch env hl h s line = (s', Reply r) →
    ∃ fs i, r = JObj fs ∧ entries "jsonrpc" fs = [JStr "2.0"] ∧ entries "id" fs = [i] ∧
      ((∃ x, entries "result" fs = [x] ∧ entries "error" fs = []) ∨
       (∃ x, entries "result" fs = [] ∧ entries "error" fs = [x])).
Proof. exact @response_shape. Qed.
Print Assumptions C31_response_shape.

(** What a request is, and that a line is at most one request. *)
Theorem C31_requests :
  ∀ P S (env : server_env P S) j rq, get_request env j = Some rq ↔ request_json (env_dec_parse env) j rq.
Proof. exact @get_request_iff. Qed.
Print Assumptions C31_requests.

Example C31_example :
  is_request sample_env (line_of req_old) req_old (Request "1.0" (Some (IdInt 3)) MStatus) ∧
  (∀ j rq, ¬ is_request sample_env (line_of req_unknown) j rq) ∧
  (∀ j rq, ¬ is_request sample_env "" j rq) ∧
  (∃ r, ask (Unhealthy "gone") req_old = (sample_start, Reply r) ∧
        is_error (JNum (Dec 3 0)) (-32600) "JSON-RPC protocol must be 2.0, found 1.0" None r) ∧
  (∃ r, ask (Unhealthy "gone") req_status = (sample_start, Reply r) ∧ is_error (JNum (Dec 7 0)) 1 "gone" None r).
Proof.
  split; [by apply sample_is_request; vm_compute|].
  split; [by apply read_request_None; vm_compute|]. split; [by apply read_request_None; vm_compute|].
  split; by eexists; vm_compute.
Qed.

(** ** C32: requests are independent *)

(** The answer to a request about the ledger depends on the ledger only: it is the
    same in any two states. *)
Theorem C32_ledger_answers :
  ∀ P S (env : server_env P S) hl h s1 s2 line,
    (∀ j rq, is_request env line j rq → about_ledger (rq_method rq) = true) →
    (dispatch env hl h s1 line).2 = (dispatch env hl h s2 line).2.
Proof. exact @ledger_independent. Qed.
Print Assumptions C32_ledger_answers.

(** The state after a session is made by the synthetic spans asked for, in
    order. *)
Theorem C32_state :
  ∀ P S (env : server_env P S) p hs n s ls s' js,
    session env (Healthy p) hs n s ls s' js →
    ∃ asks, Forall2 (asked_for env) ls asks ∧ s' = create_all env s (mjoin asks).
Proof. exact @session_asked. Qed.
Print Assumptions C32_state.

Theorem C32_unhealthy_state :
  ∀ P S (env : server_env P S) why hs n s ls s' js,
    session env (Unhealthy why) hs n s ls s' js → s' = s.
Proof. exact @unhealthy_state. Qed.
Print Assumptions C32_unhealthy_state.

Example C32_example :
  (∃ js, session sample_env good_health (λ _, sample_orders) 0 sample_start
           (line_of <$> [req_book; req_create; req_status]) (sample_start ++ [("a", "first"); ("b", "second")]) js ∧
         length js = 3) ∧
  asked_for sample_env (line_of req_create) [SyntheticSpan "a" "first"; SyntheticSpan "b" "second"].
Proof.
  split.
  - eexists. split; [repeat (eapply session_cons; [vm_compute; reflexivity|]); apply session_nil|done].
  - left. exists req_create, (Some (IdInt 11)). by apply sample_is_request; vm_compute.
Qed.

(** ** C33: booking the fetched directives equals booking the ledger *)
Theorem C33_fetched_booked :
  ∀ P S (env : server_env P S) p (h0 h1 h2 : orders P) s1 s2 line1 line2 v1 i1 v2 j1 rq1,
    any_order (or_wire h0) →
    (∀ m, or_accounts h1 m ≡ₚ map_to_list m) → (∀ m, or_accounts h2 m ≡ₚ map_to_list m) →
    lib_ext (env_booking env (pa_options p)) →
    Forall ok_directive (from_directive <$> pa_directives p) →
    (** the first request books the ledger *)
    is_request env line1 j1 rq1 → rq1 = Request "2.0" i1 (MBook None) → v1 = or_null (put_id env) i1 →
    (** the second books the directives as they were fetched with hash orders [h0] *)
    env_parse env line2 = Some (JObj [("jsonrpc", JStr "2.0"); ("id", v2); ("method", JStr "book");
      ("params", JArr ((λ d, put_directive (or_wire h0) (from_directive d)) <$> pa_directives p))]) →
    (∃ i2, id_json v2 i2 ∧ ∀ z, i2 ≠ IdFloat z) →
    let ds := from_directive <$> pa_directives p in
    let r1 := (dispatch env (Healthy (inl p)) h1 s1 line1).2 in
    let r2 := (dispatch env (Healthy (inl p)) h2 s2 line2).2 in
    (∃ bs j1 j2, r1 = Reply j1 ∧ r2 = Reply j2 ∧
       is_result v1 (JObj [("directives", JArr (put_bdirective (or_wire h1) <$> bs))]) j1 ∧
       is_result v2 (JObj [("directives", JArr (put_bdirective (or_wire h2) <$> bs))]) j2) ∨
    (∃ es1 es2 ss j1 j2, r1 = Reply j1 ∧ r2 = Reply j2 ∧ es1 ≡ₚ es2 ∧ es1 ≠ [] ∧ Forall2 (spans_report ds) es1 ss ∧
       is_error v1 2 "Error reports" (Some (JArr (put_report <$> (wire_of env <$> ss)))) j1 ∧
       is_error v2 3 "Error reports" (Some (JArr (put_indexed_report env <$> es2))) j2) ∨
    (∃ w, r1 = Crash w ∧ r2 = Crash w).
Proof. exact @fetched_booked. Qed.
Print Assumptions C33_fetched_booked.

Example C33_example :
  Forall ok_directive (from_directive <$> pa_directives (sample_parsed true)) ∧
  lib_ext (env_booking sample_env (pa_options (sample_parsed true))) ∧
  is_request sample_env (line_of req_book) req_book (Request "2.0" (Some (IdInt 12)) (MBook None)) ∧
  env_parse sample_env (line_of (req_book_these true)) = Some (req_book_these true) ∧
  (∃ x j1 j2, ask good_health req_book = (sample_start, Reply j1) ∧
     ask good_health (req_book_these true) = (sample_start, Reply j2) ∧
     is_result (JNum (Dec 12 0)) (JObj [("directives", JArr x)]) j1 ∧
     is_result (JNum (Dec 13 0)) (JObj [("directives", JArr x)]) j2 ∧ length x = 3) ∧
  (∃ e j2, ask bad_health (req_book_these false) = (sample_start, Reply j2) ∧
     is_error (JNum (Dec 13 0)) 3 "Error reports" (Some (JArr [e])) j2).
Proof.
  split; [exact sample_ok|]. split; [exact sample_lib_ext|]. split; [by apply sample_is_request; vm_compute|].
  split; [by vm_compute|]. split; [eexists _, _, _|eexists _, _]; vm_compute; repeat split.
Qed.

(** ** C60: the fetched directives show what was parsed *)
Theorem C60_directives_shown :
  ∀ P S (env : server_env P S) p h s line j rq,
    any_order (or_wire h) → Forall ok_directive (from_directive <$> pa_directives p) →
    is_request env line j rq → rq_jsonrpc rq = "2.0" → rq_method rq = MDirectives →
    ∃ js ds r, dispatch env (Healthy (inl p)) h s line = (s, Reply r) ∧
      is_result (answer_id env rq) (JObj [("directives", JArr js); ("warnings", JNull)]) r ∧
      Forall2 shows (pa_directives p) ds ∧ Forall2 (directive_json (env_dec_parse env)) js ds.
Proof. exact @directives_shown. Qed.
Print Assumptions C60_directives_shown.

(** What is shown is all there is: two parsed directives look the same only if
    they say the same. *)
Theorem C60_nothing_lost : ∀ d d', from_directive d = from_directive d' ↔ same_parsed d d'.
Proof. exact from_directive_iff. Qed.
Print Assumptions C60_nothing_lost.

Theorem C60_options_shown :
  ∀ P S (env : server_env P S) p h s line j rq,
    any_order (or_wire h) → (∀ m, or_numbers h m ≡ₚ map_to_list m) →
    is_request env line j rq → rq_jsonrpc rq = "2.0" → rq_method rq = MOptions →
    ∃ o r, dispatch env (Healthy (inl p)) h s line = (s, Reply r) ∧
      is_result (answer_id env rq) o r ∧ options_json o (pa_options p).
Proof. exact @options_shown. Qed.
Print Assumptions C60_options_shown.

Theorem C60_plugins_shown :
  ∀ P S (env : server_env P S) p h s line j rq,
    is_request env line j rq → rq_jsonrpc rq = "2.0" → rq_method rq = MPlugins →
    ∃ js r, dispatch env (Healthy (inl p)) h s line = (s, Reply r) ∧
      is_result (answer_id env rq) (JArr js) r ∧ Forall2 plugin_json js (pa_plugins p).
Proof. exact @plugins_shown. Qed.
Print Assumptions C60_plugins_shown.

(** If the ledger did not parse, all of these, and booking, answer with all the
    parse errors. *)
Theorem C60_parse_errors :
  ∀ P S (env : server_env P S) es h s line j rq,
    is_request env line j rq → rq_jsonrpc rq = "2.0" →
    (fetches (rq_method rq) = true ∨ ∃ ps, rq_method rq = MBook ps) →
    ∃ i r, dispatch env (Healthy (inr es)) h s line = (s, Reply r) ∧
      is_error i 2 "Error reports"
        (Some (JArr ((λ e, put_report (WireReport (pe_message e) (pe_reason e) (pe_span e)
                 (match pe_contexts e with [] => None | l => Some l end)
                 (match pe_related e with [] => None | l => Some l end) None)) <$> es))) r.
Proof. exact @parse_errors_answer. Qed.
Print Assumptions C60_parse_errors.

Theorem C60_report_form : ∀ r, spanned_json (put_report r) r.
Proof. exact OutputFacts.put_report_exact. Qed.
Print Assumptions C60_report_form.

Example C60_example :
  (∃ o fs r, ask good_health req_options = (sample_start, Reply r) ∧ is_result JNull o r ∧ o = JObj fs ∧
     entries "inferred-tolerance-default" fs = [JObj [("USD", JNum (Dec 5 2))]] ∧
     entries "inferred-tolerance-default-fallback" fs = [JNum (Dec 1 2)]) ∧
  same_parsed
    (PDirective (Span 0 0 1) (day 1) (PMetadata ["a"; "b"; "a"] [] [("k", PMSimple SVNull); ("k", PMSimple (SVBool true))]) (PVClose "A"))
    (PDirective (Span 0 0 1) (day 1) (PMetadata ["b"; "a"] [] [("k", PMSimple (SVBool true))]) (PVClose "A")) ∧
  ¬ same_parsed
    (PDirective (Span 0 0 1) (day 1) (PMetadata [] [] []) (PVPad "A" "B"))
    (PDirective (Span 0 0 1) (day 1) (PMetadata [] [] []) (PVPad "B" "A")).
Proof.
  split; [eexists _, _, _; vm_compute; repeat split|]. split.
  - split; [done|]. split; [done|]. split; [|done]. split; [intros x; set_solver|]. split; [done|].
    intros k. unfold value_of. cbn [pdr_metadata pm_key_values]. destruct (decide ("k" = k)) as [<-|].
    + by rewrite !entries_cons_eq.
    + by rewrite !entries_cons_ne by done.
  - by intros (_ & _ & _ & H).
Qed.

(** ** C61: batch requests are answered item by item *)
Theorem C61_formatted :
  ∀ P S (env : server_env P S) p h s line j rq (w : bool) rs s' r,
    is_request env line j rq → rq_jsonrpc rq = "2.0" →
    rq_method rq = (if w then MFormatWarnings rs else MFormatErrors rs) →
    dispatch env (Healthy p) h s line = (s', Reply r) →
    (** the texts of the reports, each followed by its annotation *)
    ∃ ts, Forall2 (λ rep t, ∃ u, src_write_report (env_sources env) s w rep = Some u ∧
              t = u +:+ match wr_annotation rep with Some a => a +:+ line_end | None => "" end) rs ts ∧
      is_result (answer_id env rq) (JStr (String.concat line_end ts)) r.
Proof. exact @format_answer. Qed.
Print Assumptions C61_formatted.

Theorem C61_resolved :
  ∀ P S (env : server_env P S) p h s line j rq l,
    is_request env line j rq → rq_jsonrpc rq = "2.0" → rq_method rq = MResolveSpans l →
    match mapM (src_resolve (env_sources env) s) l with
    | Some ss => ∃ js r, dispatch env (Healthy p) h s line = (s, Reply r) ∧
        is_result (answer_id env rq) (JArr js) r ∧ Forall2 source_json js ss
    | None => ∃ w, dispatch env (Healthy p) h s line = (s, Crash w)
    end.
Proof. exact @resolve_shown. Qed.
Print Assumptions C61_resolved.

(** The [k]th span is the one made for the [k]th item, after those before it. *)
Theorem C61_created :
  ∀ P S (env : server_env P S) p h s line j rq l s' r,
    is_request env line j rq → rq_jsonrpc rq = "2.0" → rq_method rq = MCreateSyntheticSpans l →
    dispatch env (Healthy p) h s line = (s', Reply r) →
    ∃ sps, length sps = length l ∧
      (∀ k x, l !! k = Some x →
         sps !! k = Some (src_create (env_sources env) (create_all env s (take k l)) (sy_name x) (sy_content x)).2) ∧
      is_result (answer_id env rq) (JArr (put_span <$> sps)) r.
Proof. exact @create_answer. Qed.
Print Assumptions C61_created.

Example C61_example :
  (∃ r, ask good_health req_format = (sample_start, Reply r) ∧
     is_result (JNum (Dec 9 0)) (JStr (join ((λ l, l +:+ line_end) <$> ["error: oops"; "| table |"; ""; "error: oops"; "| table |"]))) r) ∧
  (∃ r, ask good_health req_create = (sample_start ++ [("a", "first"); ("b", "second")], Reply r) ∧
     is_result (JNum (Dec 11 0)) (JArr [put_span (Span 1 0 5); put_span (Span 2 0 6)]) r) ∧
  (∃ r, ask good_health req_resolve = (sample_start, Reply r)) ∧
  (∃ w, ask good_health req_lost = (sample_start, Crash w)).
Proof. split; [|split; [|split]]; by eexists; vm_compute. Qed.

(** ** C62: what a book request is answered with *)
Theorem C62_book_answer :
  ∀ P S (env : server_env P S) p h s line j rq params,
    any_order (or_wire h) → (∀ m, or_accounts h m ≡ₚ map_to_list m) →
    is_request env line j rq → rq_jsonrpc rq = "2.0" → rq_method rq = MBook params →
    match book (env_booking env (pa_options p)) (or_accounts h) (po_booking_method (pa_options p)) (ledger_of p params) with
    | BookSuccess bs _ => ∃ js r, dispatch env (Healthy (inl p)) h s line = (s, Reply r) ∧
        is_result (answer_id env rq) (JObj [("directives", JArr js)]) r ∧ Forall2 booked_json js bs
    | BookFailure es => ∃ js r, dispatch env (Healthy (inl p)) h s line = (s, Reply r) ∧
        match params with
        | Some _ => is_error (answer_id env rq) 3 "Error reports" (Some (JArr js)) r ∧
            Forall2 (indexed_json (env_layout env)) js es
        | None => is_error (answer_id env rq) 2 "Error reports" (Some (JArr js)) r ∧
            ∃ ss, Forall2 (spans_report (ledger_of p params)) es ss ∧
              Forall2 (λ j sr, spanned_json j (WireReport (sr_message sr) (sr_reason sr) (sr_span sr) (sr_contexts sr)
                                 (sr_related sr) (env_layout env <$> sr_annotation sr))) js ss
        end
    | BookPanic w => (dispatch env (Healthy (inl p)) h s line).2 = Crash w
    end.
Proof. exact @book_answer. Qed.
Print Assumptions C62_book_answer.

Theorem C62_status :
  ∀ P S (env : server_env P S) p h s line j rq,
    is_request env line j rq → rq_jsonrpc rq = "2.0" → rq_method rq = MStatus →
    ∃ r, dispatch env (Healthy p) h s line = (s, Reply r) ∧ is_result (answer_id env rq) JNull r.
Proof. exact @status_answer. Qed.
Print Assumptions C62_status.

Example C62_example :
  any_order (or_wire sample_orders) ∧ (∀ m, or_accounts sample_orders m ≡ₚ map_to_list m) ∧
  (∃ ds, is_request sample_env (line_of (req_book_these true)) (req_book_these true)
    (Request "2.0" (Some (IdInt 13)) (MBook (Some ds))) ∧ length ds = 3) ∧
  (∃ e j2, ask bad_health req_book = (sample_start, Reply j2) ∧
     is_error (JNum (Dec 12 0)) 2 "Error reports" (Some (JArr [e])) j2).
Proof.
  split; [done|]. split; [apply sample_ord_perm|].
  split; [eexists; split; [apply sample_is_request; [by vm_compute|vm_compute; reflexivity]|done]|].
  eexists _, _; vm_compute; repeat split.
Qed.
