(** What each request is answered with. *)
From Coq Require Import Ascii.
From stdpp Require Import prelude gmap strings.
From Verif Require Import DecModel LedgerTypes JsonModel IsoModel WireModel WireSpec WireFacts BookModel BookSpec
  ReportSpec SpanModel SpanSpec SpanFacts BookTotal ParserModel ParserSpec ParserFacts JsonText ServerModel ServerSpec TextFacts
  ServerFacts OutputSpec OutputFacts.

Section Answers.
Context {P S : Type} (env : server_env P S).

Lemma fmap_exact {A} (R : json → A → Prop) (f : A → json) l : (∀ x, R (f x) x) → Forall2 R (f <$> l) l.
Proof. intros HR. apply Forall2_fmap_l, Forall_Forall2_diag, Forall_forall. auto. Qed.

Lemma book_answer p h s line j rq params :
  any_order (or_wire h) → (∀ m, or_accounts h m ≡ₚ map_to_list m) →
  is_request env line j rq → rq_jsonrpc rq = "2.0" → rq_method rq = MBook params →
  match book (env_booking env (pa_options p)) (or_accounts h) (po_booking_method (pa_options p)) (ledger_of p params) with
  | BookSuccess bs _ => ∃ js r, dispatch env (Healthy (inl p)) h s line = (s, Reply r) ∧
      is_result (answer_id env rq) (JObj [("directives", JArr js)]) r ∧ Forall2 booked_json js bs
  | BookFailure es => ∃ js r, dispatch env (Healthy (inl p)) h s line = (s, Reply r) ∧
      match params with
      | Some _ => is_error (answer_id env rq) 3 "Error reports" (Some (JArr js)) r ∧
          Forall2 (indexed_json (env_layout env)) js es
      | None => is_error (answer_id env rq) 2 "Error reports" (Some (JArr js)) r ∧
          ∃ ss, Forall2 (spans_report (ledger_of p params)) es ss ∧
            Forall2 (λ j sr, spanned_json j (WireReport (sr_message sr) (sr_reason sr) (sr_span sr) (sr_contexts sr)
                               (sr_related sr) (env_layout env <$> sr_annotation sr))) js ss
      end
  | BookPanic w => (dispatch env (Healthy (inl p)) h s line).2 = Crash w
  end.
Proof.
  intros Hw Ha Hr Hv Hm. rewrite (dispatch_ok _ _ _ _ _ _ _ Hr Hv), Hm. cbn [dispatch_method]. unfold book_request.
  destruct params as [ds|]; cbn [ledger_of].
  - destruct (book _ _ _ ds) as [bs ws|es|w]; [| |done].
    + eexists _, _. split; [done|]. split; [apply result_shape|]. apply fmap_exact. intros. by apply put_bdirective_exact.
    + eexists _, _. split; [done|]. split; [apply error_shape|]. apply fmap_exact, put_indexed_exact.
  - destruct (book _ _ _ _) as [bs ws|es|w] eqn:E; [| |done].
    + eexists _, _. split; [done|]. split; [apply result_shape|]. apply fmap_exact. intros. by apply put_bdirective_exact.
    + destruct (errors_located _ _ _ _ _ Ha E) as [_ Hsp].
      destruct (Hsp (parsed_spans _)) as (ss & Hss & Hf). rewrite Hss.
      eexists _, _. split; [done|]. split; [apply error_shape|]. exists ss. split; [done|].
      rewrite <- list_fmap_compose. apply fmap_exact. intros sr. apply put_report_exact.
Qed.

Lemma directives_shown p h s line j rq :
  any_order (or_wire h) →
  Forall ok_directive (from_directive <$> pa_directives p) →
  is_request env line j rq → rq_jsonrpc rq = "2.0" → rq_method rq = MDirectives →
  ∃ js ds r, dispatch env (Healthy (inl p)) h s line = (s, Reply r) ∧
    is_result (answer_id env rq) (JObj [("directives", JArr js); ("warnings", JNull)]) r ∧
    Forall2 shows (pa_directives p) ds ∧ Forall2 (directive_json (env_dec_parse env)) js ds.
Proof.
  intros Hw Hok Hr Hv Hm.
  destruct (directives_answer env p h s line j rq Hr Hv Hm) as (r & Hd & Hres).
  eexists _, (from_directive <$> pa_directives p), r. split; [done|]. split; [exact Hres|]. split.
  - apply Forall2_fmap_r, Forall_Forall2_diag, Forall_forall. intros x _. apply from_directive_shows.
  - rewrite (list_fmap_compose from_directive (put_directive (or_wire h))). by apply mapM_put_directive.
Qed.

Lemma options_shown p h s line j rq :
  any_order (or_wire h) → (∀ m, or_numbers h m ≡ₚ map_to_list m) →
  is_request env line j rq → rq_jsonrpc rq = "2.0" → rq_method rq = MOptions →
  ∃ o r, dispatch env (Healthy (inl p)) h s line = (s, Reply r) ∧
    is_result (answer_id env rq) o r ∧ options_json o (pa_options p).
Proof.
  intros Hw Hn Hr Hv Hm. rewrite (dispatch_ok _ _ _ _ _ _ _ Hr Hv), Hm. eexists _, _. split; [done|].
  split; [apply result_shape|]. by apply put_options_exact.
Qed.

Lemma plugins_shown p h s line j rq :
  is_request env line j rq → rq_jsonrpc rq = "2.0" → rq_method rq = MPlugins →
  ∃ js r, dispatch env (Healthy (inl p)) h s line = (s, Reply r) ∧
    is_result (answer_id env rq) (JArr js) r ∧ Forall2 plugin_json js (pa_plugins p).
Proof.
  intros Hr Hv Hm. rewrite (dispatch_ok _ _ _ _ _ _ _ Hr Hv), Hm. eexists _, _. split; [done|].
  split; [apply result_shape|]. apply fmap_exact, put_plugin_exact.
Qed.

Lemma status_answer p h s line j rq :
  is_request env line j rq → rq_jsonrpc rq = "2.0" → rq_method rq = MStatus →
  ∃ r, dispatch env (Healthy p) h s line = (s, Reply r) ∧ is_result (answer_id env rq) JNull r.
Proof.
  intros Hr Hv Hm. rewrite (dispatch_ok _ _ _ _ _ _ _ Hr Hv), Hm. eexists. split; [done|]. apply result_shape.
Qed.

Lemma resolve_shown p h s line j rq l :
  is_request env line j rq → rq_jsonrpc rq = "2.0" → rq_method rq = MResolveSpans l →
  match mapM (src_resolve (env_sources env) s) l with
  | Some ss => ∃ js r, dispatch env (Healthy p) h s line = (s, Reply r) ∧
      is_result (answer_id env rq) (JArr js) r ∧ Forall2 source_json js ss
  | None => ∃ w, dispatch env (Healthy p) h s line = (s, Crash w)
  end.
Proof.
  intros Hr Hv Hm. rewrite (dispatch_ok _ _ _ _ _ _ _ Hr Hv), Hm. cbn [dispatch_method]. unfold parser_resolve_spans.
  destruct (mapM _ l) as [ss|]; [|by eexists]. eexists _, _. split; [done|].
  split; [apply result_shape|]. apply fmap_exact, put_source_exact.
Qed.

(** [answer_id] is the id of the request, unless that is a large integer. *)
Lemma answer_id_kept line j rq : is_request env line j rq →
  (∀ z, rq_id rq ≠ Some (IdFloat z)) → answer_id env rq = id_of j.
Proof. intros [_ H]. by apply id_kept. Qed.
End Answers.
