(** Theorems about the pipe between client and server. *)
From Coq Require Import Ascii QArith.
From stdpp Require Import prelude gmap strings.
From Verif Require Import DecModel LedgerTypes IsoModel JsonModel WireModel WireSpec BookModel BookLib SampleLib SampleLedgers WireSamples SpanModel
  ParserModel JsonText ServerModel ServerSpec ServerFacts ServerSamples TextFacts
  CljModel InventoryModel ClientModel FormatModel PluginModel LoaderModel EncodeModel ReadModel ReadSpec ReadFacts ReadWrite ReadProps
  SystemModel SystemFacts PipeModel PipeSpec PipeFacts.
Local Open Scope nat_scope.
Local Notation line_end := ServerModel.line_end.

Section Props.
Context {P S : Type} (env : server_env P S).
Context (jso : list json → list json) (jmo : list (string * json) → list (string * json)).
Context (hl : health) (hs : nat → orders P) (sources : S).

(** Whatever is called, the client never fails to write a call, never reads anything which
    is not an answer, and gets the answers it would get if messages were handed over as
    trees. *)
Theorem C85_session depth depth' calls : readable env jso jmo depth calls → 8 ≤ depth' →
  ∃ input, write_calls jso jmo 1 calls = Some input ∧
    read_answers depth' (length calls) (serve env hl (λ k, hs (Datatypes.S k)) sources input false).1 =
    Some (answers env jso jmo hl hs 1 (Some sources) calls).
Proof. intros [Hp Hc] Hd. by apply (session_loop env jso jmo hl hs depth depth' 0 sources calls). Qed.

(** In particular for what loading a file asks, after the status. *)
Definition call_of (r : pod_request) : string * option cval := (method_name r, request_params r).
Lemma answers_last n s h r :
  last (answers env jso jmo hl hs n s ((call_of <$> h) ++ [call_of r])) =
  Some (invoke env jso jmo hl hs (length h + n) (state_after env jso jmo hl hs n s h) (method_name r) (request_params r)).2.
Proof.
  revert n s. induction h as [|q h IH]; intros n s.
  - cbn. by destruct (invoke _ _ _ _ _ _ _ _ _).
  - cbn [fmap list_fmap app answers state_after call_of fst snd]. destruct (invoke _ _ _ _ _ n s _ _) as [s' a] eqn:E. cbn [fst].
    specialize (IH (Datatypes.S n) s'). rewrite last_cons, IH. do 3 f_equal. cbn. lia.
Qed.
Theorem C85_asked depth depth' h r : (∀ l, jmo l ≡ₚ l) →
  readable env jso jmo depth (("status", None) :: (call_of <$> h) ++ [call_of r]) → 8 ≤ depth' →
  ∃ input l, write_calls jso jmo 1 (("status", None) :: (call_of <$> h) ++ [call_of r]) = Some input ∧
    read_answers depth' (length h + 2) (serve env hl (λ k, hs (Datatypes.S k)) sources input false).1 = Some l ∧
    last l = Some (ask env jso jmo hl hs sources h r).
Proof.
  intros Hjmo Hr Hd. destruct (C85_session depth depth' _ Hr Hd) as (input&Hw&Ha). exists input. eexists. split; [done|].
  split; [etransitivity; [|exact Ha]; f_equal; cbn; rewrite app_length, fmap_length; cbn; lia|].
  cbn [answers fst snd]. destruct (invoke env jso jmo hl hs 1 (Some sources) "status" None) as [s' a] eqn:E.
  assert (s' = Some sources) as ->.
  { unfold invoke in E. unfold dispatch_tree in E. rewrite message_status in E by done. change (String.eqb (rq_jsonrpc _) _) with true in E. cbv iota in E.
    cbn [rq_id rq_method] in E. unfold dispatch_method in E. destruct hl; cbn in E; congruence. }
  rewrite last_cons, answers_last. done.
Qed.

(** Answers are never nested more than eight deep. *)
Theorem C85_shallow h s line s' r : dispatch env hl h s line = (s', Reply r) → nesting r ≤ 8.
Proof. apply dispatch_deep. Qed.

(** A call which is nested too deep for the server is refused as if it were not JSON, and
    without its number. *)
Theorem C85_too_deep depth h s j : (∀ l, env_parse env l = parse_json depth l) → depth < nesting j →
  ∃ r, dispatch env hl h s (generate_string j +:+ line_end) = (s, Reply r) ∧
    is_error JNull (-32700) (env_parse_message env (generate_string j +:+ line_end)) None r.
Proof.
  intros Hp Hd. assert (Hn : parse_json depth (generate_string j +:+ line_end) = None).
  { destruct (parse_json _ _) as [j'|] eqn:E; [|done]. exfalso. apply parse_json_spec in E. pose proof (C84_depth _ _ _ E) as H.
    assert (json_text (nesting j) (generate_string j +:+ line_end) j) as H'.
    { apply padded_pad; [|split; [auto|done]]. apply padded_self. by apply generate_string_text. }
    rewrite (C84_one_meaning _ _ _ _ _ E H') in H. lia. }
  apply malformed_answered. intros j' rq [H _]. by rewrite Hp, Hn in H.
Qed.
End Props.
Print Assumptions C85_session.
Print Assumptions C85_asked.
Print Assumptions C85_shallow.
Print Assumptions C85_too_deep.

(** The server of [ServerSamples.v], reading text. *)
Definition pipe_env : server_env holding sample_sources := ServerEnv holding _
  (env_booking sample_env) (env_sources sample_env) (parse_json 127) (env_parse_message sample_env) (env_dec_parse sample_env)
  (env_float sample_env) (env_layout sample_env) (env_utf8 sample_env).
Definition pipe_calls : list (string * option cval) :=
  [("status", None); ("parser.directives", None); ("book", None); ("parser.create-synthetic-spans", request_params (RSpans [("a", "first
line")])); ("parser.resolve-spans", Some (VVec [VVec [VNum (CLong 7); VNum (CLong 1); VNum (CLong 2)]])); ("status", None)].
Example C85_readable_example : readable pipe_env id id 127 pipe_calls.
Proof.
  split; [done|]. intros i c Hc. do 6 (destruct i as [|i]; [injection Hc as <-; split; [cbn; lia|by vm_compute]|]). done.
Qed.
(** The fifth call makes the server crash: there is no answer to it, nor to the sixth. *)
Example C85_session_example :
  let l := answers pipe_env id id good_health (λ _, sample_orders) 1 (Some sample_start) pipe_calls in
  map (λ a, bool_decide (is_Some (a_ok a))) l = [false; true; true; true; false; false] ∧
  l !! 3 = Some (Answer (Some (VVec [VVec [VNum (CLong 1); VNum (CLong 0); VNum (CLong 10)]])) None).
Proof. by vm_compute. Qed.
Definition deep_ledger : parsed :=
  Parsed [PDirective (Span 0 21 60) (day 2) no_metadata
            (PVTransaction FAsterisk None None
               [PPosting (Span 0 30 35) None "Assets:Bank" (Some (Dec 1 0)) (Some "USD") None None
                  (PMetadata [] [] [("lot", PMAmount (Dec 5 1) "USD")])])]
    (pa_options (sample_parsed true)) [].
Example C85_shallow_example : ∃ s r,
  dispatch sample_env (Healthy (inl deep_ledger)) sample_orders sample_start (line_of req_directives) = (s, Reply r) ∧ nesting r = 8.
Proof. do 2 eexists. split; [vm_compute; reflexivity|]. by vm_compute. Qed.
Definition nested (n : nat) : json := Nat.iter n (λ j, JArr [j]) JNull.
Example C85_too_deep_example : 127 < nesting (JObj [("params", nested 127)]) ∧ nesting (JObj [("params", nested 126)]) ≤ 127.
Proof. split; vm_compute; lia. Qed.
