(** What the client's requests are to the server, and the answers to the client. *)
From Coq Require Import Ascii QArith.
From stdpp Require Import prelude gmap strings.
From Verif Require Import DecModel LedgerTypes IsoModel IsoFacts JsonModel WireModel WireSpec WireFacts BookModel SpanModel ParserModel
  JsonText ServerModel ServerSpec ServerFacts CljModel InventoryModel ClientModel ClientDecode FormatModel PluginModel LoaderModel
  EncodeModel EncodeFacts EncodeStable SystemModel.
Local Open Scope nat_scope.

(** * Answers *)

Lemma counted_true v : truthy (Some v) = true → counted (Some v) = Some v.
Proof. intros H. unfold counted. by rewrite H. Qed.
Lemma answer_result {P S} (env : server_env P S) i r :
  answer_of (result_response env i r) = Answer (counted (Some (decode (Some "result") r))) None.
Proof.
  unfold answer_of, result_response. rewrite !vget_decode. by rewrite ?entries_cons_ne, ?entries_cons_eq, entries_nil by done.
Qed.
Definition error_value (code : Z) (m : string) (data : option json) : cval :=
  decode (Some "error") (JObj ([("code", of_Z code); ("message", JStr m)] ++ put_opt "data" id data)).
Lemma answer_error {P S} (env : server_env P S) i code m data :
  answer_of (error_response env i code m data) = Answer None (Some (error_value code m data)).
Proof.
  unfold answer_of, error_response. rewrite !vget_decode. by rewrite ?entries_cons_ne, ?entries_cons_eq, entries_nil by done.
Qed.
Lemma error_value_get code m data :
  vget "code" (error_value code m data) = Some (VNum (cn_of_dec (Dec code 0))) ∧
  vget "message" (error_value code m data) = Some (VStr m) ∧
  vget "data" (error_value code m data) = decode (Some "data") <$> data.
Proof.
  unfold error_value. rewrite !vget_decode. by destruct data.
Qed.
Lemma failure_report m data : failure_of (error_value ERROR_REPORT m data) = FSpanned (decode (Some "data") <$> data).
Proof. unfold failure_of. destruct (error_value_get ERROR_REPORT m data) as (->&_&->). done. Qed.
Lemma failure_indexed m data : failure_of (error_value ERROR_INDEXED_REPORT m data) = FIndexed (decode (Some "data") <$> data).
Proof. unfold failure_of. destruct (error_value_get ERROR_INDEXED_REPORT m data) as (->&_&->). done. Qed.
Lemma failure_parse m data : failure_of (error_value ERROR_PARSE m data) = FMessage (Some (VStr m)).
Proof. unfold failure_of. destruct (error_value_get ERROR_PARSE m data) as (->&->&_). done. Qed.

Section Facts.
Context {P S : Type} (env : server_env P S).
Context (jso : list json → list json) (jmo : list (string * json) → list (string * json)).
Context (Hjso : ∀ l, jso l ≡ₚ l) (Hjmo : ∀ l, jmo l ≡ₚ l).
Context (hl : health) (hs : nat → orders P) (sources : S).
Notation encode := (encode jso jmo).
Notation message := (message jso jmo).

(** * Requests *)

Lemma message_obj n m ps : ∃ fs, message n m ps = JObj fs ∧
  ∀ k, entries k fs = entries k ([("method", JStr m)] ++ put_opt "params" encode ps ++
                                 [("id", of_nat n); ("jsonrpc", JStr "2.0")]).
Proof.
  unfold SystemModel.message. cbn [EncodeModel.encode].
  eexists. split; [reflexivity|]. intros k. symmetry.
  assert (E : map (λ '(k, v), (k, encode v)) ([("method", VStr m)] ++ match ps with Some p => [("params", p)] | None => [] end ++
                        [("id", VNum (CLong (Z.of_nat n))); ("jsonrpc", VStr "2.0")]) =
    [("method", JStr m)] ++ put_opt "params" encode ps ++ [("id", of_nat n); ("jsonrpc", JStr "2.0")]) by by destruct ps.
  rewrite E. 
  assert (Hn : NoDup (([("method", JStr m)] ++ put_opt "params" encode ps ++ [("id", of_nat n); ("jsonrpc", JStr "2.0")]).*1)).
  { destruct ps; apply (bool_decide_unpack _); by vm_compute. }
  rewrite distinct_NoDup by done. apply entries_perm; [done|]. symmetry. apply Hjmo.
Qed.
Definition small (n : nat) : Prop := (Z.of_nat n < 2 ^ 31)%Z.
(** The request which a message is, by its method and its parameters. *)
Lemma message_request n m ps md : small n →
  (get_request env (message n m ps) = Some (Request "2.0" (Some (IdInt (Z.of_nat n))) md) ↔
   method_json (env_dec_parse env) ([("method", JStr m)] ++ put_opt "params" encode ps) md).
Proof.
  intros Hn. destruct (message_obj n m ps) as (fs&->&He). rewrite get_request_iff.
  assert (Hk : ∀ k, k ≠ "id" → k ≠ "jsonrpc" → entries k fs = entries k ([("method", JStr m)] ++ put_opt "params" encode ps)).
  { intros k H1 H2. rewrite He. rewrite !entries_app. rewrite (entries_cons_ne k "id"), (entries_cons_ne k "jsonrpc"), entries_nil, app_nil_r by done. done. }
  assert (Hm : method_json (env_dec_parse env) fs md ↔ method_json (env_dec_parse env) ([("method", JStr m)] ++ put_opt "params" encode ps) md).
  { destruct md; unfold method_json, WireSpec.has, has_opt; rewrite !Hk by done; done. }
  split.
  - intros (fs'&E&_&_&H). injection E as <-. by apply Hm.
  - intros H. exists fs. split; [done|]. split_and!.
    + unfold WireSpec.has. rewrite He. exists (JStr "2.0"). by destruct ps.
    + unfold has_opt. rewrite He. exists (of_nat n). split; [by destruct ps|]. split; [done|]. unfold small in Hn. cbn. split; [done|lia].
    + by apply Hm.
Qed.
(** Without parameters. *)
Lemma message_plain n r md : small n →
  (r, md) ∈ [(RPlugins, MPlugins); (ROptions, MOptions); (RDirectives, MDirectives); (RBook None, MBook None)] →
  get_request env (message n (method_name r) (request_params r)) = Some (Request "2.0" (Some (IdInt (Z.of_nat n))) md).
Proof.
  intros Hn H. apply message_request; [done|]. 
  repeat (apply elem_of_cons in H as [H|H]; [injection H as -> ->|]); [..|by apply elem_of_nil in H];
    cbn; try (by eexists). split; [by eexists|by left].
Qed.
Lemma message_status n : small n → get_request env (message n "status" None) = Some (Request "2.0" (Some (IdInt (Z.of_nat n))) MStatus).
Proof. intros Hn. apply message_request; [done|]. by eexists. Qed.
(** With a list. *)
Lemma list_json_mapM {A} (get : json → option A) (R : json → A → Prop) l xs :
  (∀ j x, get j = Some x ↔ R j x) → (list_json R (JArr l) xs ↔ mapM get l = Some xs).
Proof.
  intros H. unfold list_json. rewrite mapM_Some. split.
  - intros (l'&[= <-]&HF). eapply Forall2_impl; [exact HF|]. intros. by apply H.
  - intros HF. exists l. split; [done|]. eapply Forall2_impl; [exact HF|]. intros. by apply H.
Qed.
Lemma message_book n ds l : small n →
  mapM (get_directive (env_dec_parse env)) (encode <$> ds) = Some l →
  get_request env (message n "book" (Some (VVec ds))) = Some (Request "2.0" (Some (IdInt (Z.of_nat n))) (MBook (Some l))).
Proof.
  intros Hn Hl. apply message_request; [done|]. split; [by eexists|]. eexists. split; [reflexivity|]. split; [done|].
  eapply list_json_mapM; [apply get_directive_iff|]. exact Hl.
Qed.
Lemma message_book_refused n ds : small n →
  mapM (get_directive (env_dec_parse env)) (encode <$> ds) = None →
  get_request env (message n "book" (Some (VVec ds))) = None.
Proof.
  intros Hn Hl. destruct (get_request env (message n "book" (Some (VVec ds)))) as [rq|] eqn:E; [|done]. exfalso.
  destruct (message_obj n "book" (Some (VVec ds))) as (fs&E'&He). rewrite E' in E. apply get_request_iff in E as (fs'&[= <-]&_&_&Hm).
  assert (Ht : entries "method" fs = [JStr "book"]) by by rewrite He.
  assert (Hp : entries "params" fs = [encode (VVec ds)]) by by rewrite He.
  destruct (rq_method rq) as [| | | |rs|rs|l|l|o]; cbn [method_json] in Hm; unfold WireSpec.has, text_json in Hm; rewrite Ht in Hm.
  1-4: by destruct Hm as (?&[= <-]&?).
  1-4: by destruct Hm as ((?&[= <-]&?)&_).
  destruct Hm as (_&Hm). unfold has_opt in Hm. rewrite Hp in Hm. destruct o as [l|]; [|by destruct Hm].
  destruct Hm as (v&[= <-]&_&Hm). eapply list_json_mapM in Hm; [|apply get_directive_iff].
  change (map encode ds) with (encode <$> ds) in Hm. congruence.
Qed.
Lemma message_spans n rs : small n →
  get_request env (message n "parser.create-synthetic-spans" (request_params (RSpans rs))) =
  Some (Request "2.0" (Some (IdInt (Z.of_nat n))) (MCreateSyntheticSpans ((λ nc, SyntheticSpan nc.1 nc.2) <$> rs))).
Proof.
  intros Hn. apply message_request; [done|]. split; [by eexists|]. eexists. split; [reflexivity|].
  eapply list_json_mapM; [apply get_synthetic_iff|].
  apply mapM_Some. match goal with |- context [map ?f ?l] => change (map f l) with (f <$> l) end.
  rewrite <- list_fmap_compose. apply Forall2_fmap, Forall_Forall2_diag, Forall_true. intros [a b]. unfold compose. cbn [fst snd].
  assert (E : get_synthetic_span (encode (VMap [("name", VStr a); ("content", VStr b)])) = Some (SyntheticSpan a b)).
  { apply get_synthetic_iff. cbn [EncodeModel.encode map]. rewrite distinct_NoDup by (apply (bool_decide_unpack _); by vm_compute).
    eexists. split; [reflexivity|]. unfold WireSpec.has.
    assert (E : ∀ k, entries k (jmo [("name", JStr a); ("content", JStr b)]) = entries k [("name", JStr a); ("content", JStr b)]).
    { intros k. symmetry. apply entries_perm; [apply (bool_decide_unpack _); by vm_compute|]. by rewrite Hjmo. }
    setoid_rewrite E. split; by eexists. }
  exact E.
Qed.
Lemma message_format n rs l : small n →
  mapM get_report (encode <$> rs) = Some l →
  get_request env (message n "parser.format-errors" (Some (VVec rs))) = Some (Request "2.0" (Some (IdInt (Z.of_nat n))) (MFormatErrors l)).
Proof.
  intros Hn Hl. apply message_request; [done|]. split; [by eexists|]. eexists. split; [reflexivity|].
  eapply list_json_mapM; [apply get_report_iff|]. exact Hl.
Qed.

(** * Calls *)
Notation invoke := (invoke env jso jmo hl hs).
Lemma invoke_eq n s m ps i md : 
  get_request env (message n m ps) = Some (Request "2.0" i md) →
  invoke n (Some s) m ps =
  match dispatch_method env hl (hs n) s i md with
  | (s', Reply j) => (Some s', answer_of j)
  | (_, Crash _) => (None, no_answer)
  end.
Proof. intros H. unfold SystemModel.invoke, dispatch_tree. by rewrite H. Qed.
End Facts.
