(** The server. *)
From Coq Require Import Ascii.
From stdpp Require Import prelude gmap strings.
From Verif Require Import DecModel LedgerTypes JsonModel IsoModel WireModel WireSpec WireFacts BookModel BookSpec
  ReportSpec SpanModel SpanSpec SpanFacts BookTotal BookLib SimFacts ParserModel JsonText ServerModel ServerSpec TextFacts.

(** ** Requests *)

Lemma get_id_iff j i : get_id j = Some i ↔ id_json j i.
Proof.
  destruct j as [|b|[z sc]|s|l|fs]; cbn [get_id];
    try (split; [done|]; destruct i; cbn; unfold name_json; naive_solver).
  - destruct sc as [|sc]; [|split; [done|]; destruct i; cbn; unfold name_json; naive_solver].
    destruct (_ && _)%Z eqn:E1.
    + apply andb_true_iff in E1 as [H1%Z.leb_le H2%Z.leb_le]. split.
      * intros [= <-]. cbn. split; [done|lia].
      * destruct i as [s|z'|z']; cbn; [intros [? _]; done| |]; intros ([= <-] & ?); [done|]. lia.
    + assert (¬ (- 2 ^ 31 <= z < 2 ^ 31)%Z) as H1.
      { intros H. apply andb_false_iff in E1 as [E1%Z.leb_gt|E1%Z.leb_gt]; lia. }
      clear E1. destruct (_ && _)%Z eqn:E2.
      * apply andb_true_iff in E2 as [H2%Z.leb_le H3%Z.leb_le]. split.
        -- intros [= <-]. cbn. split_and!; [done|lia..|done].
        -- destruct i as [s|z'|z']; cbn; [intros [? _]; done| |]; intros ([= <-] & ?); [done|done].
      * split; [done|]. destruct i as [s|z'|z']; cbn; [intros [? _]; done| |]; intros ([= <-] & H); [done|].
        apply andb_false_iff in E2 as [E2%Z.leb_gt|E2%Z.leb_gt]; lia.
  - destruct (plain s) eqn:Es; split.
    + by intros [= <-].
    + destruct i; cbn; unfold name_json; [|naive_solver..]. by intros [[= ->] _].
    + done.
    + destruct i; cbn; unfold name_json; [|naive_solver..]. intros [[= ->] ?]. congruence.
Qed.

Lemma get_labelled_iff j x : get_labelled_span j = Some x ↔ labelled_json j x.
Proof.
  unfold labelled_json. split.
  - destruct j as [|b|d|s|[|a [|b [|? ?]]]|fs]; try done. cbn [get_labelled_span]. intros H.
    apply bind_Some in H as (t & Ht & H). apply bind_Some in H as (sp & Hsp & H). injection H as <-.
    exists a, b. split; [done|]. split; [by apply as_owned_iff|by apply get_span_iff].
  - intros (a & b & -> & H1%as_owned_iff & H2%get_span_iff). cbn [get_labelled_span]. rewrite H1, H2.
    by destruct x.
Qed.

Lemma get_report_iff j r : get_report j = Some r ↔ report_json j r.
Proof.
  unfold get_report, report_json. rewrite as_obj_Some. destruct r as [m r s c l a].
  cbn [wr_message wr_reason wr_span wr_contexts wr_related wr_annotation].
  split; intros (fs & -> & H); exists fs; (split; [done|]).
  - apply bind_Some in H as (? & H1 & H). apply bind_Some in H as (? & H2 & H). apply bind_Some in H as (? & H3 & H).
    apply bind_Some in H as (? & H4 & H). apply bind_Some in H as (? & H5 & H). apply bind_Some in H as (? & H6 & H).
    injection H; intros; subst; clear H.
    eapply get_req_iff in H1; [|intros ? ?; apply as_owned_iff]. eapply get_req_iff in H2; [|intros ? ?; apply as_owned_iff].
    eapply get_req_iff in H3; [|intros ? ?; apply get_span_iff].
    eapply get_opt_iff in H4; [|intros ? ?; apply as_list_iff; apply get_labelled_iff].
    eapply get_opt_iff in H5; [|intros ? ?; apply as_list_iff; apply get_labelled_iff].
    eapply get_opt_iff in H6; [|intros ? ?; apply as_owned_iff]. done.
  - destruct H as (H1 & H2 & H3 & H4 & H5 & H6).
    apply bind_Some; eexists; split; [eapply get_req_iff; [intros ? ?; apply as_owned_iff|exact H1]|].
    apply bind_Some; eexists; split; [eapply get_req_iff; [intros ? ?; apply as_owned_iff|exact H2]|].
    apply bind_Some; eexists; split; [eapply get_req_iff; [intros ? ?; apply get_span_iff|exact H3]|].
    apply bind_Some; eexists; split; [eapply get_opt_iff; [intros ? ?; apply as_list_iff; apply get_labelled_iff|exact H4]|].
    apply bind_Some; eexists; split; [eapply get_opt_iff; [intros ? ?; apply as_list_iff; apply get_labelled_iff|exact H5]|].
    apply bind_Some; eexists; split; [eapply get_opt_iff; [intros ? ?; apply as_owned_iff|exact H6]|done].
Qed.

Lemma get_synthetic_iff j r : get_synthetic_span j = Some r ↔ synthetic_json j r.
Proof.
  unfold get_synthetic_span, synthetic_json. rewrite as_obj_Some. destruct r as [n c]. cbn [sy_name sy_content].
  split; intros (fs & -> & H); exists fs; (split; [done|]).
  - apply bind_Some in H as (? & H1 & H). apply bind_Some in H as (? & H2 & H).
    injection H; intros; subst; clear H.
    eapply get_req_iff in H1; [|intros ? ?; apply as_owned_iff]. eapply get_req_iff in H2; [|intros ? ?; apply as_owned_iff].
    done.
  - destruct H as (H1 & H2).
    apply bind_Some; eexists; split; [eapply get_req_iff; [intros ? ?; apply as_owned_iff|exact H1]|].
    apply bind_Some; eexists; split; [eapply get_req_iff; [intros ? ?; apply as_owned_iff|exact H2]|done].
Qed.

Section Facts.
Context {P S : Type} (env : server_env P S).

Lemma get_method_iff fs m : get_method env fs = Some m ↔ method_json (env_dec_parse env) fs m.
Proof.
  unfold get_method. split.
  - intros H. apply bind_Some in H as (tag & Ht & H).
    eapply get_req_iff in Ht; [|intros ? ?; apply as_owned_iff].
    repeat match type of H with
    | (if String.eqb ?k ?s then _ else _) = _ =>
        let E := fresh "E" in destruct (String.eqb k s) eqn:E; [apply String.eqb_eq in E as ->|]
    end; try done;
    try (injection H as <-; exact Ht); apply fmap_Some in H as (y & H & ->); cbn [method_json]; (split; [done|]).
    + eapply get_req_iff in H; [exact H|intros ? ?; apply as_list_iff; apply get_report_iff].
    + eapply get_req_iff in H; [exact H|intros ? ?; apply as_list_iff; apply get_report_iff].
    + eapply get_req_iff in H; [exact H|intros ? ?; apply as_list_iff; apply get_span_iff].
    + eapply get_req_iff in H; [exact H|intros ? ?; apply as_list_iff; apply get_synthetic_iff].
    + eapply get_opt_iff in H; [exact H|intros ? ?; apply as_list_iff; apply get_directive_iff].
  - assert (∀ k, has text_json "method" fs k → get_req as_owned "method" fs = Some k) as Ht.
    { intros k H. eapply get_req_iff; [intros ? ?; apply as_owned_iff|done]. }
    destruct m; cbn [method_json]; [intros H%Ht|intros H%Ht|intros H%Ht|intros H%Ht|intros (H%Ht & H1)..];
      rewrite H; cbn [mbind option_bind String.eqb Ascii.eqb Bool.eqb]; try done; apply fmap_Some; eexists;
      (split; [|reflexivity]); first [eapply get_req_iff; [|exact H1]|eapply get_opt_iff; [|exact H1]]; intros ? ?;
      apply as_list_iff; first [apply get_report_iff|apply get_span_iff|apply get_synthetic_iff|apply get_directive_iff].
Qed.

Lemma method_json_rest fs m :
  method_json (env_dec_parse env) (filter (λ kv, existsb (String.eqb kv.1) ["jsonrpc"; "id"] = false) fs) m ↔
  method_json (env_dec_parse env) fs m.
Proof.
  set (own := λ k, existsb (String.eqb k) ["jsonrpc"; "id"]).
  change (filter _ fs) with (filter (λ kv : string * json, own kv.1 = false) fs).
  destruct m; cbn [method_json]; unfold has, has_opt;
    repeat match goal with |- context [entries ?k (filter _ fs)] =>
      rewrite (entries_filter own k fs) by reflexivity end; done.
Qed.

Lemma get_request_iff j rq : get_request env j = Some rq ↔ request_json (env_dec_parse env) j rq.
Proof.
  unfold get_request, request_json. rewrite as_obj_Some. destruct rq as [v i m]. cbn [rq_jsonrpc rq_id rq_method].
  split; intros (fs & -> & H); exists fs; (split; [done|]).
  - apply bind_Some in H as (? & H1 & H). apply bind_Some in H as (? & H2 & H). apply bind_Some in H as (? & H3 & H).
    injection H; intros; subst; clear H.
    eapply get_req_iff in H1; [|intros ? ?; apply as_borrowed_iff].
    eapply get_opt_iff in H2; [|intros ? ?; apply get_id_iff].
    apply get_method_iff in H3. apply (proj1 (method_json_rest _ _)) in H3. done.
  - destruct H as (H1 & H2 & H3).
    apply bind_Some; eexists; split; [eapply get_req_iff; [intros ? ?; apply as_borrowed_iff|exact H1]|].
    apply bind_Some; eexists; split; [eapply get_opt_iff; [intros ? ?; apply get_id_iff|exact H2]|].
    apply bind_Some; eexists; split; [|reflexivity]. apply get_method_iff. by apply method_json_rest.
Qed.

Lemma read_request_iff line rq : read_request env line = Some rq ↔ ∃ j, is_request env line j rq.
Proof.
  unfold read_request, is_request. rewrite bind_Some. split; intros (j & H1 & H2); exists j; (split; [done|]);
    by apply get_request_iff.
Qed.
Lemma read_request_None line : read_request env line = None ↔ ∀ j rq, ¬ is_request env line j rq.
Proof.
  split.
  - intros H j rq Hr. assert (read_request env line = Some rq) by (apply read_request_iff; eauto). congruence.
  - intros H. destruct (read_request env line) as [rq|] eqn:E; [|done].
    apply read_request_iff in E as (j & E). by apply H in E.
Qed.

(** ** The shape of responses *)

Lemma result_shape i r : is_result (or_null (put_id env) i) r (result_response env i r).
Proof. done. Qed.
Lemma error_shape i c m d : is_error (or_null (put_id env) i) c m d (error_response env i c m d).
Proof. unfold is_error, error_response, put_opt. by destruct d. Qed.

Lemma reply_shape hl h s i m s' j :
  dispatch_method env hl h s i m = (s', Reply j) →
  is_response (if match hl with Healthy (inr _) => fetches m | _ => false end then JNull
               else or_null (put_id env) i) j.
Proof.
  assert (∀ i r j, Reply (result_response env i r) = Reply j → is_response (or_null (put_id env) i) j) as Hr.
  { intros i' r j' [= <-]. left. by eexists. }
  assert (∀ i c m d j, Reply (error_response env i c m d) = Reply j → is_response (or_null (put_id env) i) j) as He.
  { intros i' c m' d j' [= <-]. right. exists c, m', d. apply error_shape. }
  destruct hl as [p|why]; cbn [dispatch_method].
  - destruct m as [| | | |rs|rs|l|l|ps]; cbn [fetches]; rewrite 1?(surjective_pairing (parser_create_synthetic_spans _ _ _ _)).
    + intros [_ H]%pair_equal_spec. destruct p; by eapply Hr in H.
    + intros [_ H]%pair_equal_spec. destruct p as [p|es]; cbn in H; [by eapply Hr in H|by eapply (He None) in H].
    + intros [_ H]%pair_equal_spec. destruct p as [p|es]; cbn in H; [by eapply Hr in H|by eapply (He None) in H].
    + intros [_ H]%pair_equal_spec. destruct p as [p|es]; cbn in H; [by eapply Hr in H|by eapply (He None) in H].
    + intros [_ H]%pair_equal_spec. unfold parser_format_report in H. destruct (format_reports _ _ _ _ _); [|done].
      destruct p; by eapply Hr in H.
    + intros [_ H]%pair_equal_spec. unfold parser_format_report in H. destruct (format_reports _ _ _ _ _); [|done].
      destruct p; by eapply Hr in H.
    + intros [_ H]%pair_equal_spec. unfold parser_resolve_spans in H. destruct (mapM _ _); [|done]. destruct p; by eapply Hr in H.
    + unfold parser_create_synthetic_spans. destruct (create_spans _ _ _) as [s1 sps]. intros [_ H]%pair_equal_spec. destruct p;
        by eapply Hr in H.
    + intros [_ H]%pair_equal_spec. unfold book_request in H. destruct p as [p|es]; [|by eapply He in H].
      destruct ps as [ds|]; (destruct (book _ _ _ _) as [bs ws|es|w]; [by eapply Hr in H| |done]).
      * by eapply He in H.
      * destruct (create_reports_from_booking_errors _ _); [by eapply He in H|done].
  - intros [_ H]%pair_equal_spec. by eapply He in H.
Qed.

(** ** Sessions *)

Lemma serve_loop_session hl hs fails n s ls out e :
  serve_loop env hl hs fails n s ls = (out, e) →
  ∃ answered todo s' js, ls = answered ++ todo ∧ session env hl hs n s answered s' js ∧
    out = join ((λ j, print_json j +:+ line_end) <$> js) ∧
    match todo with
    | [] => e = Exited (if fails then 1 else 0)
    | l :: _ => (env_utf8 env l = false ∧ e = Exited 1) ∨
        env_utf8 env l = true ∧
        ∃ w s2, dispatch env hl (hs (n + length answered)) s' l = (s2, Crash w) ∧ e = Panicked w
    end.
Proof.
  revert n s out e. induction ls as [|l ls IH]; intros n s out e; cbn [serve_loop].
  - intros [= <- <-]. exists [], [], s, []. split_and!; try done. constructor.
  - destruct (env_utf8 env l) eqn:Eu.
    + destruct (dispatch env hl (hs n) s l) as [s1 [j|w]] eqn:Ed.
      * destruct (serve_loop env hl hs fails (Datatypes.S n) s1 ls) as [out' e'] eqn:El. intros [= <- <-].
        destruct (IH _ _ _ _ El) as (answered & todo & s' & js & -> & Hs & -> & He).
        exists (l :: answered), todo, s', (j :: js). split; [done|]. split; [by econstructor|]. split.
        { cbn. by rewrite string_app_assoc. }
        destruct todo as [|l' todo]; [done|]. cbn [length]. by rewrite Nat.add_succ_r.
      * intros [= <- <-]. exists [], (l :: ls), s, []. split; [done|]. split; [constructor|]. split; [done|].
        right. split; [done|]. exists w, s1. cbn. by rewrite Nat.add_0_r.
    + intros [= <- <-]. exists [], (l :: ls), s, []. split; [done|]. split; [constructor|]. split; [done|]. by left.
Qed.

Lemma session_length hl hs n s ls s' js : session env hl hs n s ls s' js → length js = length ls.
Proof. induction 1; cbn; congruence. Qed.

Lemma serve_session hl hs s input fails lines rest out e :
  splits_into input lines rest → serve env hl hs s input fails = (out, e) →
  ∃ answered todo s' js, lines_taken lines rest fails = answered ++ todo ∧
    session env hl hs 0 s answered s' js ∧ length js = length answered ∧
    out = join ((λ j, print_json j +:+ line_end) <$> js) ∧
    match todo with
    | [] => e = Exited (if fails then 1 else 0)
    | l :: _ => (env_utf8 env l = false ∧ e = Exited 1) ∨
        env_utf8 env l = true ∧
        ∃ w s2, dispatch env hl (hs (length answered)) s' l = (s2, Crash w) ∧ e = Panicked w
    end.
Proof.
  intros Hs. unfold serve. rewrite (lines_taken_read _ _ _ _ Hs). intros H.
  apply serve_loop_session in H as (answered & todo & s' & js & H1 & H2 & H3 & H4).
  exists answered, todo, s', js. split; [done|]. split; [done|]. split; [by eapply session_length|done].
Qed.

Lemma parsed_spans ps : spans_present (from_directive <$> ps).
Proof.
  intros d (pd & -> & _)%elem_of_list_fmap. split; [done|]. intros t p Hv Hp.
  cbn in Hv. destruct (pdr_variant pd); try done. cbn in Hv. injection Hv as <-. cbn in Hp.
  by apply elem_of_list_fmap in Hp as (pp & -> & _).
Qed.

Lemma mapM_None {A B} (f : A → option B) l : mapM f l = None → ∃ x, x ∈ l ∧ f x = None.
Proof.
  induction l as [|x l IH]; [done|]. cbn. destruct (f x) as [y|] eqn:E; [|exists x; split; [left|done]].
  cbn. destruct (mapM f l); [done|]. intros _. destruct (IH eq_refl) as (z & Hz & Hf). exists z. split; [by right|done].
Qed.

Lemma format_None s w sep rs : format_reports env s w sep rs = None →
  ∃ r, r ∈ rs ∧ src_write_report (env_sources env) s w r = None.
Proof.
  revert sep. induction rs as [|r rs IH]; intros sep; [done|]. cbn [format_reports]. unfold format_one.
  destruct (src_write_report _ s w r) as [t|] eqn:E; [|exists r; split; [left|done]]. cbn.
  destruct (format_reports env s w true rs) eqn:Ef; [done|]. intros _.
  destruct (IH _ Ef) as (z & Hz & Hf). exists z. split; [by right|done].
Qed.

Lemma crash_cause hl h s line s' w :
  (∀ m, or_accounts h m ≡ₚ map_to_list m) →
  dispatch env hl h s line = (s', Crash w) →
  ∃ j rq p, is_request env line j rq ∧ hl = Healthy p ∧
    match rq_method rq with
    | MBook params => ∃ pd, p = inl pd ∧
        ∃ j dj b k dk pad, ledger_of pd params !! j = Some dj ∧ d_variant dj = DBalance b ∧
          k < j ∧ ledger_of pd params !! k = Some dk ∧ d_variant dk = DPad pad ∧ pad_acc pad = bal_acc b ∧
          ∀ i o, i < j → ¬ opens_at (ledger_of pd params) i (pad_source pad) o
    | MFormatErrors rs => ∃ r, r ∈ rs ∧ src_write_report (env_sources env) s false r = None
    | MFormatWarnings rs => ∃ r, r ∈ rs ∧ src_write_report (env_sources env) s true r = None
    | MResolveSpans l => ∃ x, x ∈ l ∧ src_resolve (env_sources env) s x = None
    | _ => False
    end.
Proof.
  intros Hord. unfold dispatch. destruct (read_request env line) as [rq|] eqn:Er; [|done].
  apply read_request_iff in Er as (j & Hrq). destruct (String.eqb _ _); [|done].
  destruct hl as [p|why]; [|done]. intros Hd. exists j, rq, p. split; [done|]. split; [done|].
  destruct (rq_method rq) as [| | | |rs|rs|l|l|ps]; cbn [dispatch_method] in Hd.
  - done.
  - by destruct p.
  - by destruct p.
  - by destruct p.
  - unfold parser_format_report in Hd. destruct (format_reports _ _ _ _ _) eqn:Ef; [done|]. by eapply format_None.
  - unfold parser_format_report in Hd. destruct (format_reports _ _ _ _ _) eqn:Ef; [done|]. by eapply format_None.
  - unfold parser_resolve_spans in Hd. destruct (mapM _ _) eqn:Ef; [done|]. by apply mapM_None.
  - unfold parser_create_synthetic_spans in Hd. by destruct (create_spans _ _ _).
  - unfold book_request in Hd. destruct p as [p|es]; [|done]. exists p. split; [done|].
    destruct ps as [ds|]; cbn [ledger_of].
    + destruct (book _ _ _ _) as [bs ws|es|w'] eqn:Eb; [done|done|]. by eapply book_panic.
    + destruct (book _ _ _ _) as [bs ws|es|w'] eqn:Eb; [done| |].
      * destruct (errors_located _ _ _ _ _ Hord Eb) as [_ Hsp].
        destruct (Hsp (parsed_spans _)) as (ss & Hss & _). by rewrite Hss in Hd.
      * by eapply book_panic.
Qed.

Lemma malformed_answered hl h s line :
  (∀ j rq, ¬ is_request env line j rq) →
  ∃ j, dispatch env hl h s line = (s, Reply j) ∧ is_error JNull (-32700) (env_parse_message env line) None j.
Proof.
  intros H%read_request_None. unfold dispatch. rewrite H. eexists. split; [done|]. apply error_shape.
Qed.

Lemma dispatch_version hl h s line j rq :
  is_request env line j rq → rq_jsonrpc rq ≠ "2.0" →
  ∃ r, dispatch env hl h s line = (s, Reply r) ∧
    is_error (answer_id env rq) (-32600)
      ("JSON-RPC protocol must be 2.0, found " +:+ rq_jsonrpc rq) None r.
Proof.
  intros Hr Hv. unfold dispatch. assert (read_request env line = Some rq) as -> by (apply read_request_iff; eauto).
  destruct (String.eqb _ _) eqn:E; [by apply String.eqb_eq in E|]. eexists. split; [done|]. apply error_shape.
Qed.

Lemma dispatch_ok hl h s line j rq :
  is_request env line j rq → rq_jsonrpc rq = "2.0" →
  dispatch env hl h s line = dispatch_method env hl h s (rq_id rq) (rq_method rq).
Proof.
  intros Hr Hv. unfold dispatch. assert (read_request env line = Some rq) as -> by (apply read_request_iff; eauto).
  by rewrite Hv.
Qed.

Lemma dispatch_unhealthy why h s line j rq :
  is_request env line j rq → rq_jsonrpc rq = "2.0" →
  ∃ r, dispatch env (Unhealthy why) h s line = (s, Reply r) ∧
    is_error (answer_id env rq) 1 why None r.
Proof.
  intros Hr Hv. rewrite (dispatch_ok _ _ _ _ _ _ Hr Hv). eexists. split; [done|]. apply error_shape.
Qed.

Lemma every_response hl h s line s' r :
  dispatch env hl h s line = (s', Reply r) → ∃ i, is_response i r.
Proof.
  unfold dispatch. destruct (read_request env line) as [rq|].
  - destruct (String.eqb _ _).
    + intros H%reply_shape. eauto.
    + intros [= _ <-]. eexists. right. eexists _, _, _. apply error_shape.
  - intros [= _ <-]. eexists. right. eexists _, _, _. apply error_shape.
Qed.

Lemma response_fields i r : is_response i r →
  ∃ fs, r = JObj fs ∧ entries "jsonrpc" fs = [JStr "2.0"] ∧ entries "id" fs = [i] ∧
    ((∃ x, entries "result" fs = [x] ∧ entries "error" fs = []) ∨
     (∃ x, entries "result" fs = [] ∧ entries "error" fs = [x])).
Proof.
  intros [(x & ->)|(c & m & d & ->)]; eexists; (split; [done|]); (split; [done|]); (split; [done|]); [left|right]; by eexists.
Qed.

(** ** The id *)

Lemma response_id hl h s line j rq s' r :
  is_request env line j rq → dispatch env hl h s line = (s', Reply r) →
  id_of r = if (String.eqb (rq_jsonrpc rq) "2.0" && match hl with Healthy (inr _) => fetches (rq_method rq) | _ => false end)%bool
            then JNull else answer_id env rq.
Proof.
  intros Hr Hd. destruct (String.eqb (rq_jsonrpc rq) "2.0") eqn:E.
  - apply String.eqb_eq in E. rewrite (dispatch_ok _ _ _ _ _ _ Hr E) in Hd. apply reply_shape in Hd. cbn [andb].
    destruct Hd as [(x & ->)|(c & m & d & ->)]; done.
  - apply String.eqb_neq in E. destruct (dispatch_version hl h s line j rq Hr E) as (r' & Hd' & Hr').
    rewrite Hd in Hd'. injection Hd' as -> ->. by rewrite Hr'.
Qed.

Lemma id_kept j rq : request_json (env_dec_parse env) j rq →
  (∀ z, rq_id rq ≠ Some (IdFloat z)) → answer_id env rq = id_of j.
Proof.
  intros (fs & -> & _ & Hi & _) Hf. unfold answer_id. destruct (rq_id rq) as [i|]; cbn [has_opt] in Hi.
  - destruct Hi as (v & Hv & _ & Hi). unfold id_of. rewrite Hv. destruct i as [s|z|z]; cbn in *.
    + by destruct Hi as [-> _].
    + by destruct Hi as [-> _].
    + by destruct (Hf z).
  - unfold id_of. by destruct Hi as [-> | ->].
Qed.

Lemma id_preserved hl h s line j rq s' r :
  is_request env line j rq → dispatch env hl h s line = (s', Reply r) →
  (∀ z, rq_id rq ≠ Some (IdFloat z)) →
  ¬ (rq_jsonrpc rq = "2.0" ∧ (∃ es, hl = Healthy (inr es)) ∧ fetches (rq_method rq) = true) →
  id_of r = id_of j.
Proof.
  intros Hr Hd Hf Hn. rewrite (response_id _ _ _ _ _ _ _ _ Hr Hd). destruct Hr as [_ Hr].
  rewrite (id_kept _ _ Hr Hf). destruct (_ && _)%bool eqn:E; [|done]. destruct Hn.
  apply andb_true_iff in E as [E1 E2]. apply String.eqb_eq in E1. split; [done|].
  destruct hl as [[p|es]|]; [done| |done]. eauto.
Qed.
Lemma id_lost es h s line j rq s' r :
  is_request env line j rq → dispatch env (Healthy (inr es)) h s line = (s', Reply r) →
  rq_jsonrpc rq = "2.0" → fetches (rq_method rq) = true → id_of r = JNull.
Proof. intros Hr Hd Hv Hf. rewrite (response_id _ _ _ _ _ _ _ _ Hr Hd), Hv, Hf. done. Qed.

Lemma response_shape hl h s line s' r :
  dispatch env hl h s line = (s', Reply r) →
  ∃ fs i, r = JObj fs ∧ entries "jsonrpc" fs = [JStr "2.0"] ∧ entries "id" fs = [i] ∧
    ((∃ x, entries "result" fs = [x] ∧ entries "error" fs = []) ∨
     (∃ x, entries "result" fs = [] ∧ entries "error" fs = [x])).
Proof.
  intros Hd. destruct (every_response _ _ _ _ _ _ Hd) as [i Hi].
  destruct (response_fields _ _ Hi) as (fs & H). eauto.
Qed.

(** ** Independence *)

Definition asked (line : string) : list synthetic_span :=
  match read_request env line with
  | Some (Request v _ (MCreateSyntheticSpans l)) => if String.eqb v "2.0" then l else []
  | _ => []
  end.

Lemma create_spans_state s l : (create_spans env s l).1 = create_all env s l.
Proof.
  revert s. induction l as [|x l IH]; intros s; [done|]. cbn [create_spans].
  destruct (src_create _ _ _ _) as [s1 sp] eqn:E. specialize (IH s1). destruct (create_spans env s1 l) as [s2 sps].
  unfold create_all. cbn [foldl]. rewrite E. exact IH.
Qed.

Lemma dispatch_state hl h s line :
  (dispatch env hl h s line).1 = match hl with Healthy _ => create_all env s (asked line) | Unhealthy _ => s end.
Proof.
  unfold dispatch, asked. destruct (read_request env line) as [[v i m]|]; [|by destruct hl]. cbn [rq_jsonrpc rq_id rq_method].
  unfold JSONRPC_VERSION. destruct (String.eqb v "2.0"); [|by destruct hl, m].
  destruct hl as [p|why]; [|done]. destruct m; try done. cbn [dispatch_method].
  unfold parser_create_synthetic_spans. rewrite <- create_spans_state. by destruct (create_spans env s l).
Qed.

Lemma session_state p hs n s ls s' js :
  session env (Healthy p) hs n s ls s' js → s' = create_all env s (mbind asked ls).
Proof.
  induction 1 as [|n s l s1 j ls s2 js Hd _ IH]; [done|].
  pose proof (dispatch_state (Healthy p) (hs n) s l) as Hs. rewrite Hd in Hs. cbn in Hs. subst s1.
  rewrite IH. cbn. unfold create_all. by rewrite foldl_app.
Qed.

Lemma asked_for_asked line : asked_for env line (asked line).
Proof.
  unfold asked_for, asked. destruct (read_request env line) as [[v i m]|] eqn:E.
  - assert (∀ j' i' l', is_request env line j' (Request "2.0" i' (MCreateSyntheticSpans l')) →
        v = "2.0" ∧ m = MCreateSyntheticSpans l') as Hu.
    { intros j' i' l' Hr.
      assert (read_request env line = Some (Request "2.0" i' (MCreateSyntheticSpans l'))) as E' by (apply read_request_iff; eauto).
      rewrite E in E'. by injection E' as -> -> ->. }
    destruct m; try by (right; split; [|done]; intros j' i' l' Hr; apply Hu in Hr as [_ Hr]).
    destruct (String.eqb v "2.0") eqn:Ev.
    + left. apply String.eqb_eq in Ev as ->. apply read_request_iff in E as (j & E). eauto.
    + right. split; [|done]. intros j' i' l' Hr. apply Hu in Hr as [-> _]. done.
  - right. split; [|done]. intros j' i' l' Hr.
    assert (read_request env line = Some (Request "2.0" i' (MCreateSyntheticSpans l'))) as E' by (apply read_request_iff; eauto).
    congruence.
Qed.

Lemma session_asked p hs n s ls s' js :
  session env (Healthy p) hs n s ls s' js → ∃ asks, Forall2 (asked_for env) ls asks ∧ s' = create_all env s (mjoin asks).
Proof.
  intros H%session_state. exists (asked <$> ls). split.
  - clear. induction ls as [|l ls IH]; constructor; [apply asked_for_asked|done].
  - rewrite H. f_equal. clear. induction ls as [|l ls IH]; [done|]. cbn. by f_equal.
Qed.

Lemma unhealthy_state why hs n s ls s' js : session env (Unhealthy why) hs n s ls s' js → s' = s.
Proof.
  induction 1 as [|n s l s1 j ls s2 js Hd _ IH]; [done|].
  pose proof (dispatch_state (Unhealthy why) (hs n) s l) as Hs. rewrite Hd in Hs. cbn in Hs. by subst.
Qed.

Lemma ledger_independent hl h s1 s2 line :
  (∀ j rq, is_request env line j rq → about_ledger (rq_method rq) = true) →
  (dispatch env hl h s1 line).2 = (dispatch env hl h s2 line).2.
Proof.
  intros Ha. unfold dispatch. destruct (read_request env line) as [rq|] eqn:E; [|done].
  apply read_request_iff in E as (j & E). specialize (Ha _ _ E). destruct (String.eqb _ _); [|done].
  destruct hl as [p|why]; [|done]. by destruct (rq_method rq).
Qed.

(** ** Booking what was fetched *)

Lemma mapM_put_directive ord (ds : list directive) : any_order ord → Forall ok_directive ds →
  Forall2 (directive_json (env_dec_parse env)) (put_directive ord <$> ds) ds.
Proof.
  intros Ho. induction 1 as [|d ds Hd _ IH]; [constructor|]. cbn. constructor; [|done].
  by apply put_directive_json.
Qed.

Lemma fetched_booked p (h0 h1 h2 : orders P) s1 s2 line1 line2 v1 i1 v2 j1 rq1 :
  any_order (or_wire h0) →
  (∀ m, or_accounts h1 m ≡ₚ map_to_list m) → (∀ m, or_accounts h2 m ≡ₚ map_to_list m) →
  lib_ext (env_booking env (pa_options p)) →
  Forall ok_directive (from_directive <$> pa_directives p) →
  is_request env line1 j1 rq1 → rq1 = Request "2.0" i1 (MBook None) → v1 = or_null (put_id env) i1 →
  env_parse env line2 = Some (JObj [("jsonrpc", JStr "2.0"); ("id", v2); ("method", JStr "book");
    ("params", JArr ((λ d, put_directive (or_wire h0) (from_directive d)) <$> pa_directives p))]) →
  (∃ i2, id_json v2 i2 ∧ ∀ z, i2 ≠ IdFloat z) →
  let ds := from_directive <$> pa_directives p in
  let r1 := (dispatch env (Healthy (inl p)) h1 s1 line1).2 in
  let r2 := (dispatch env (Healthy (inl p)) h2 s2 line2).2 in
  (∃ bs j1 j2, r1 = Reply j1 ∧ r2 = Reply j2 ∧
     is_result v1 (JObj [("directives", JArr (put_bdirective (or_wire h1) <$> bs))]) j1 ∧
     is_result v2 (JObj [("directives", JArr (put_bdirective (or_wire h2) <$> bs))]) j2) ∨
  (∃ es1 es2 ss j1 j2, r1 = Reply j1 ∧ r2 = Reply j2 ∧ es1 ≡ₚ es2 ∧ es1 ≠ [] ∧ Forall2 (spans_report ds) es1 ss ∧
     is_error v1 2 "Error reports" (Some (JArr (put_report <$> (wire_of env <$> ss)))) j1 ∧
     is_error v2 3 "Error reports" (Some (JArr (put_indexed_report env <$> es2))) j2) ∨
  (∃ w, r1 = Crash w ∧ r2 = Crash w).
Proof.
  intros Hw H1 H2 Hext Hok Hr1 -> -> Hp2 (i2 & Hi2 & Hf2). cbn zeta.
  set (ds := from_directive <$> pa_directives p) in *.
  assert (is_request env line2 (JObj [("jsonrpc", JStr "2.0"); ("id", v2); ("method", JStr "book");
    ("params", JArr (put_directive (or_wire h0) <$> ds))]) (Request "2.0" (Some i2) (MBook (Some ds)))) as Hr2.
  { split; [unfold ds; by rewrite <- list_fmap_compose|]. eexists. split; [done|]. cbn [rq_jsonrpc rq_id rq_method].
    split. { exists (JStr "2.0"). done. }
    split. { exists v2. split; [done|]. split; [|done]. destruct i2; cbn in Hi2; unfold name_json in Hi2; naive_solver. }
    split. { exists (JStr "book"). done. }
    eexists. split; [done|]. split; [done|]. eexists. split; [done|]. by apply mapM_put_directive. }
  rewrite (dispatch_ok _ _ _ _ _ _ Hr1) by done. rewrite (dispatch_ok _ _ _ _ _ _ Hr2) by done.
  cbn [rq_id rq_method dispatch_method snd]. unfold book_request. fold ds.
  pose proof (order_independent (env_booking env (pa_options p)) Hext _ _ (po_booking_method (pa_options p)) ds H1 H2) as Hi.
  assert (put_id env i2 = v2) as Hv2.
  { destruct i2; cbn in Hi2; unfold name_json in Hi2; [by destruct Hi2 as [-> _]..|by destruct (Hf2 z)]. }
  destruct (book _ (or_accounts h1) _ ds) as [bs1 ws1|es1|w1] eqn:E1;
    destruct (book _ (or_accounts h2) _ ds) as [bs2 ws2|es2|w2] eqn:E2; try done.
  - destruct Hi as [<- _]. left. exists bs1. eexists _, _. split; [done|]. split; [done|]. split; [done|].
    unfold is_result, result_response. cbn [or_null]. by rewrite Hv2.
  - right. left. destruct (errors_located _ _ _ _ _ H1 E1) as [_ Hsp].
    destruct (Hsp (parsed_spans _)) as (ss & Hss & Hf). fold ds in Hss, Hf. rewrite Hss.
    exists es1, es2, ss. eexists _, _. split; [done|]. split; [done|]. split.
    { destruct Hi as (es & t & t' & -> & -> & Ht & _). by rewrite Ht. }
    split. { intros ->. unfold book, collect in E1. destruct (collect_loop _ _ _ _ _); [|done].
      unfold validate in E1. by destruct (c_errors c ++ _). }
    split; [done|]. split; [apply error_shape|]. unfold is_error, indexed_error_reports, error_response.
    cbn [or_null]. by rewrite Hv2.
  - right. right. subst w2. by exists w1.
Qed.

(** ** Formatting *)

Lemma format_reports_texts s w sep rs :
  format_reports env s w sep rs =
    (λ ts, match ts with [] => "" | _ => (if sep : bool then line_end else "") +:+ String.concat line_end ts end) <$>
      mapM (format_one env s w) rs.
Proof.
  revert sep. induction rs as [|r rs IH]; intros sep; [done|]. cbn [format_reports mapM].
  destruct (format_one env s w r) as [t|]; [|done]. cbn [mbind option_bind]. rewrite IH.
  destruct (mapM (format_one env s w) rs) as [[|t' ts]|]; cbn [fmap option_fmap option_map mbind option_bind mret option_ret].
  - f_equal. f_equal. cbn. by induction t as [|c t IHt]; [|rewrite <- IHt at 2].
  - done.
  - done.
Qed.

Lemma format_answer p h s line j rq (w : bool) rs s' r :
  is_request env line j rq → rq_jsonrpc rq = "2.0" →
  rq_method rq = (if w then MFormatWarnings rs else MFormatErrors rs) →
  dispatch env (Healthy p) h s line = (s', Reply r) →
  ∃ ts, Forall2 (λ rep t, ∃ u, src_write_report (env_sources env) s w rep = Some u ∧
            t = u +:+ match wr_annotation rep with Some a => a +:+ line_end | None => "" end) rs ts ∧
    is_result (answer_id env rq) (JStr (String.concat line_end ts)) r.
Proof.
  intros Hr Hv Hm Hd. rewrite (dispatch_ok _ _ _ _ _ _ Hr Hv), Hm in Hd.
  assert (parser_format_report env (rq_id rq) s w rs = Reply r) as H.
  { destruct w; cbn [dispatch_method] in Hd; by apply pair_equal_spec in Hd as [_ ?]. }
  unfold parser_format_report in H. rewrite format_reports_texts in H.
  destruct (mapM (format_one env s w) rs) as [ts|] eqn:E; [|done]. cbn [fmap option_fmap option_map] in H.
  injection H as <-. exists ts. split.
  - apply mapM_Some in E. eapply Forall2_impl; [exact E|]. intros rep t Ht. unfold format_one in Ht.
    apply bind_Some in Ht as (u & Hu & [= <-]). by exists u.
  - unfold is_result, result_response. by destruct ts.
Qed.

Lemma resolve_answer p h s line j rq l s' r :
  is_request env line j rq → rq_jsonrpc rq = "2.0" → rq_method rq = MResolveSpans l →
  dispatch env (Healthy p) h s line = (s', Reply r) →
  ∃ ss, Forall2 (λ x y, src_resolve (env_sources env) s x = Some y) l ss ∧
    is_result (answer_id env rq) (JArr (put_spanned_source <$> ss)) r.
Proof.
  intros Hr Hv Hm Hd. rewrite (dispatch_ok _ _ _ _ _ _ Hr Hv), Hm in Hd. cbn [dispatch_method] in Hd.
  apply pair_equal_spec in Hd as [_ H]. unfold parser_resolve_spans in H.
  destruct (mapM _ l) as [ss|] eqn:E; [|done]. injection H as <-. exists ss. split; [by apply mapM_Some|done].
Qed.

Lemma create_spans_spec s l s' sps : create_spans env s l = (s', sps) →
  length sps = length l ∧
  ∀ k x, l !! k = Some x → sps !! k = Some (src_create (env_sources env) (create_all env s (take k l)) (sy_name x) (sy_content x)).2.
Proof.
  revert s sps. induction l as [|x l IH]; intros s sps; cbn [create_spans].
  - intros [= <- <-]. split; [done|]. intros k x Hk. by rewrite lookup_nil in Hk.
  - destruct (src_create _ s _ _) as [s1 sp] eqn:E. destruct (create_spans env s1 l) as [s2 sps'] eqn:Ec. intros [= <- <-].
    destruct (IH _ _ Ec) as [H1 H2]. split; [cbn; congruence|]. intros [|k] y Hy.
    + injection Hy as <-. unfold create_all. cbn. by rewrite E.
    + change ((sp :: sps') !! Datatypes.S k) with (sps' !! k). change ((x :: l) !! Datatypes.S k) with (l !! k) in Hy.
      rewrite (H2 _ _ Hy). unfold create_all. cbn [take foldl]. by rewrite E.
Qed.

Lemma create_answer p h s line j rq l s' r :
  is_request env line j rq → rq_jsonrpc rq = "2.0" → rq_method rq = MCreateSyntheticSpans l →
  dispatch env (Healthy p) h s line = (s', Reply r) →
  ∃ sps, length sps = length l ∧
    (∀ k x, l !! k = Some x →
       sps !! k = Some (src_create (env_sources env) (create_all env s (take k l)) (sy_name x) (sy_content x)).2) ∧
    is_result (answer_id env rq) (JArr (put_span <$> sps)) r.
Proof.
  intros Hr Hv Hm Hd. rewrite (dispatch_ok _ _ _ _ _ _ Hr Hv), Hm in Hd. cbn [dispatch_method] in Hd.
  unfold parser_create_synthetic_spans in Hd. destruct (create_spans env s l) as [s1 sps] eqn:E.
  injection Hd as <- <-. destruct (create_spans_spec _ _ _ _ E) as [H1 H2]. by exists sps.
Qed.

(** ** Parse errors *)
Lemma parse_errors_answer es h s line j rq :
  is_request env line j rq → rq_jsonrpc rq = "2.0" →
  (fetches (rq_method rq) = true ∨ ∃ ps, rq_method rq = MBook ps) →
  ∃ i r, dispatch env (Healthy (inr es)) h s line = (s, Reply r) ∧
    is_error i 2 "Error reports"
      (Some (JArr ((λ e, put_report (WireReport (pe_message e) (pe_reason e) (pe_span e)
               (match pe_contexts e with [] => None | l => Some l end)
               (match pe_related e with [] => None | l => Some l end) None)) <$> es))) r.
Proof.
  intros Hr Hv Hm. rewrite (dispatch_ok _ _ _ _ _ _ Hr Hv).
  assert (∀ l : list perror, put_report <$> (from_error <$> l) =
    (λ e, put_report (WireReport (pe_message e) (pe_reason e) (pe_span e)
               (match pe_contexts e with [] => None | l => Some l end)
               (match pe_related e with [] => None | l => Some l end) None)) <$> l) as He.
  { intros l. rewrite <- list_fmap_compose. apply list_fmap_ext. intros ? [m r sp cs rs] _.
    unfold compose, from_error, none_if_empty. cbn [pe_contexts pe_related pe_message pe_reason pe_span]. by destruct cs, rs. }
  destruct Hm as [Hm|[ps Hm]].
  - destruct (rq_method rq); try done; eexists _, _; cbn [dispatch_method]; (split; [done|]); rewrite <- He; apply error_shape.
  - rewrite Hm. eexists _, _; cbn [dispatch_method]; (split; [done|]); rewrite <- He; apply error_shape.
Qed.

(** ** Fetching *)
Lemma directives_answer p h s line j rq :
  is_request env line j rq → rq_jsonrpc rq = "2.0" → rq_method rq = MDirectives →
  ∃ r, dispatch env (Healthy (inl p)) h s line = (s, Reply r) ∧
    is_result (answer_id env rq)
      (JObj [("directives", JArr ((λ d, put_directive (or_wire h) (from_directive d)) <$> pa_directives p));
             ("warnings", JNull)]) r.
Proof.
  intros Hr Hv Hm. rewrite (dispatch_ok _ _ _ _ _ _ Hr Hv), Hm. by eexists.
Qed.

End Facts.
