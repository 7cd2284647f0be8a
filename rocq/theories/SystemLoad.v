(** Loading with the real server. *)
From Coq Require Import Ascii QArith.
From stdpp Require Import prelude gmap strings.
From Verif Require Import DecModel LedgerTypes IsoModel IsoFacts JsonModel WireModel WireSpec WireFacts BookModel SpanModel ParserModel
  JsonText ServerModel ServerSpec ServerFacts CljModel InventoryModel ClientModel ClientDecode FormatModel PluginModel PluginSpec PluginFacts PluginMerge LoaderModel
  LoaderSpec LoaderFacts EncodeModel EncodeFacts EncodeStable SystemModel SystemFacts.
Local Open Scope nat_scope.

(** * The booking stage *)
Section Book.
Context (env : string → option namespace) (read_config : option cval → option (option cval)).
Context (code : nat → nat) (spec : bool → cval → bool) (so : list cval → list cval).
Context (ask : list pod_request → pod_request → answer).

Lemma load_book m r :
  load env read_config code spec so ask = Some m → RBook r ∈ l_asked m →
  r = l_raw_xf m ∧
  ∃ ok raw sp, result_of (ask [RPlugins; ROptions] RDirectives) = Some ok ∧
    l_raw m = Some (vec (vget "directives" ok)) ∧ maybe_spans sp ∧
    raw = match l_raw_xf m with Some ds => ds | None => vec (vget "directives" ok) end ∧
    (∀ xs, l_raw_xf m = Some xs → ∃ out,
       run_plugins code (spec false) (l_plugins m) false (vec (vget "directives" ok)) = Some out ∧
       merge_with_provenance so (create_spans ask [RPlugins; ROptions; RDirectives]) out = Some xs ∧
       Forall (λ d, erroneous d = false) xs) ∧
    (∃ sp', l_asked m = [RPlugins; ROptions; RDirectives] ++ sp ++ [RBook (l_raw_xf m)] ++ sp' ∧ maybe_spans sp') ∧
    let a := ask ([RPlugins; ROptions; RDirectives] ++ sp) (RBook (l_raw_xf m)) in
    match result_of a with
    | Some ok =>
        match mapM (resolve_directive raw) (vec (vget "directives" ok)) with
        | Some ds => l_booked m = Some ds ∧ ∀ e, l_error m ≠ Some (LeBooking e)
        | None => l_error m = Some (LeBooking BeThrown)
        end
    | None =>
        l_error m = Some (LeBooking (match mapM (resolve_report raw) (vec (indexed_of (failure_of <$> a_err a))) with
                                     | Some rs => BeReports rs | None => BeThrown end))
    end.
Proof.
  intros Hl Hr.
  assert (Hfirst : ∀ m1, get_plugins_and_options env read_config ask start = Some m1 → l_error m1 = None →
    l_asked m1 = [RPlugins; ROptions] ∧ l_raw_xf m1 = None).
  { intros m1 H E. apply first_stage_cases in H as (_&X&_&_&_&H). destruct (result_of (ask [] RPlugins)).
    - by destruct H as (H&_).
    - destruct H as (_&_&_&H). congruence. }
  assert (Hraw : is_Some (l_raw m)).
  { destruct (get_plugins_and_options env read_config ask start) as [m1|] eqn:H1.
    2: { unfold load in Hl. cbn [bind_stages start l_error] in Hl. rewrite H1 in Hl. done. }
    destruct (l_error m1) eqn:E1; [|by eapply load_raw].
    unfold load in Hl. apply bind_stages_cons in Hl as (m1'&H1'&Hl); [|done]. assert (m1' = m1) as -> by congruence.
    apply bind_stages_stop in Hl; [|congruence]. subst m. exfalso.
    apply first_stage_cases in H1 as (_&_&_&_&_&H1). destruct (result_of (ask [] RPlugins)); destruct H1 as (H1&_); rewrite H1 in Hr;
      set_solver. }
  apply load_steps in Hl as (m1&m2&m3&H1&E1&H2&E2&H3&Hl); [|done].
  destruct (Hfirst _ H1 E1) as (A1&X1). apply raw_cases in H2 as (ok&Hok&->). rewrite A1 in Hok.
  cbn [l_asked l_error] in *. 
  pose proof (run_phase_cases _ _ _ _ _ _ _ H3 E2) as (_&_&R3&B3&_&_&(sp&A3&S3)&K3). cbn [l_raw l_asked l_booked] in R3, A3, B3.
  rewrite A1 in A3. cbn [app] in A3.
  assert (O3 : ∀ xs, l_error m3 = None → l_raw_xf m3 = Some xs → ∃ out,
       run_plugins code (spec false) (l_plugins m3) false (vec (vget "directives" ok)) = Some out ∧
       merge_with_provenance so (create_spans ask [RPlugins; ROptions; RDirectives]) out = Some xs ∧
       Forall (λ d, erroneous d = false) xs).
  { intros xs E3 Hxs. pose proof (run_phase_output _ _ _ _ _ _ _ _ H3 Hxs X1) as (out&Ho1&Ho2). cbn -[vec] in Ho1, Ho2. rewrite A1 in Ho2. cbn [app] in Ho2.
    exists out. split_and!; [|done|].
    - apply run_phase_cases in H3 as (->&_); [|done]. exact Ho1.
    - destruct K3 as [(_&[(_&->)|(_&xs'&Y1&Y2)])|(e&Y&_)].
      + cbn in Hxs. congruence.
      + congruence.
      + congruence. }
  destruct Hl as [(E3&->)|(E3&m4&H4&Hl)].
  { exfalso. rewrite A3 in Hr. destruct S3 as [->|(rs&->)]; set_solver. }
  apply book_cases in H4 as (P4&O4&R4&X4&_&_&A4&K4); [|done].
  assert (Hm : l_raw_xf m = l_raw_xf m4 ∧ l_raw m = l_raw m4 ∧ l_plugins m = l_plugins m4 ∧ (l_booked m = l_booked m4) ∧
     (∃ sp', l_asked m = l_asked m4 ++ sp' ∧ maybe_spans sp') ∧
     (∀ e, l_error m4 = Some e → l_error m = Some e) ∧ (l_error m4 = None → ∀ e, l_error m ≠ Some (LeBooking e))).
  { destruct Hl as [(E4&->)|(E4&m5&H5&Hl)].
    { split_and!; try done. exists []. rewrite app_nil_r. split; [done|by left]. }
    apply run_phase_cases in H5 as (P5&_&R5&B5&_&X5&A5&K5); [|done].
    destruct Hl as [(E5&->)|(E5&Hl)].
    - split_and!; try done; [congruence|]. intros _ e He. destruct K5 as [(K5&_)|(e'&K5&_)]; congruence.
    - injection Hl as <-. cbn. split_and!; try done; congruence. }
  destruct Hm as (M1&M2&M5&M3&(sp'&M4&S4)&M6&M7).
  split.
  { rewrite M4, A4, A3 in Hr. rewrite M1, X4. destruct S3 as [->|(?&->)], S4 as [->|(?&->)]; set_solver. }
  exists ok, (match l_raw_xf m with Some ds => ds | None => vec (vget "directives" ok) end), sp.
  split; [done|]. split; [congruence|]. split; [done|]. split; [done|]. split.
  { intros xs Hxs. rewrite M5, P4. apply O3; [done|]. congruence. }
  split.
  { exists sp'. split; [|done]. by rewrite M4, A4, A3, M1, X4, <- !(assoc_L app). }
  rewrite R3 in K4. cbn [default] in K4. rewrite A3, <- X4, <- M1 in K4. cbn zeta in K4 |- *. unfold default in K4. 
  destruct (result_of (ask _ (RBook (l_raw_xf m)))) as [ok'|] eqn:Hr'.
  - destruct (mapM (resolve_directive _) _) as [ds|].
    + destruct K4 as (Y1&Y2). split; [congruence|]. by apply M7.
    + destruct K4 as (Y1&_). by apply M6.
  - destruct K4 as (_&Y1). by apply M6.
Qed.
End Book.

(** * The answers of the server *)
Section Ask.
Context {P S : Type} (env : server_env P S).
Context (jso : list json → list json) (jmo : list (string * json) → list (string * json)).
Context (Hjmo : ∀ l, jmo l ≡ₚ l).
Context (p : parsed) (hs : nat → orders P) (sources : S).
Notation encode := (encode jso jmo).
Notation hl := (Healthy (inl p)).
Notation invoke := (invoke env jso jmo hl hs).
Notation pod_state := (pod_state env jso jmo hl hs sources).
Notation ask := (ask env jso jmo hl hs sources).

(** What the client sees of a list. *)
Definition seen_list (js : list json) : cval := VVec (decode None <$> js).
Lemma invoke_plugins n s : small n →
  invoke n (Some s) "parser.plugins" None = (Some s, Answer (Some (seen_list (put_plugin <$> pa_plugins p))) None).
Proof.
  intros Hn. erewrite invoke_eq by (eapply (message_plain _ _ _ Hjmo n RPlugins MPlugins); [done|set_solver]).
  cbn [dispatch_method parser_plugins]. by rewrite answer_result.
Qed.
Lemma invoke_options n s : small n →
  invoke n (Some s) "parser.options" None =
  (Some s, Answer (Some (decode (Some "result") (put_options (hs n) (from_options (pa_options p))))) None).
Proof.
  intros Hn. erewrite invoke_eq by (eapply (message_plain _ _ _ Hjmo n ROptions MOptions); [done|set_solver]).
  cbn [dispatch_method parser_options]. rewrite answer_result. f_equal.
Qed.
Definition directives_value (n : nat) : cval :=
  decode (Some "result") (JObj [("directives", JArr ((λ d, put_directive (or_wire (hs n)) (from_directive d)) <$> pa_directives p));
                                ("warnings", JNull)]).
Lemma invoke_directives n s : small n →
  invoke n (Some s) "parser.directives" None = (Some s, Answer (Some (directives_value n)) None).
Proof.
  intros Hn. erewrite invoke_eq by (eapply (message_plain _ _ _ Hjmo n RDirectives MDirectives); [done|set_solver]).
  cbn [dispatch_method parser_directives]. rewrite answer_result. f_equal.
Qed.
Lemma directives_value_get n :
  vget "directives" (directives_value n) =
  Some (seen_list ((λ d, put_directive (or_wire (hs n)) (from_directive d)) <$> pa_directives p)).
Proof. unfold directives_value. rewrite vget_decode. done. Qed.
Lemma invoke_spans n s rs : small n → ∃ s' sps,
  invoke n (Some s) "parser.create-synthetic-spans" (request_params (RSpans rs)) =
    (Some s', Answer (Some (seen_list (put_span <$> sps))) None) ∧ length sps = length rs.
Proof.
  intros Hn. erewrite invoke_eq by (by apply message_spans).
  cbn [dispatch_method]. unfold parser_create_synthetic_spans.
  destruct (ServerModel.create_spans env s _) as [s' sps] eqn:E. exists s', sps. rewrite answer_result. split; [done|].
  clear Hn. revert s s' sps E. induction rs as [|r rs IH]; intros s s' sps E; [by injection E as <- <-|].
  cbn [fmap list_fmap ServerModel.create_spans] in E. destruct (src_create _ _ _ _) as [s1 sp].
  destruct (ServerModel.create_spans env s1 _) as [s2 sps'] eqn:E'. injection E as <- <-. cbn. f_equal. by eapply IH.
Qed.

Lemma small_4 n : n <= 100 → small n.
Proof. unfold small. lia. Qed.
Lemma state_prefix sp : maybe_spans sp → ∃ s, pod_state ([RPlugins; ROptions; RDirectives] ++ sp) = Some s.
Proof.
  intros Hsp. unfold SystemModel.pod_state. cbn [app state_after method_name request_params].
  rewrite invoke_plugins by (apply small_4; lia). cbn [fst]. rewrite invoke_options by (apply small_4; lia). cbn [fst].
  rewrite invoke_directives by (apply small_4; lia). cbn [fst].
  destruct Hsp as [->|(rs&->)]; [by eexists|]. cbn [state_after method_name].
  destruct (invoke_spans 5 sources rs) as (s'&sps&->&_); [by apply small_4; lia|]. by eexists.
Qed.
Lemma ask_plugins : ask [] RPlugins = Answer (Some (seen_list (put_plugin <$> pa_plugins p))) None.
Proof. unfold SystemModel.ask. cbn -[SystemModel.invoke]. by rewrite invoke_plugins by (apply small_4; lia). Qed.
Lemma ask_options : ask [RPlugins] ROptions =
  Answer (Some (decode (Some "result") (put_options (hs 3) (from_options (pa_options p))))) None.
Proof.
  unfold SystemModel.ask, SystemModel.pod_state. cbn -[SystemModel.invoke decode]. rewrite invoke_plugins by (apply small_4; lia).
  cbn [fst]. by rewrite invoke_options by (apply small_4; lia).
Qed.
Lemma ask_directives : ask [RPlugins; ROptions] RDirectives = Answer (Some (directives_value 4)) None.
Proof.
  unfold SystemModel.ask, SystemModel.pod_state. cbn -[SystemModel.invoke decode]. rewrite invoke_plugins by (apply small_4; lia).
  cbn [fst]. rewrite invoke_options by (apply small_4; lia). cbn [fst]. by rewrite invoke_directives by (apply small_4; lia).
Qed.

(** ** Booking *)
Definition booked_value (n : nat) (bs : list bdirective) : cval :=
  decode (Some "result") (JObj [("directives", JArr (put_bdirective (or_wire (hs n)) <$> bs))]).
Lemma booked_value_get n bs :
  vget "directives" (booked_value n bs) = Some (seen_list (put_bdirective (or_wire (hs n)) <$> bs)).
Proof. unfold booked_value. rewrite vget_decode. done. Qed.
Definition book_with (n : nat) (ds : list directive) : book_result :=
  book (env_booking env (pa_options p)) (or_accounts (hs n)) (po_booking_method (pa_options p)) ds.
Lemma ask_book_none h s : pod_state h = Some s → small (length h + 2) →
  let n := length h + 2 in
  let ds := from_directive <$> pa_directives p in
  ask h (RBook None) =
  match book_with n ds with
  | BookSuccess bs _ => Answer (Some (booked_value n bs)) None
  | BookFailure errors =>
      match create_reports_from_booking_errors errors ds with
      | Some rs => Answer None (Some (error_value ERROR_REPORT "Error reports" (Some (JArr (put_report <$> (wire_of env <$> rs))))))
      | None => no_answer
      end
  | BookPanic _ => no_answer
  end.
Proof.
  intros Hs Hn n ds. unfold SystemModel.ask. rewrite Hs.
  erewrite invoke_eq by (eapply (message_plain _ _ _ Hjmo _ (RBook None) (MBook None)); [done|set_solver]).
  cbn [dispatch_method]. unfold book_request. fold ds. fold n. unfold book_with.
  destruct (book _ _ _ ds) as [bs ws|errors|w]; [|destruct (create_reports_from_booking_errors errors ds)|]; cbn [snd];
    unfold error_reports; by rewrite ?answer_result, ?answer_error.
Qed.
Lemma ask_book_some h s xs l : pod_state h = Some s → small (length h + 2) →
  mapM (get_directive (env_dec_parse env)) (encode <$> xs) = Some l →
  let n := length h + 2 in
  ask h (RBook (Some xs)) =
  match book_with n l with
  | BookSuccess bs _ => Answer (Some (booked_value n bs)) None
  | BookFailure errors =>
      Answer None (Some (error_value ERROR_INDEXED_REPORT "Error reports" (Some (JArr (put_indexed_report env <$> errors)))))
  | BookPanic _ => no_answer
  end.
Proof.
  intros Hs Hn Hl n. unfold SystemModel.ask. rewrite Hs.
  erewrite invoke_eq by (eapply message_book; done).
  cbn [dispatch_method]. unfold book_request. fold n. unfold book_with.
  destruct (book _ _ _ l) as [bs ws|errors|w]; cbn [snd];
    unfold indexed_error_reports; by rewrite ?answer_result, ?answer_error.
Qed.
Lemma ask_book_refused h s xs : pod_state h = Some s → small (length h + 2) →
  mapM (get_directive (env_dec_parse env)) (encode <$> xs) = None →
  ∃ m, ask h (RBook (Some xs)) = Answer None (Some (error_value ERROR_PARSE m None)).
Proof.
  intros Hs Hn Hl. unfold SystemModel.ask. rewrite Hs. unfold SystemModel.invoke, dispatch_tree.
  cbn [method_name request_params]. rewrite message_book_refused by done. cbn [snd]. unfold other_error. rewrite answer_error. by eexists.
Qed.
End Ask.
