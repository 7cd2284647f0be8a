(** Lemmas about [LoaderModel.v]. *)
From Coq Require Import Ascii QArith.
From stdpp Require Import prelude gmap strings.
From Verif Require Import DecModel LedgerTypes IsoModel JsonModel WireModel CljModel InventoryModel ClientModel FormatModel PluginModel PluginSpec PluginFacts PluginMerge LoaderModel LoaderSpec.
Local Open Scope nat_scope.

Lemma filter_erroneous xs : filter (λ d, truthy (vget "err" d) = true) xs = List.filter erroneous xs.
Proof.
  induction xs as [|x xs IH]; [done|].
  rewrite filter_cons, IH. cbn [List.filter].
  unfold erroneous, truthy. destruct (vget "err" x) as [[| [] | | | | | | | |]|]; done.
Qed.
Lemma filter_erroneous_nil xs : List.filter erroneous xs = [] → Forall (λ d, erroneous d = false) xs.
Proof.
  induction xs as [|x xs IH]; [constructor|]. cbn [List.filter].
  destruct (erroneous x) eqn:E; [done|]. intros H. constructor; [done|]. by apply IH.
Qed.
Lemma has_plugins_of_phase ps booked : has_plugins ps booked = true ↔ of_phase booked ps ≠ [].
Proof.
  unfold of_phase. induction ps as [|p ps IH]; [done|].
  cbn [has_plugins existsb omap list_omap select]. unfold select.
  destruct (if booked then pl_booked p else pl_raw p); cbn; [done|]. exact IH.
Qed.

Section Load.
Context (env : string → option namespace) (read_config : option cval → option (option cval)).
Context (code : nat → nat) (spec : bool → cval → bool) (so : list cval → list cval).
Context (ask : list pod_request → pod_request → answer).

(** The fields which a phase leaves alone, and what it does. *)
Lemma run_phase_cases (booked : bool) m m' :
  run_phase code spec so ask booked m = Some m' → l_error m = None →
  l_plugins m' = l_plugins m ∧ l_options m' = l_options m ∧ l_raw m' = l_raw m ∧ l_booked m' = l_booked m ∧
  l_directives m' = l_directives m ∧
  (if booked then l_raw_xf m' = l_raw_xf m else l_booked_xf m' = l_booked_xf m) ∧
  (∃ sp, l_asked m' = l_asked m ++ sp ∧ maybe_spans sp) ∧
  ((l_error m' = None ∧
    (of_phase booked (l_plugins m) = [] ∧ m' = m ∨
     of_phase booked (l_plugins m) ≠ [] ∧
     ∃ xs, (if booked then l_booked_xf m' else l_raw_xf m') = Some xs ∧ Forall (λ d, erroneous d = false) xs)) ∨
   (∃ e, l_error m' = Some (if booked then LeBooked e else LeRaw e) ∧ of_phase booked (l_plugins m) ≠ [] ∧
      match e with
      | PeThrown => (if booked then l_booked_xf m' = l_booked_xf m else l_raw_xf m' = l_raw_xf m)
      | PeDirectives bad => ∃ xs, (if booked then l_booked_xf m' else l_raw_xf m') = Some xs ∧ bad = List.filter erroneous xs ∧ bad ≠ []
      end)).
Proof.
  unfold run_phase. intros H He.
  destruct (has_plugins (l_plugins m) booked) eqn:Hp; cbn [negb] in H.
  2: { injection H as <-. repeat (split; [destruct booked; done|]).
       split; [exists []; split; [by rewrite app_nil_r|by left]|].
       left. split; [done|]. left. split; [|done].
       destruct (of_phase booked (l_plugins m)) eqn:E; [done|].
       assert (has_plugins (l_plugins m) booked = true) by (apply has_plugins_of_phase; by rewrite E). congruence. }
  apply has_plugins_of_phase in Hp.
  destruct (run_plugins code (spec booked) (l_plugins m) booked _) as [out|] eqn:Hr.
  2: { injection H as <-. cbn. repeat (split; [destruct booked; done|]).
       split; [exists []; split; [by rewrite app_nil_r|by left]|].
       right. exists PeThrown. split; [by destruct booked|]. split; [done|]. by destruct booked. }
  set (m1 := match span_requests so out with Some (r :: rs) => asked m (RSpans (r :: rs)) | _ => m end) in H.
  assert (Hm1 : l_plugins m1 = l_plugins m ∧ l_options m1 = l_options m ∧ l_raw m1 = l_raw m ∧ l_raw_xf m1 = l_raw_xf m ∧
    l_booked m1 = l_booked m ∧ l_booked_xf m1 = l_booked_xf m ∧ l_directives m1 = l_directives m ∧ l_error m1 = l_error m ∧
    (∃ sp, l_asked m1 = l_asked m ++ sp ∧ maybe_spans sp)).
  { unfold m1. destruct (span_requests so out) as [[|r rs]|]; cbn; split_and!; try done.
    - exists []. rewrite app_nil_r. split; [done|by left].
    - exists [RSpans (r :: rs)]. split; [done|]. right. by eexists.
    - exists []. rewrite app_nil_r. split; [done|by left]. }
  clearbody m1. destruct Hm1 as (E1&E2&E3&E4&E5&E6&E7&E8&E9).
  destruct (merge_with_provenance so _ out) as [xs|] eqn:Hm.
  2: { injection H as <-. cbn. split_and!; try (destruct booked; done).
       right. exists PeThrown. split; [by destruct booked|]. split; [done|]. by destruct booked. }
  rewrite filter_erroneous in H.
  destruct (List.filter erroneous xs) as [|b bs] eqn:Hf.
  - injection H as <-. cbn. split_and!; try (destruct booked; done).
    left. split; [congruence|]. right. split; [done|]. exists xs. split; [by destruct booked|]. by apply filter_erroneous_nil.
  - injection H as <-. cbn. split_and!; try (destruct booked; done).
    right. exists (PeDirectives (b :: bs)). split; [by destruct booked|]. split; [done|].
    exists xs. split; [by destruct booked|]. by rewrite Hf.
Qed.

Lemma book_cases m m' :
  book_raw_directives ask m = Some m' → l_error m = None →
  l_plugins m' = l_plugins m ∧ l_options m' = l_options m ∧ l_raw m' = l_raw m ∧ l_raw_xf m' = l_raw_xf m ∧
  l_booked_xf m' = l_booked_xf m ∧ l_directives m' = l_directives m ∧
  l_asked m' = l_asked m ++ [RBook (l_raw_xf m)] ∧
  let a := ask (l_asked m) (RBook (l_raw_xf m)) in
  let raw := match l_raw_xf m with Some ds => ds | None => default [] (l_raw m) end in
  match result_of a with
  | Some ok =>
      match mapM (resolve_directive raw) (vec (vget "directives" ok)) with
      | Some ds => l_error m' = None ∧ l_booked m' = Some ds
      | None => l_error m' = Some (LeBooking BeThrown) ∧ l_booked m' = l_booked m
      end
  | None =>
      l_booked m' = l_booked m ∧
      l_error m' = Some (LeBooking (match mapM (resolve_report raw) (vec (indexed_of (failure_of <$> a_err a))) with
                                    | Some rs => BeReports rs | None => BeThrown end))
  end.
Proof.
  unfold book_raw_directives, result_of. intros H He. cbn zeta.
  destruct (ask (l_asked m) (RBook (l_raw_xf m))) as [[ok|] [e|]]; cbn [a_err a_ok] in *.
  - destruct (mapM (resolve_report _) _) in H |- *; injection H as <-; cbn; done.
  - destruct (mapM (resolve_directive _) _) in H |- *; injection H as <-; cbn; repeat (split; [done|]); done.
  - destruct (mapM (resolve_report _) _) in H |- *; injection H as <-; cbn; done.
  - destruct (mapM (resolve_report _) _) in H |- *; injection H as <-; cbn; done.
Qed.

Lemma first_stage_cases m :
  get_plugins_and_options env read_config ask start = Some m →
  l_raw m = None ∧ l_raw_xf m = None ∧ l_booked m = None ∧ l_booked_xf m = None ∧ l_directives m = None ∧
  match result_of (ask [] RPlugins) with
  | None => l_asked m = [RPlugins] ∧ l_plugins m = [] ∧ l_options m = None ∧
      l_error m = Some (LeParser (spanned_of (failure_of <$> a_err (ask [] RPlugins))))
  | Some ps =>
      l_asked m = [RPlugins; ROptions] ∧ l_options m = result_of (ask [RPlugins] ROptions) ∧
      l_plugins m = resolve_plugin env read_config (l_options m) <$> vec (Some ps) ∧
      l_error m = match filter (λ p, is_Some (pl_err p)) (l_plugins m) with [] => None | bad => Some (LePlugins bad) end
  end.
Proof.
  unfold get_plugins_and_options, result_of. cbn [l_asked start asked app].
  destruct (ask [] RPlugins) as [[ok|] [e|]]; cbn [a_err a_ok]; intros H;
    [injection H as <-; cbn; done| |injection H as <-; cbn; done|injection H as <-; cbn; done].
  assert (Hopt : result_of (ask [RPlugins] ROptions) =
    match a_err (ask [RPlugins] ROptions) with None => a_ok (ask [RPlugins] ROptions) | Some _ => None end) by done.
  fold (result_of (ask [RPlugins] ROptions)) in *.
  destruct (filter _ _) as [|b bs] eqn:Hf in H; injection H as <-; cbn [l_raw l_raw_xf l_booked l_booked_xf l_directives l_asked l_options l_plugins l_error fail_with];
    split_and!; try done; change (match ok with VVec l => l | _ => [] end) with (vec (Some ok)); by rewrite Hf.
Qed.

Lemma raw_cases m m' :
  get_raw_directives ask m = Some m' →
  ∃ ok, result_of (ask (l_asked m) RDirectives) = Some ok ∧
  m' = Loaded (l_plugins m) (l_options m) (Some (vec (vget "directives" ok))) (l_raw_xf m) (l_booked m)
              (l_booked_xf m) (l_directives m) (l_error m) (l_asked m ++ [RDirectives]).
Proof.
  unfold get_raw_directives, result_of. destruct (ask _ _) as [[ok|] [e|]]; cbn; intros H; try done.
  injection H as <-. by exists ok.
Qed.

(** A run of the stages: where it stops, the rest is left out. *)
Lemma bind_stages_cons (f : loaded → option loaded) fs m m' :
  bind_stages (f :: fs) m = Some m' → l_error m = None → ∃ m1, f m = Some m1 ∧ bind_stages fs m1 = Some m'.
Proof. cbn. intros H He. rewrite He in H. destruct (f m) as [m1|] eqn:E; [|done]. cbn in H. by exists m1. Qed.
Lemma bind_stages_stop fs m m' : bind_stages fs m = Some m' → l_error m ≠ None → m' = m.
Proof. destruct fs; cbn; intros H He; [by injection H|]. destruct (l_error m); [by injection H|done]. Qed.

(** What a phase leaves is what the plugins made, with spans. *)
Lemma run_phase_output (booked : bool) m m' xs :
  run_phase code spec so ask booked m = Some m' →
  (if booked then l_booked_xf m' else l_raw_xf m') = Some xs →
  (if booked then l_booked_xf m else l_raw_xf m) = None →
  ∃ out, run_plugins code (spec booked) (l_plugins m) booked (default [] (if booked then l_booked m else l_raw m)) = Some out ∧
    merge_with_provenance so (create_spans ask (l_asked m)) out = Some xs.
Proof.
  unfold run_phase. intros H Hx Hn.
  destruct (negb _). { injection H as <-. congruence. }
  destruct (run_plugins _ _ _ _ _) as [out|] eqn:Hr. 2: { injection H as <-. cbn in Hx. congruence. }
  exists out. split; [done|].
  destruct (merge_with_provenance _ _ _) as [ys|] eqn:Hm.
  - destruct (filter _ ys); injection H as <-; destruct booked; cbn in Hx; congruence.
  - injection H as <-. cbn in Hx. destruct (span_requests so out) as [[|]|]; destruct booked; cbn in Hx; congruence.
Qed.

(** The stages after which there are directives. *)
Lemma load_steps m :
  load env read_config code spec so ask = Some m → is_Some (l_raw m) →
  ∃ m1 m2 m3,
    get_plugins_and_options env read_config ask start = Some m1 ∧ l_error m1 = None ∧
    get_raw_directives ask m1 = Some m2 ∧ l_error m2 = None ∧
    run_phase code spec so ask false m2 = Some m3 ∧
    (l_error m3 ≠ None ∧ m = m3 ∨
     l_error m3 = None ∧ ∃ m4, book_raw_directives ask m3 = Some m4 ∧
       (l_error m4 ≠ None ∧ m = m4 ∨
        l_error m4 = None ∧ ∃ m5, run_phase code spec so ask true m4 = Some m5 ∧
          (l_error m5 ≠ None ∧ m = m5 ∨ l_error m5 = None ∧ final_directives m5 = Some m))).
Proof.
  unfold load. intros H Hr.
  apply bind_stages_cons in H as (m1 & H1 & H); [|done].
  destruct (l_error m1) eqn:E1.
  { apply bind_stages_stop in H; [|congruence]. subst m. apply first_stage_cases in H1 as (X&_). rewrite X in Hr. by destruct Hr. }
  apply bind_stages_cons in H as (m2 & H2 & H); [|done].
  assert (E2 : l_error m2 = None) by (apply raw_cases in H2 as (ok&_&->); done).
  apply bind_stages_cons in H as (m3 & H3 & H); [|done].
  exists m1, m2, m3. split_and!; try done.
  destruct (l_error m3) eqn:E3.
  { left. apply bind_stages_stop in H; [done|congruence]. }
  right. split; [done|]. apply bind_stages_cons in H as (m4 & H4 & H); [|done]. exists m4. split; [done|].
  destruct (l_error m4) eqn:E4.
  { left. apply bind_stages_stop in H; [done|congruence]. }
  right. split; [done|]. apply bind_stages_cons in H as (m5 & H5 & H); [|done]. exists m5. split; [done|].
  destruct (l_error m5) eqn:E5.
  { left. apply bind_stages_stop in H; [done|congruence]. }
  right. split; [done|]. apply bind_stages_cons in H as (m6 & H6 & H); [|done]. cbn in H. congruence.
Qed.

Lemma load_raw m m1 :
  load env read_config code spec so ask = Some m →
  get_plugins_and_options env read_config ask start = Some m1 → l_error m1 = None → is_Some (l_raw m).
Proof.
  unfold load. intros H H1 E1.
  apply bind_stages_cons in H as (m1' & H1' & H); [|done]. assert (m1' = m1) as -> by congruence. clear H1'.
  apply bind_stages_cons in H as (m2 & H2 & H); [|done].
  apply raw_cases in H2 as (ok&_&E2).
  assert (R2 : is_Some (l_raw m2)) by (subst; by eexists).
  assert (l_error m2 = None) as X2 by by subst. clear E2.
  apply bind_stages_cons in H as (m3 & H3 & H); [|done].
  apply run_phase_cases in H3 as (_&_&R3&_); [|done]. rewrite <- R3 in R2. clear R3.
  destruct (l_error m3) eqn:X3. { apply bind_stages_stop in H; [by subst|congruence]. }
  apply bind_stages_cons in H as (m4 & H4 & H); [|done].
  apply book_cases in H4 as (_&_&R3&_); [|done]. rewrite <- R3 in R2. clear R3.
  destruct (l_error m4) eqn:X4. { apply bind_stages_stop in H; [by subst|congruence]. }
  apply bind_stages_cons in H as (m5 & H5 & H); [|done].
  apply run_phase_cases in H5 as (_&_&R3&_); [|done]. rewrite <- R3 in R2. clear R3.
  destruct (l_error m5) eqn:X5. { apply bind_stages_stop in H; [by subst|congruence]. }
  apply bind_stages_cons in H as (m6 & H6 & H); [|done]. cbn in H, H6. injection H as <-. injection H6 as <-. done.
Qed.
End Load.
