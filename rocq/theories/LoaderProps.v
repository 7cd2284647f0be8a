(** Theorems about loading a ledger. *)
From Coq Require Import Ascii QArith.
From stdpp Require Import prelude gmap strings.
From Verif Require Import DecModel LedgerTypes IsoModel JsonModel WireModel CljModel InventoryModel ClientModel FormatModel PluginModel PluginSpec PluginFacts PluginMerge PluginProps LoaderModel LoaderSpec LoaderFacts.
Local Open Scope nat_scope.

Section Load.
Context (env : string → option namespace) (read_config : option cval → option (option cval)).
Context (code : nat → nat) (spec : bool → cval → bool) (so : list cval → list cval).
Context (ask : list pod_request → pod_request → answer).
Notation load := (load env read_config code spec so ask).

(** * C53 *)

Lemma filter_err_nil ps : filter (λ p, is_Some (pl_err p)) ps = [] → resolved ps.
Proof.
  induction ps as [|p ps IH]; [constructor|]. rewrite filter_cons.
  destruct (decide (is_Some (pl_err p))) as [?|H]; [done|]. intros E. constructor; [|by apply IH].
  destruct (pl_err p); [|done]. exfalso. apply H. by eexists.
Qed.

(** The stages run in order; the first which fails ends loading with its error: what
    was asked of the pod before it was asked, nothing is asked after it, and no later
    stage has left anything. *)
Theorem C53_outcome m : load = Some m → outcome_shown m.
Proof.
  unfold LoaderModel.load. intros H.
  apply bind_stages_cons in H as (m1 & H1 & H); [|done].
  apply first_stage_cases in H1 as (R1&R2&R3&R4&R5&H1).
  destruct (result_of (ask [] RPlugins)) as [ps|].
  2: { destruct H1 as (A&B&C&D). apply bind_stages_stop in H; [|congruence]. subst m. unfold outcome_shown.
       rewrite D. by split_and!. }
  destruct H1 as (A&B&C&D).
  destruct (filter _ (l_plugins m1)) as [|b bs] eqn:Hf.
  2: { apply bind_stages_stop in H; [|congruence]. subst m. unfold outcome_shown. rewrite D.
       split_and!; try done. intros p. rewrite <- Hf, elem_of_list_filter. tauto. }
  apply filter_err_nil in Hf.
  apply bind_stages_cons in H as (m2 & H2 & H); [|done].
  apply raw_cases in H2 as (ok & Hok & ->).
  apply bind_stages_cons in H as (m3 & H3 & H); [|done].
  pose proof (run_phase_cases _ _ _ _ _ _ _ H3) as K3. cbn -[vec of_phase] in K3.
  specialize (K3 D) as (P1&P2&P3&P4&P5&P6&(sp&P7&P8)&P9).
  rewrite A in P7. cbn in P7.
  destruct P9 as [(P9&P10)|(e&P9&P10&P11)].
  2: { apply bind_stages_stop in H; [|congruence]. subst m. unfold outcome_shown. rewrite P9. unfold raw_failed.
       split_and!; try congruence.
       - exists sp. done.
       - rewrite P3. by eexists.
       - destruct e; cbn; [exact P11|congruence]. }
  assert (PP : phase_passed false (l_plugins m3) (l_raw_xf m3)).
  { rewrite P1. destruct P10 as [(X&->)|(X&xs&Y)]; [left; by rewrite X|right; split; [done|by exists xs]]. }
  apply bind_stages_cons in H as (m4 & H4 & H); [|done].
  apply book_cases in H4 as (Q1&Q2&Q3&Q4&Q5&Q6&Q7&Q8); [|done]. cbn zeta in Q8.
  assert (Q : (l_error m4 = None ∧ is_Some (l_booked m4)) ∨ (∃ e, l_error m4 = Some (LeBooking e)) ∧ l_booked m4 = None).
  { destruct (result_of (ask (l_asked m3) (RBook (l_raw_xf m3)))) as [okb|].
    - match type of Q8 with match ?x with _ => _ end => destruct x end.
      + left. destruct Q8 as (X&Y). split; [done|]. rewrite Y. by eexists.
      + right. destruct Q8 as (X&Y). split; [by eexists|congruence].
    - right. destruct Q8 as (X&Y). split; [by eexists|congruence]. }
  clear Q8. destruct Q as [(Q8&Q9)|((e&Q8)&Q9)].
  2: { apply bind_stages_stop in H; [|congruence]. subst m. unfold outcome_shown. rewrite Q8. unfold booking_failed.
       split_and!; try congruence.
       - exists sp. split; [|done]. rewrite Q7, P7, Q4. done.
       - rewrite Q3, P3. by eexists. }
  apply bind_stages_cons in H as (m5 & H5 & H); [|done].
  apply run_phase_cases in H5 as (S1&S2&S3&S4&S5&S6&(sp'&S7&S8)&S9); [|done].
  assert (As : l_asked m5 = [RPlugins; ROptions; RDirectives] ++ sp ++ [RBook (l_raw_xf m5)] ++ sp').
  { rewrite S7, Q7, P7, S6, Q4. cbn. by rewrite <- (assoc_L app sp). }
  destruct S9 as [(S9&S10)|(e&S9&S10&S11)].
  2: { apply bind_stages_stop in H; [|congruence]. subst m. unfold outcome_shown. rewrite S9. unfold booked_failed.
       split_and!; try congruence.
       - exists sp, sp'. done.
       - rewrite S3, Q3, P3. by eexists.
       - destruct e; cbn; [exact S11|congruence]. }
  assert (PP' : phase_passed true (l_plugins m5) (l_booked_xf m5)).
  { rewrite S1. destruct S10 as [(X&->)|(X&xs&Y)]; [left; split; [done|congruence]|right; split; [done|by exists xs]]. }
  apply bind_stages_cons in H as (m6 & H6 & H); [|done]. cbn in H6. injection H6 as <-. cbn in H. injection H as <-.
  unfold outcome_shown. cbn [l_error]. rewrite S9. unfold succeeded. cbn [l_asked l_plugins l_raw l_raw_xf l_booked l_booked_xf l_directives].
  split_and!; try congruence.
  - exists sp, sp'. done.
  - rewrite S3, Q3, P3. by eexists.
  - rewrite S4 in *. destruct Q9 as [bb Hbb]. rewrite Hbb. destruct (l_booked_xf m5); done.
Qed.

(** Only when the ledger was parsed and the plugins could be used, and yet the pod does
    not give the directives, is there no outcome: an exception is thrown. *)
Theorem C53_thrown :
  load = None ↔
  ∃ ps, result_of (ask [] RPlugins) = Some ps ∧
    resolved (resolve_plugin env read_config (result_of (ask [RPlugins] ROptions)) <$> vec (Some ps)) ∧
    result_of (ask [RPlugins; ROptions] RDirectives) = None.
Proof.
  unfold LoaderModel.load. cbn [bind_stages l_error start].
  destruct (get_plugins_and_options env read_config ask start) as [m1|] eqn:H1.
  2: { exfalso. unfold get_plugins_and_options in H1. cbn [l_asked start] in H1.
       destruct (ask [] RPlugins) as [[|] [|]]; cbn [a_err a_ok] in H1; try done. destruct (filter _ _) in H1; done. }
  cbn [mbind option_bind].
  pose proof (first_stage_cases _ _ _ _ H1) as (R1&R2&R3&R4&R5&K).
  destruct (result_of (ask [] RPlugins)) as [ps|] eqn:Hps.
  2: { destruct K as (_&_&_&K). rewrite K. split; [done|]. intros (?&?&_). done. }
  destruct K as (A&B&C&D).
  destruct (filter _ (l_plugins m1)) as [|b bs] eqn:Hf.
  2: { rewrite D. split; [done|]. intros (ps'&Eps&Hr&_). injection Eps as <-.
       assert (b ∈ l_plugins m1 ∧ is_Some (pl_err b)) as (X&Y).
       { assert (b ∈ filter (λ p, is_Some (pl_err p)) (l_plugins m1)) as Hb by (rewrite Hf; left).
         apply elem_of_list_filter in Hb. tauto. }
       rewrite C in X. rewrite B in X. unfold resolved in Hr. rewrite Forall_forall in Hr. specialize (Hr _ X). rewrite Hr in Y.
       by destruct Y. }
  rewrite D. apply filter_err_nil in Hf. rewrite C, B in Hf.
  destruct (get_raw_directives ask m1) as [m2|] eqn:H2; cbn [mbind option_bind].
  2: { split; [|done]. intros _. exists ps. split_and!; try done. unfold get_raw_directives in H2. rewrite A in H2.
       unfold result_of. destruct (ask [RPlugins; ROptions] RDirectives) as [[|] [|]]; cbn in H2 |- *; done. }
  apply raw_cases in H2 as (ok&Hok&->).
  split.
  2: { intros (ps'&_&_&X). rewrite A in Hok. congruence. }
  intros H. exfalso. revert H. cbn [l_error]. rewrite D.
  assert (Hph : ∀ (bk : bool) m, is_Some (run_phase code spec so ask bk m)).
  { intros bk m. unfold run_phase. destruct (negb _); [by eexists|]. destruct (run_plugins _ _ _ _ _); [|by eexists].
    destruct (merge_with_provenance _ _ _); [|by eexists].
    match goal with |- is_Some (match ?x with _ => _ end) => destruct x end; by eexists. }
  assert (Hbk : ∀ m, is_Some (book_raw_directives ask m)).
  { intros m. unfold book_raw_directives. destruct (ask (l_asked m) (RBook (l_raw_xf m))) as [[|] [|]]; cbn [a_err a_ok];
      match goal with |- is_Some (match ?x with _ => _ end) => destruct x end; by eexists. }
  edestruct (Hph false) as [m3 H3]. rewrite H3. cbn [mbind option_bind]. destruct (l_error m3); [done|].
  edestruct (Hbk m3) as [m4 H4]. rewrite H4. cbn [mbind option_bind]. destruct (l_error m4); [done|].
  edestruct (Hph true m4) as [m5 H5]. rewrite H5. cbn [mbind option_bind]. destruct (l_error m5); done.
Qed.

(** * C68 *)

Lemma resolve_plugin_cases options p :
  (usable env read_config options p ∧ resolved_as env read_config options p (resolve_plugin env read_config options p)) ∨
  (¬ usable env read_config options p ∧ pl_name (resolve_plugin env read_config options p) = named p ∧
   is_Some (pl_err (resolve_plugin env read_config options p)) ∧
   pl_raw (resolve_plugin env read_config options p) = None ∧ pl_booked (resolve_plugin env read_config options p) = None).
Proof.
  unfold resolve_plugin. fold (named p). unfold ns_name.
  destruct (env (replace_char "_" "-" (named p))) as [n|] eqn:En.
  2: { right. split; [|cbn; split_and!; by try eexists]. intros (n&c&X&_). congruence. }
  destruct (ns_booked n) as [fb|] eqn:Eb, (ns_raw n) as [fr|] eqn:Er.
  4: { right. split; [|cbn; split_and!; by try eexists]. intros (n'&c&X&Y&_). assert (n' = n) as -> by congruence. rewrite Eb, Er in Y. by destruct Y. }
  all: destruct (read_config (vget "config" p)) as [c|] eqn:Ec;
    [|right; split; [intros (n'&c&X&Y&Z&_); congruence|cbn; split_and!; by try eexists]].
  - destruct (fb c options) as [b'|] eqn:Xb, (fr c options) as [r'|] eqn:Xr.
    1: left; split;
       [exists n, c; rewrite Eb, Er; split_and!; [done|by left|done|intros f [[= <-]|[= <-]]; by eexists]
       |split_and!; [done|done|exists n, c; rewrite Eb, Er; done]].
    all: right; (split; [|cbn; split_and!; by try eexists]); intros (n'&c'&X&Y&Z&W);
      assert (n' = n) as -> by congruence; assert (c' = c) as -> by congruence.
    all: first [destruct (W fr (or_introl Er)); congruence|destruct (W fb (or_intror Eb)); congruence].
  - destruct (fb c options) as [b'|] eqn:Xb.
    1: left; split;
       [exists n, c; rewrite Eb, Er; split_and!; [done|by right|done|intros f [?|[= <-]]; [done|by eexists]]
       |split_and!; [done|done|exists n, c; rewrite Eb, Er; done]].
    right; (split; [|cbn; split_and!; by try eexists]); intros (n'&c'&X&Y&Z&W);
      assert (n' = n) as -> by congruence; assert (c' = c) as -> by congruence.
    destruct (W fb (or_intror Eb)); congruence.
  - destruct (fr c options) as [b'|] eqn:Xb.
    1: left; split;
       [exists n, c; rewrite Eb, Er; split_and!; [done|by left|done|intros f [[= <-]|?]; [by eexists|done]]
       |split_and!; [done|done|exists n, c; rewrite Eb, Er; done]].
    right; (split; [|cbn; split_and!; by try eexists]); intros (n'&c'&X&Y&Z&W);
      assert (n' = n) as -> by congruence; assert (c' = c) as -> by congruence.
    destruct (W fr (or_introl Er)); congruence.
Qed.

(** If a plugin which the ledger names cannot be used, loading ends before any
    directive is read, with an error for every such plugin and for no other. *)
Theorem C68_reported ps :
  result_of (ask [] RPlugins) = Some (VVec ps) →
  (∃ p, p ∈ ps ∧ ¬ usable env read_config (result_of (ask [RPlugins] ROptions)) p) →
  ∃ m bad, load = Some m ∧ l_error m = Some (LePlugins bad) ∧ l_asked m = [RPlugins; ROptions] ∧
    (∀ name, name ∈ (pl_name <$> bad) ↔
       ∃ p, p ∈ ps ∧ named p = name ∧ ¬ usable env read_config (result_of (ask [RPlugins] ROptions)) p).
Proof.
  intros Hps (p0 & Hin & Hun).
  destruct load as [m|] eqn:Hl.
  2: { apply C53_thrown in Hl as (ps'&E&Hr&_). rewrite Hps in E. injection E as <-.
       unfold resolved in Hr. rewrite Forall_forall in Hr. cbn [vec] in Hr.
       specialize (Hr _ (elem_of_list_fmap_1 _ _ _ Hin)).
       destruct (resolve_plugin_cases (result_of (ask [RPlugins] ROptions)) p0) as [(X&_)|(_&_&X&_)]; [done|].
       rewrite Hr in X. by destruct X. }
  unfold LoaderModel.load in Hl. apply bind_stages_cons in Hl as (m1&H1&Hl); [|done].
  apply first_stage_cases in H1 as (R1&R2&R3&R4&R5&K). rewrite Hps in K. destruct K as (A&B&C&D).
  assert (Hbad : ∀ name, name ∈ (pl_name <$> filter (λ p, is_Some (pl_err p)) (l_plugins m1)) ↔
       ∃ p, p ∈ ps ∧ named p = name ∧ ¬ usable env read_config (result_of (ask [RPlugins] ROptions)) p).
  { intros name. rewrite C, B. cbn [vec]. rewrite elem_of_list_fmap. split.
    - intros (q&->&Hq). apply elem_of_list_filter in Hq as (Hq&Hq'). apply elem_of_list_fmap in Hq' as (p&->&Hp).
      exists p. split; [done|]. destruct (resolve_plugin_cases (result_of (ask [RPlugins] ROptions)) p) as [(_&_&X&_)|(X&Y&_)].
      + rewrite X in Hq. by destruct Hq.
      + by rewrite Y.
    - intros (p&Hp&<-&Hu). exists (resolve_plugin env read_config (result_of (ask [RPlugins] ROptions)) p).
      destruct (resolve_plugin_cases (result_of (ask [RPlugins] ROptions)) p) as [(X&_)|(X&Y&Z&_)]; [done|].
      split; [done|]. apply elem_of_list_filter. split; [done|]. by apply elem_of_list_fmap_1. }
  destruct (filter _ (l_plugins m1)) as [|b bs] eqn:Hf.
  { exfalso. specialize (Hbad (named p0)). destruct Hbad as (_&Hbad).
    assert (named p0 ∈ (pl_name <$> @nil plugin)) as X by (apply Hbad; by exists p0). by apply elem_of_nil in X. }
  apply bind_stages_stop in Hl; [|congruence]. subst m. by exists m1, (b :: bs).
Qed.

(** If all can be used, they are, in the order of the ledger, with what their functions
    give; and it is these which the phases run. *)
Theorem C68_used ps m :
  result_of (ask [] RPlugins) = Some (VVec ps) →
  Forall (usable env read_config (result_of (ask [RPlugins] ROptions))) ps →
  load = Some m →
  l_options m = result_of (ask [RPlugins] ROptions) ∧
  Forall2 (resolved_as env read_config (l_options m)) ps (l_plugins m) ∧
  (∀ bad, l_error m ≠ Some (LePlugins bad)) ∧
  (∀ xs, l_raw_xf m = Some xs → ∃ raw out,
     l_raw m = Some raw ∧ run_plugins code (spec false) (l_plugins m) false raw = Some out ∧
     merge_with_provenance so (create_spans ask [RPlugins; ROptions; RDirectives]) out = Some xs) ∧
  (∀ xs, l_booked_xf m = Some xs → ∃ booked out h,
     l_booked m = Some booked ∧ run_plugins code (spec true) (l_plugins m) true booked = Some out ∧
     merge_with_provenance so (create_spans ask h) out = Some xs).
Proof.
  intros Hps Hu Hl.
  assert (Hfirst : ∀ m1, get_plugins_and_options env read_config ask start = Some m1 →
    l_options m1 = result_of (ask [RPlugins] ROptions) ∧ Forall2 (resolved_as env read_config (l_options m1)) ps (l_plugins m1) ∧
    l_error m1 = None ∧ l_raw_xf m1 = None ∧ l_booked_xf m1 = None ∧ l_asked m1 = [RPlugins; ROptions]).
  { intros m1 H1. apply first_stage_cases in H1 as (R1&R2&R3&R4&R5&K). rewrite Hps in K. destruct K as (A&B&C&D).
    assert (F : Forall2 (resolved_as env read_config (l_options m1)) ps (l_plugins m1)).
    { rewrite C, B. cbn [vec]. clear -Hu. induction Hu as [|p ps Hp Hu IH]; [constructor|]. constructor; [|done].
      destruct (resolve_plugin_cases (result_of (ask [RPlugins] ROptions)) p) as [(_&X)|(X&_)]; done. }
    split_and!; try done. rewrite D.
    destruct (filter _ (l_plugins m1)) as [|b bs] eqn:Hf; [done|]. exfalso.
    assert (b ∈ filter (λ p, is_Some (pl_err p)) (l_plugins m1)) as Hb by (rewrite Hf; left).
    apply elem_of_list_filter in Hb as (X&Y). apply elem_of_list_lookup in Y as (i&Y).
    apply (Forall2_lookup_r _ _ _ _ _ F) in Y as (p&_&_&Z&_). rewrite Z in X. by destruct X. }
  assert (Hraw : is_Some (l_raw m)).
  { pose proof Hl as Hl'. unfold LoaderModel.load in Hl'. apply bind_stages_cons in Hl' as (m1&H1&_); [|done].
    eapply load_raw; [exact Hl|exact H1|]. by apply Hfirst. }
  apply load_steps in Hl as (m1&m2&m3&H1&E1&H2&E2&H3&Hl); [|done].
  destruct (Hfirst _ H1) as (X1&X2&X3&X4&X5&X6). clear Hfirst.
  apply raw_cases in H2 as (ok&Hok&->).
  pose proof H3 as K3. apply run_phase_cases in K3 as (P1&P2&P3&P4&P5&P6&_&P9); [|done].
  assert (Hx : ∀ xs, l_raw_xf m3 = Some xs → ∃ raw out,
     l_raw m3 = Some raw ∧ run_plugins code (spec false) (l_plugins m3) false raw = Some out ∧
     merge_with_provenance so (create_spans ask [RPlugins; ROptions; RDirectives]) out = Some xs).
  { intros xs Hxs. eapply run_phase_output in H3 as (out&O1&O2); [|exact Hxs|done].
    cbn -[vec] in O1, O2, P1, P3. rewrite X6 in O2. rewrite P1, P3. by eexists _, _. }
  cbn -[vec of_phase] in P1, P2, P3, P4, P5, P6, P9.
  assert (Hg : ∀ m, l_plugins m = l_plugins m3 → l_options m = l_options m3 →
    l_options m = result_of (ask [RPlugins] ROptions) ∧ Forall2 (resolved_as env read_config (l_options m)) ps (l_plugins m)).
  { intros mm -> ->. rewrite P1, P2. done. }
  destruct Hl as [(E3&->)|(E3&m4&H4&Hl)].
  { destruct (Hg m3) as (G1&G2); [done..|]. split_and!; try done.
    - destruct P9 as [(?&_)|(e&?&_)]; congruence.
    - intros xs. rewrite P6. congruence. }
  apply book_cases in H4 as (Q1&Q2&Q3&Q4&Q5&Q6&Q7&Q8); [|done].
  destruct Hl as [(E4&->)|(E4&m5&H5&Hl)].
  { destruct (Hg m4) as (G1&G2); [done..|]. rewrite Q1, Q3, Q4. split_and!; try done.
    - by rewrite <- Q1.
    - intros bad. cbn zeta in Q8. destruct (result_of (ask (l_asked m3) _)) as [okb|].
      + match type of Q8 with match ?x with _ => _ end => destruct x end; destruct Q8; congruence.
      + destruct Q8; congruence.
    - intros xs. rewrite Q5, P6. congruence. }
  pose proof H5 as K5. apply run_phase_cases in K5 as (S1&S2&S3&S4&S5&S6&_&S9); [|done].
  assert (Hy : ∀ xs, l_booked_xf m5 = Some xs → ∃ booked out h,
     l_booked m5 = Some booked ∧ run_plugins code (spec true) (l_plugins m5) true booked = Some out ∧
     merge_with_provenance so (create_spans ask h) out = Some xs).
  { intros xs Hxs. eapply run_phase_output in H5 as (out&O1&O2); [|exact Hxs|cbn; congruence].
    cbn zeta in Q8. destruct (result_of (ask (l_asked m3) _)) as [okb|]; [|destruct Q8; congruence].
    match type of Q8 with match ?x with _ => _ end => destruct x as [ds|] end; destruct Q8 as (Q8&Q9); [|congruence].
    cbn in O1, O2. rewrite Q9 in O1. rewrite S1, S4, Q9. by exists ds, out, (l_asked m4). }
  assert (G5 : ∀ mm, l_plugins mm = l_plugins m5 → l_options mm = l_options m5 → l_raw mm = l_raw m5 → l_raw_xf mm = l_raw_xf m5 →
      l_booked mm = l_booked m5 → l_booked_xf mm = l_booked_xf m5 → (∀ bad, l_error mm ≠ Some (LePlugins bad)) →
      l_options mm = result_of (ask [RPlugins] ROptions) ∧
  Forall2 (resolved_as env read_config (l_options mm)) ps (l_plugins mm) ∧
  (∀ bad, l_error mm ≠ Some (LePlugins bad)) ∧
  (∀ xs, l_raw_xf mm = Some xs → ∃ raw out,
     l_raw mm = Some raw ∧ run_plugins code (spec false) (l_plugins mm) false raw = Some out ∧
     merge_with_provenance so (create_spans ask [RPlugins; ROptions; RDirectives]) out = Some xs) ∧
  (∀ xs, l_booked_xf mm = Some xs → ∃ booked out h,
     l_booked mm = Some booked ∧ run_plugins code (spec true) (l_plugins mm) true booked = Some out ∧
     merge_with_provenance so (create_spans ask h) out = Some xs)).
  { intros mm Y1 Y2 Y3 Y4 Y5 Y6 Y7. destruct (Hg mm) as (G1&G2); [congruence..|].
    split_and!; try done.
    - rewrite Y3, Y4, Y1, S1, S3, S6, Q1, Q3, Q4. done.
    - rewrite Y1, Y5, Y6. done. }
  destruct Hl as [(E5&->)|(E5&H6)].
  - apply G5; try done. destruct S9 as [(?&_)|(e&?&_)]; congruence.
  - cbn in H6. injection H6 as <-. apply G5; cbn; congruence.
Qed.
End Load.
Print Assumptions C53_outcome.
Print Assumptions C53_thrown.
Print Assumptions C68_reported.
Print Assumptions C68_used.

(** * Samples *)

(** A raw plugin, and one of which the function throws. *)
Definition s_env (name : string) : option namespace :=
  if String.eqb name "p.flag-ging" then Some (Namespace None (Some (λ _ _, Some (Some flagging))))
  else if String.eqb name "p.objecting" then Some (Namespace (Some (λ _ _, Some (Some objecting))) None)
  else if String.eqb name "p.throwing" then Some (Namespace (Some (λ _ _, None)) None)
  else None.
Definition s_read (c : option cval) : option (option cval) := Some c.
Definition s_plugin (name : string) : cval := VMap [("name", VStr name); ("config", VNil)].
Definition ok (v : cval) : answer := Answer (Some v) None.
(** A pod which books by numbering the directives, or fails to book, or to parse. *)
Definition s_booked : list cval :=
  imap (λ i d, match vassoc "idx" (VNum (CLong (Z.of_nat i))) d with Some d' => d' | None => VNil end) s_ledger.
Definition s_report : cval :=
  VMap [("reason", VStr "account not open"); ("idx", VVec [VNum (CLong 1); VNum (CLong 1)])].
Definition s_ask (plugins : answer) (book : answer) (h : list pod_request) (r : pod_request) : answer :=
  match r with
  | RPlugins => plugins
  | ROptions => ok (VMap [("name-assets", VStr "Assets")])
  | RDirectives => ok (VMap [("directives", VVec s_ledger)])
  | RBook _ => book
  | RSpans rs => ok (VVec (imap (λ i _, s_span (1000 + i)) rs))
  end.
Definition s_load (plugins : list string) (book : answer) : option loaded :=
  load s_env s_read id (λ _ _, true) s_order (s_ask (ok (VVec (s_plugin <$> plugins))) book).
Definition s_books : answer := ok (VMap [("directives", VVec s_booked)]).
Definition s_fails (code : Z) : answer :=
  Answer None (Some (VMap [("code", VNum (CLong code)); ("message", VStr "Error reports"); ("data", VVec [s_report])])).

(** All outcomes arise: a ledger with and without plugins, one which does not book, an
    error of a plugin in the booked phase, and one which does not parse. *)
Definition summary (o : option loaded) : option (option load_error * option nat * nat * nat) :=
  option_map (λ m, (l_error m, option_map length (l_directives m), length (default [] (l_booked m)), length (l_asked m))) o.
Definition s_creport : creport :=
  CReport (Some (VStr "invalid posting, modified by p.flag_ging")) (Some (VStr "account not open")) (Some (s_span 1002)) None
    (Some [VStr "txn"; s_span 10]) None.
Example C53_example :
  summary (s_load ["p.flag_ging"] s_books) = Some (None, Some 3, 3, 5) ∧
  summary (s_load [] s_books) = Some (None, Some 3, 3, 4) ∧
  summary (s_load ["p.flag_ging"] (s_fails 3)) = Some (Some (LeBooking (BeReports [s_creport])), None, 0, 5) ∧
  (∃ d, summary (s_load ["p.objecting"] s_books) = Some (Some (LeBooked (PeDirectives [d])), None, 3, 4)) ∧
  summary (load s_env s_read id (λ _ _, true) s_order (s_ask (s_fails 2) s_books)) =
    Some (Some (LeParser (Some (VVec [s_report]))), None, 0, 1) ∧
  summary (load s_env s_read id (λ b _, b) s_order (s_ask (ok (VVec [s_plugin "p.flag_ging"])) s_books)) =
    Some (Some (LeRaw PeThrown), None, 0, 3).
Proof. split_and!; [..|eexists| |]; vm_compute; reflexivity. Qed.
Example C53_thrown_example :
  load s_env s_read id (λ _ _, true) s_order
    (λ h r, match r with RDirectives => Answer None None | _ => s_ask (ok (VVec [])) s_books h r end) = None.
Proof. done. Qed.
Example C68_example :
  option_map (λ m, match l_error m with Some (LePlugins bad) => pl_name <$> bad | _ => [] end)
    (s_load ["p.flag_ging"; "p.throwing"; "p.missing"] s_books) = Some ["p.throwing"; "p.missing"] ∧
  option_map (λ m, (pl_name <$> l_plugins m, option_map length (l_raw_xf m), option_map length (l_booked_xf m)))
    (s_load ["p.flag_ging"; "p.objecting"] s_books) = Some (["p.flag_ging"; "p.objecting"], Some 3, Some 3).
Proof. by vm_compute. Qed.
