(** Theorems about sessions and the command line. *)
From Coq Require Import Ascii QArith.
From stdpp Require Import prelude gmap strings pretty.
From Verif Require Import DecModel LedgerTypes IsoModel IsoFacts JsonModel WireModel WireSpec WireFacts BookModel SpanModel ParserModel
  JsonText SampleLib SampleLedgers ServerModel ServerSpec ServerFacts ServerSamples CljModel InventoryModel ClientModel ClientDecode FormatModel PluginModel PluginSpec PluginProps LoaderModel
  LoaderSpec LoaderFacts LoaderProps EncodeModel SystemModel SystemFacts SystemLoad SystemSpec SystemErrors SystemTrace SystemPrint SystemProps RollupModel RollupSpec RollupFacts
  BookUnits UserModel UserSpec.
Local Open Scope nat_scope.

Section User.
Context {P S : Type} (env : server_env P S).
Context (jso : list json → list json) (jmo : list (string * json) → list (string * json)).
Context (ns : string → option namespace) (read_config : option cval → option (option cval)).
Context (code : nat → nat) (spec : bool → cval → bool) (so : list cval → list cval).
Notation world := (@world P S).
Notation load_in := (load_in env jso jmo ns read_config code spec so).
Notation user_load := (user_load env jso jmo ns read_config code spec so).
Notation session_after := (session_after env jso jmo ns read_config code spec so).
Notation print_errors := (print_errors env jso jmo).
Notation app_init := (app_init env jso jmo ns read_config code spec so).
Implicit Types (w : world) (s : session).

Lemma load_in_loaded w m : load_in w = inr (Some m) →
  load ns read_config code spec so (SystemModel.ask env jso jmo (w_health w) (w_orders w) (w_sources w)) = Some m.
Proof. unfold UserModel.load_in, SystemModel.load_beanfile. destruct (pod_start _ _ _ _ _ _); [done|]. by intros [= ?]. Qed.
Lemma loaded_directives w m : load_in w = inr (Some m) →
  match l_error m with None => is_Some (l_directives m) | Some _ => l_directives m = None end.
Proof.
  intros H%load_in_loaded%C53_outcome. unfold outcome_shown in H.
  destruct (l_error m) as [[]|]; unfold parsing_failed, resolution_failed, raw_failed, booking_failed, booked_failed, succeeded in H; try tauto.
  destruct H as (_&_&_&_&[b Hb]&_&->). rewrite Hb. destruct (l_booked_xf m); by eexists.
Qed.

(** How loading can go. *)
Definition others s : list nat :=
  match g_beans (se_globals s) with
  | Some (pod, _) => List.filter (λ n, negb (Nat.eqb n pod)) (se_pods s)
  | None => se_pods s
  end.
Lemma load_cases w path s : ∃ s' t o, user_load w path s = (s', t, o) ∧
  match o with
  | Returned => ∃ m, load_in w = inr (Some m) ∧ w_spawn w = None ∧ (print_errors w m).2 = None ∧
      s' = Session (assign (Some (se_next s, m))) (others s ++ [se_next s]) (Datatypes.S (se_next s)) ∧
      t = read_line (length (default [] (l_raw m))) path +:+ (print_errors w m).1 +:+
          match l_error m with None => result_line (length (default [] (l_directives m))) | Some _ => "" end
  | Threw e =>
      w_spawn w = Some e ∧ s' = Session (assign None) (others s) (se_next s) ∧ t = "" ∨
      w_spawn w = None ∧ (∃ u, load_in w = inl u ∧ e = Exn ["pod/start failed"] (match u with Some (VStr t) => Some t | _ => None end)) ∧
        s' = Session (assign None) (others s) (Datatypes.S (se_next s)) ∧ t = "" ∨
      w_spawn w = None ∧ (load_in w = inr None ∨ ∃ m, load_in w = inr (Some m) ∧ (print_errors w m).2 = Some e) ∧
        s' = Session (assign None) (others s ++ [se_next s]) (Datatypes.S (se_next s))
  end.
Proof.
  unfold UserModel.user_load. fold (others s). destruct (w_spawn w) as [e|] eqn:Ew.
  { do 3 eexists. split; [done|]. cbn. by left. }
  destruct (load_in w) as [u|[m|]] eqn:El.
  - do 3 eexists. split; [done|]. cbn. right. left. split_and!; [done|by eexists|done|done].
  - destruct (print_errors w m) as [t [x|]] eqn:Ep.
    + do 3 eexists. split; [done|]. cbn. right. right. split_and!; [done| |done]. right. exists m. by rewrite Ep.
    + do 3 eexists. split; [done|]. cbn. exists m. rewrite Ep. split_and!; try done. unfold read_line, println.
      cbn [String.concat fst]. rewrite !string_app_assoc. destruct (l_error m); [done|]. unfold result_line. done.
  - do 3 eexists. split; [done|]. cbn. right. right. eauto.
Qed.

(** * C77 *)

(** Whatever was loaded before, the globals show the ledger loaded last, with nothing
    left of the ones before; if loading it was given up they show nothing. *)
Theorem C77_globals loads w path s' t o :
  user_load w path (session_after loads session_start) = (s', t, o) →
  match o with
  | Returned => ∃ pod m, load_in w = inr (Some m) ∧ shows (se_globals s') pod m ∧ pod ∈ se_pods s'
  | Threw _ => shows_nothing (se_globals s')
  end.
Proof.
  intros H. destruct (load_cases w path (session_after loads session_start)) as (s''&t'&o'&H'&Ho). rewrite H in H'. injection H' as <- <- <-.
  destruct o as [|e].
  - destruct Ho as (m&Hm&_&_&->&_). exists (se_next (session_after loads session_start)), m. split; [done|].
    split; [|cbn; set_solver]. unfold shows. cbn. apply loaded_directives in Hm. split_and!; [done..|].
    destruct (l_error m); [by rewrite Hm|]. destruct Hm as [ds ->]. done.
  - destruct Ho as [(_&->&_)|[(_&_&->&_)|(_&_&->)]]; done.
Qed.

(** * C78 *)

(** The pods are different, and that of the globals is one of them. *)
Definition pods_ok s : Prop :=
  NoDup (se_pods s) ∧ (∀ n, n ∈ se_pods s → n < se_next s) ∧
  ∀ pod m, g_beans (se_globals s) = Some (pod, m) → pod ∈ se_pods s.
Lemma others_elem s n : n ∈ others s ↔ n ∈ se_pods s ∧ ∀ pod m, g_beans (se_globals s) = Some (pod, m) → n ≠ pod.
Proof.
  unfold others. destruct (g_beans (se_globals s)) as [[pod m]|].
  - rewrite !elem_of_list_In, List.filter_In, negb_true_iff, Nat.eqb_neq. naive_solver.
  - naive_solver.
Qed.
Lemma others_nodup s : NoDup (se_pods s) → NoDup (others s).
Proof. unfold others. destruct (g_beans _) as [[]|]; [|done]. rewrite !NoDup_ListNoDup. apply List.NoDup_filter. Qed.
Lemma load_pods w path s : pods_ok s → pods_ok (user_load w path s).1.1.
Proof.
  intros (Hn&Hl&Hb). pose proof (others_nodup s Hn) as Hn'.
  assert (Hl' : ∀ n, n ∈ others s → n < se_next s) by (intros n [? _]%others_elem; auto).
  assert (Hs : NoDup (others s ++ [se_next s])).
  { apply NoDup_app. split_and!; [done| |apply NoDup_singleton]. intros x Hx%Hl' ->%elem_of_list_singleton. lia. }
  assert (Hs' : ∀ n, n ∈ others s ++ [se_next s] → n < Datatypes.S (se_next s)).
  { intros n [?%Hl'| ->%elem_of_list_singleton]%elem_of_app; lia. }
  destruct (load_cases w path s) as (s'&t&o&->&Ho). cbn [fst]. destruct o as [|e].
  - destruct Ho as (m&_&_&_&->&_). split_and!; [done..|]. cbn. intros pod m' [= <- <-]. set_solver.
  - destruct Ho as [(_&->&_)|[(_&_&->&_)|(_&_&->)]]; (split_and!; [done| |done]); cbn; [done|intros n Hx%Hl'; lia|done].
Qed.
Lemma sessions_pods loads s : pods_ok s → pods_ok (session_after loads s).
Proof. revert s. induction loads as [|[w path] l IH]; intros s Hs; [done|]. cbn [UserModel.session_after]. apply IH, load_pods, Hs. Qed.
Lemma start_pods : pods_ok session_start.
Proof. split_and!; [by apply NoDup_nil|cbn; set_solver|done]. Qed.

(** Errors can be printed. *)
Definition printable w : Prop := ∀ m, load_in w = inr (Some m) → (print_errors w m).2 = None.
(** A pod is left behind by a load whose errors can not be printed: it is never
    stopped, whatever is loaded afterwards. *)
Theorem C78_left_behind loads w path s' t e m loads' :
  user_load w path (session_after loads session_start) = (s', t, Threw e) → w_spawn w = None → load_in w = inr (Some m) →
  ∃ pod, pod ∉ se_pods (session_after loads session_start) ∧ pod ∈ se_pods (session_after loads' s').
Proof.
  set (s := session_after loads session_start). intros H Hw Hm.
  assert (Hs : pods_ok s) by apply sessions_pods, start_pods. destruct Hs as (Hn&Hl&Hb).
  destruct (load_cases w path s) as (s''&t'&o'&H'&Ho). rewrite H in H'. injection H' as <- <- <-. cbn in Ho.
  destruct Ho as [(?&_)|[(_&(?&?&_)&_)|(_&_&->)]]; [congruence..|].
  exists (se_next s). split; [intros ?%Hl; lia|].
  assert (Hk : ∀ s1, (se_next s ∈ se_pods s1 ∧ se_next s < se_next s1 ∧ ∀ pod m, g_beans (se_globals s1) = Some (pod, m) → pod ≠ se_next s) →
     se_next s ∈ se_pods (session_after loads' s1)).
  { induction loads' as [|[w1 p1] l IH]; intros s1 (H1&H2&H3); [done|]. cbn [UserModel.session_after]. apply IH.
    destruct (load_cases w1 p1 s1) as (s2&t2&o2&->&Ho). cbn [fst].
    assert (Ho1 : se_next s ∈ others s1) by (apply others_elem; split; [done|intros; by apply not_eq_sym; eauto]).
    destruct o2.
    - destruct Ho as (m1&_&_&_&->&_). cbn. split_and!; [set_solver|lia|]. intros pod m' [= <- <-]. lia.
    - destruct Ho as [(_&->&_)|[(_&_&->&_)|(_&_&->)]]; cbn; (split_and!; [set_solver|lia|done]). }
  apply Hk. cbn. split_and!; [set_solver|lia|done].
Qed.

Section Healthy.
Context (Hjso : ∀ l, jso l ≡ₚ l) (Hjmo : ∀ l, jmo l ≡ₚ l).
Lemma never_thrown w : load_in w ≠ inr None.
Proof.
  unfold UserModel.load_in. destruct (w_health w) as [pl|why].
  - destruct (C73_always_loads env jso jmo Hjso Hjmo (w_orders w) (w_sources w) ns read_config code spec so pl) as [m ->]. done.
  - by rewrite (C72_unreadable env jso jmo Hjmo).
Qed.
(** At most one pod is there at any time if all errors can be printed: none before a
    ledger is loaded or after one could not be, else that of the ledger loaded. *)
Theorem C78_one_partial loads : (∀ w path, (w, path) ∈ loads → printable w) →
  let s := session_after loads session_start in
  se_pods s = match g_beans (se_globals s) with Some (pod, _) => [pod] | None => [] end.
Proof.
  intros Hp. cbv zeta.
  assert (Hk : ∀ s, se_pods s = match g_beans (se_globals s) with Some (pod, _) => [pod] | None => [] end →
     let s' := session_after loads s in se_pods s' = match g_beans (se_globals s') with Some (pod, _) => [pod] | None => [] end).
  { cbv zeta. revert Hp. induction loads as [|[w path] l IH]; intros Hp s Hs; [done|]. cbn [UserModel.session_after].
    apply IH; [intros; eapply Hp; by right|].
    assert (Ho : others s = []).
    { unfold others. destruct (g_beans (se_globals s)) as [[pod m]|]; [|done]. rewrite Hs. cbn. by rewrite Nat.eqb_refl. }
    destruct (load_cases w path s) as (s'&t&o&->&H). rewrite Ho in H. cbn [fst]. destruct o.
    - destruct H as (m&_&_&_&->&_). done.
    - destruct H as [(_&->&_)|[(_&_&->&_)|(_&[H|(m&Hm&H)]&_)]]; [done..|by apply never_thrown in H|].
      rewrite (Hp w path ltac:(left) m Hm) in H. done. }
  by apply Hk.
Qed.
Lemma printed_iff w m : (print_errors w m).2 = None ↔
  printed_reports env jso jmo (w_health w) (w_orders w) (w_sources w) m ≠ None.
Proof.
  unfold UserModel.print_errors, printed_reports, print_error, format_errors.
  destruct (l_error m) as [e|]; [|done]. cbn [mbind option_bind].
  destruct e as [ps|[[]|]|[]|[]|[]]; cbn [error_reports_of]; try done;
    by destruct (a_err _).
Qed.
(** The first stage leaves no plugins if the ledger names none, and then no plugin is
    run. *)
Lemma no_plugins ask m :
  load ns read_config code spec so ask = Some m → result_of (ask [] RPlugins) = Some (VVec []) →
  ((∃ e, l_error m = Some (LeBooking e)) ∨ l_error m = None) ∧ RBook None ∈ l_asked m.
Proof.
  unfold load. intros H Hps. apply bind_stages_cons in H as (m1&H1&H); [|done].
  apply first_stage_cases in H1 as (R1&X1&_&_&_&H1). rewrite Hps in H1. destruct H1 as (_&_&P1&E1).
  change (vec (Some (VVec []))) with (@nil cval) in P1. cbn in P1. rewrite P1 in E1. cbn in E1.
  apply bind_stages_cons in H as (m2&H2&H); [|done]. apply raw_cases in H2 as (ok&_&E2).
  assert (P2 : l_plugins m2 = []) by by subst. assert (X2 : l_raw_xf m2 = None) by by subst. assert (Y2 : l_error m2 = None) by by subst. clear E2.
  apply bind_stages_cons in H as (m3&H3&H); [|done]. unfold run_phase in H3. rewrite P2 in H3. injection H3 as <-.
  apply bind_stages_cons in H as (m4&H4&H); [|done]. apply book_cases in H4 as (P4&_&_&_&_&_&A4&H4); [|done].
  rewrite X2 in A4. assert (Hin : RBook None ∈ l_asked m4) by (rewrite A4; set_solver).
  assert (E4 : (∃ e, l_error m4 = Some (LeBooking e)) ∨ l_error m4 = None).
  { cbv zeta in H4. repeat case_match; destruct H4; eauto. }
  destruct E4 as [[e E4]|E4].
  { apply bind_stages_stop in H; [|congruence]. subst m. split; [|done]. left. by eexists. }
  apply bind_stages_cons in H as (m5&H5&H); [|done]. unfold run_phase in H5. rewrite P4, P2 in H5. injection H5 as <-.
  apply bind_stages_cons in H as (m6&H6&H); [|done]. injection H as <-. unfold final_directives in H6.
  destruct (l_booked_xf m4), (l_booked m4); try done; injection H6 as <-; cbn; auto.
Qed.
Lemma empty_prints w p h : w_health w = Healthy p → length h ≤ 90 →
  a_err (invoke env jso jmo (w_health w) (w_orders w) (length h + 2)
    (pod_state env jso jmo (w_health w) (w_orders w) (w_sources w) h) "parser.format-errors" (Some (VVec []))).2 = None.
Proof.
  intros Hp Hh. destruct (pod_state _ _ _ _ _ _ h) as [x|]; [|done]. rewrite Hp.
  destruct (format_prints env jso jmo Hjmo p (w_orders w) (length h + 2) x [] []) as (t&->&_); [apply small_4; lia|done| |done].
  intros ? ?%elem_of_nil. done.
Qed.
(** Ledgers without plugins, and ledgers which do not parse, as far as the errors can
    be shown in the source. *)
Definition without_plugins w : Prop :=
  match w_health w with
  | Healthy (inl p) => pa_plugins p = []
  | Healthy (inr es) => ∀ e, e ∈ es → is_Some (src_write_report (env_sources env) (w_sources w) false (from_error e))
  | Unhealthy _ => True
  end.
Lemma without_plugins_printable w : without_plugins w → printable w.
Proof.
  intros Hw m Hm. apply printed_iff. unfold without_plugins in Hw. destruct (w_health w) as [[p|es]|why] eqn:Eh.
  - pose proof (load_in_loaded w m Hm) as Hl. rewrite Eh in Hl.
    destruct (no_plugins _ _ Hl) as [He Hb].
    { rewrite (ask_plugins env jso jmo Hjmo), Hw. done. }
    assert (Ha : length (l_asked m) ≤ 90).
    { pose proof (C53_outcome _ _ _ _ _ _ _ Hl) as Ho. unfold outcome_shown in Ho.
      destruct He as [[e He]|He]; rewrite He in Ho.
      - destruct Ho as ((sp&->&[->|[? ->]])&_); cbn; lia.
      - destruct Ho as ((sp&sp'&->&[->|[? ->]]&[->|[? ->]])&_); cbn; lia. }
    destruct He as [[e He]|He]; [|unfold printed_reports; by rewrite He].
    assert (Hr : error_reports_of (LeBooking e) = Some []).
    { destruct (load_book _ _ _ _ _ _ _ _ Hl Hb) as (Hr&ok&raw&sp&Hok&_&Hsp&_&_&_&H).
      rewrite <- Hr in H. destruct (state_prefix env jso jmo Hjmo p (w_orders w) (w_sources w) sp Hsp) as [x Hs].
      rewrite (ask_book_none env jso jmo Hjmo p (w_orders w) (w_sources w) _ x Hs (small_prefix sp Hsp)) in H. cbv zeta in H.
      destruct (book_with _ _ _ _ _) as [bs ws|errors|y].
      - cbn [result_of a_err a_ok] in H. case_match; [by destruct H as [_ H]; apply H in He|]. rewrite H in He. injection He as <-. done.
      - destruct (create_reports_from_booking_errors _ _) as [rs|].
        + cbn [result_of a_err a_ok] in H. cbn [fmap option_fmap option_map] in H. rewrite failure_report in H.
          rewrite H in He. injection He as <-. done.
        + cbn in H. rewrite H in He. injection He as <-. done.
      - cbn in H. rewrite H in He. injection He as <-. done. }
    unfold printed_reports. rewrite He. cbn [mbind option_bind]. rewrite Hr. rewrite <- Eh. by rewrite (empty_prints w (inl p)).
  - destruct (C72_parse_errors env jso jmo Hjso Hjmo (w_orders w) (w_sources w) ns read_config code spec so es) as (m'&Hm'&_&_&Ht).
    unfold UserModel.load_in in Hm. rewrite Eh, Hm' in Hm. injection Hm as ->. destruct (Ht Hw) as (t&->&_). done.
  - unfold UserModel.load_in in Hm. rewrite Eh, (C72_unreadable env jso jmo Hjmo) in Hm. done.
Qed.
(** So it is as long as no ledger has plugins. *)
Theorem C78_without_plugins loads : (∀ w path, (w, path) ∈ loads → without_plugins w) →
  let s := session_after loads session_start in
  se_pods s = match g_beans (se_globals s) with Some (pod, _) => [pod] | None => [] end.
Proof. intros Hw. apply C78_one_partial. intros w path Hin. eapply without_plugins_printable, Hw, Hin. Qed.
End Healthy.

(** * C83 *)

(** What is said of a ledger which loads: how many directives were read, and how many
    there are in the end. *)
Theorem C83_counts (Hjmo : ∀ l, jmo l ≡ₚ l) w p path s s' t m :
  w_health w = Healthy (inl p) → load_in w = inr (Some m) → l_error m = None →
  user_load w path s = (s', t, Returned) →
  t = read_line (length (pa_directives p)) path +:+ result_line (length (g_directives (se_globals s'))).
Proof.
  intros Hp Hm He H. destruct (load_cases w path s) as (s''&t'&o'&H'&Ho). rewrite H in H'. injection H' as <- <- <-.
  destruct Ho as (m'&Hm'&_&_&->&->). assert (m' = m) as -> by congruence.
  unfold UserModel.print_errors. rewrite He. cbn [fst]. rewrite append_nil_l. f_equal. f_equal.
  pose proof (load_in_loaded w m Hm) as Hl. rewrite Hp in Hl.
  pose proof (C53_outcome _ _ _ _ _ _ _ Hl) as Ho. unfold outcome_shown in Ho. rewrite He in Ho. destruct Ho as (_&_&Hr&_).
  destruct (load_steps _ _ _ _ _ _ _ Hl Hr) as (m1&m2&m3&H1&E1&H2&E2&H3&Hrest).
  assert (Hraw : l_raw m = l_raw m2).
  { apply run_phase_cases in H3 as (_&_&R3&_); [|done]. destruct Hrest as [[? ->]|(E3&m4&H4&Hrest)]; [congruence|].
    apply book_cases in H4 as (_&_&R4&_); [|done]. destruct Hrest as [[? ->]|(E4&m5&H5&Hrest)]; [congruence|].
    apply run_phase_cases in H5 as (_&_&R5&_); [|done]. destruct Hrest as [[? ->]|(E5&H6)]; [congruence|].
    unfold final_directives in H6. destruct (l_booked_xf m5), (l_booked m5); try done; injection H6 as <-; cbn; congruence. }
  apply raw_cases in H2 as (ok&Hok&E). rewrite Hraw, E. cbn [l_raw default].
  apply first_stage_cases in H1 as (_&_&_&_&_&H1). destruct (result_of _) in H1; [|destruct H1 as (_&_&_&?); congruence].
  destruct H1 as (A1&_). rewrite A1, (ask_directives env jso jmo Hjmo) in Hok. injection Hok as <-.
  rewrite raw_values. unfold ledger_values, id. cbn [default]. by rewrite !fmap_length.
Qed.
(** The last line is only there if there was no error. *)
Theorem C83_no_result w path s s' t m : load_in w = inr (Some m) → l_error m ≠ None → user_load w path s = (s', t, Returned) →
  g_directives (se_globals s') = [] ∧ t = read_line (length (default [] (l_raw m))) path +:+ (print_errors w m).1.
Proof.
  intros Hm He H. destruct (load_cases w path s) as (s''&t'&o'&H'&Ho). rewrite H in H'. injection H' as <- <- <-.
  destruct Ho as (m'&Hm'&_&_&->&->). assert (m' = m) as -> by congruence. pose proof (loaded_directives w m Hm) as Hd.
  destruct (l_error m); [|done]. cbn. rewrite Hd. split; [done|]. f_equal. by rewrite append_nil_r.
Qed.

(** * C82 *)

Lemma handled e : says_exception e (handle_exception e).
Proof.
  unfold says_exception, handle_exception.
  assert (Hv : vec (vget "via" (exn_map e)) = (λ m, VMap [("message", VStr m)]) <$> ex_messages e) by (unfold exn_map, vget; destruct (ex_user_error e), (last (ex_messages e)); reflexivity).
  rewrite Hv. clear Hv. f_equal. f_equal. induction (ex_messages e) as [|x l IH]; [done|]. rewrite !fmap_cons. f_equal. exact IH.
Qed.
(** Nothing of what a plugin or the client has thrown is shown: all is the same
    whatever it was. *)
Theorem C82_unexplained spawn hl os src e e' path s :
  user_load (World spawn hl os src e) path s = user_load (World spawn hl os src e') path s.
Proof.
  assert (Hp : ∀ m, print_errors (World spawn hl os src e) m = print_errors (World spawn hl os src e') m).
  { intros m. unfold UserModel.print_errors. destruct (l_error m) as [[| |[]|[]|[]]|]; try done. unfold print_error, error_exception.
    cbn [w_thrown]. assert (Hn : ∀ x, vget "message" (exn_map x) = None).
    { intros x. unfold exn_map. by destruct (ex_user_error x), (last (ex_messages x)). }
    rewrite !Hn. done. }
  unfold UserModel.user_load. cbn [w_spawn]. destruct spawn; [done|].
  change (load_in (World None hl os src e')) with (load_in (World None hl os src e)). destruct (load_in _) as [|[m|]]; [done| |done].
  by rewrite Hp.
Qed.
Lemma concat_cons x l : String.concat "" (x :: l) = x +:+ String.concat "" l.
Proof. cbn [String.concat]. destruct l; [by rewrite append_nil_r|]. by rewrite append_nil_l. Qed.
Lemma concat_app a b : String.concat "" (a ++ b) = String.concat "" a +:+ String.concat "" b.
Proof. induction a as [|x a IH]; [done|]. cbn [app]. by rewrite !concat_cons, IH, string_app_assoc. Qed.
(** Why a plugin can not be used is shown, for each. *)
Theorem C82_plugins w path s m p why : w_spawn w = None → load_in w = inr (Some m) →
  p ∈ l_plugins m → pl_err p = Some why →
  ∃ s' t, user_load w path s = (s', t, Returned) ∧
    mentions t ("ERROR in plugin " +:+ pl_name p +:+ " - " +:+ why +:+ newline).
Proof.
  intros Hw Hm Hp Hy. pose proof (load_in_loaded w m Hm) as Hl. apply C53_outcome in Hl.
  assert (Hnr : ¬ resolved (l_plugins m)).
  { unfold resolved. rewrite Forall_forall. intros H. apply H in Hp. congruence. }
  assert (∃ bad, l_error m = Some (LePlugins bad) ∧ p ∈ bad) as (bad&He&Hb).
  { unfold outcome_shown in Hl. destruct (l_error m) as [[bad|r|e|e|e]|].
    - exists bad. split; [done|]. destruct Hl as (_&_&Hb&_). apply Hb. split; [done|by eexists].
    - destruct Hl as (_&E&_). rewrite E in Hp. by apply elem_of_nil in Hp.
    - by destruct Hl as (_&?&_).
    - by destruct Hl as (_&?&_).
    - by destruct Hl as (_&?&_).
    - by destruct Hl as (_&?&_). }
  destruct (load_cases w path s) as (s'&t&o&H&Ho).
  assert (Hpe : print_errors w m = (String.concat "" ((λ p, println ["ERROR in plugin"; pl_name p; "-"; default "nil" (pl_err p)]) <$> bad), None)).
  { unfold UserModel.print_errors. by rewrite He. }
  destruct o as [|e].
  - exists s', t. split; [done|]. destruct Ho as (m'&Hm'&_&_&_&->). assert (m' = m) as -> by congruence. rewrite Hpe, He. cbn [fst].
    apply elem_of_list_split in Hb as (l1&l2&->). rewrite fmap_app, fmap_cons.
    set (f := λ p, println _). rewrite concat_app, concat_cons.
    exists (read_line (length (default [] (l_raw m))) path +:+ String.concat "" (f <$> l1)), (String.concat "" (f <$> l2) +:+ "").
    unfold f at 2, println. rewrite Hy. cbn [String.concat default]. unfold id. rewrite !string_app_assoc. done.
  - exfalso. destruct Ho as [(?&_)|[(_&(?&?&_)&_)|(_&[?|(m'&Hm'&Hx)]&_)]]; [congruence..|].
    assert (m' = m) as -> by congruence. by rewrite Hpe in Hx.
Qed.
(** When a plugin throws, whether before or after booking is shown, and that none of
    those plugins counts. *)
Theorem C82_thrown w path s m e text : w_spawn w = None → load_in w = inr (Some m) → l_error m = Some e →
  e = LeRaw PeThrown ∧ text = "Exception thrown by raw plugin, all raw plugins ignored" ∨
  e = LeBooked PeThrown ∧ text = "Exception thrown by booked plugin, all booked plugins ignored" →
  ∃ s' t o, user_load w path s = (s', t, o) ∧ mentions t (text +:+ newline).
Proof.
  intros Hw Hm He Ht.
  assert (∃ after x, print_errors w m = (text +:+ newline +:+ after, x)) as (after&x&Hpe).
  { unfold UserModel.print_errors. rewrite He. destruct Ht as [[-> ->]|[-> ->]]; unfold print_error, println; cbn [error_message error_exception error_reports_of String.concat];
      (destruct (format_errors _ _ _ w m []) as [t|y]; eexists _, _; [by rewrite string_app_assoc|]; f_equal; exact (eq_sym (append_nil_r _))). }
  unfold UserModel.user_load. rewrite Hw, Hm, Hpe. set (header := println _).
  destruct x as [x|]; eexists _, _, _; (split; [reflexivity|]); [exists header, after|eexists header, _]; rewrite !string_app_assoc; reflexivity.
Qed.
(** Why a ledger can not be read is thrown, but not shown in a session. *)
Theorem C82_unreadable (Hjmo : ∀ l, jmo l ≡ₚ l) w why path s : w_spawn w = None → w_health w = Unhealthy why →
  ∃ s' e, user_load w path s = (s', "", Threw e) ∧ ex_user_error e = Some why ∧
    handle_exception e = "Exception: pod/start failed" +:+ newline.
Proof.
  intros Hw Hu. unfold UserModel.user_load. rewrite Hw. unfold UserModel.load_in. rewrite Hu, (C72_unreadable env jso jmo Hjmo).
  do 2 eexists. split; [done|]. done.
Qed.

(** * C79, C80, C81 *)
Section Main.
Context (load_file : string → option exn).
Context (read_expr : string → option exn) (eval_expr : string → globals → option exn) (pprint : exn → string).
Notation client_main := (client_main env jso jmo ns read_config code spec so load_file read_expr eval_expr pprint).
Notation app_init := (app_init load_file).

(** A ledger is loaded exactly if the command line asks for one which is there, and
    has nothing else in it. *)
Theorem C79_proceeds is_file o f e : validate_args is_file o = Proceed f e ↔ asks_for is_file o f e.
Proof.
  unfold validate_args, asks_for. split.
  - repeat case_match; try done. intros [= <- <-]. destruct (is_file s) eqn:E; [|done]. done.
  - intros (->&->&->&->&->&->&->). done.
Qed.
(** Else nothing is started and nothing is loaded, and the status is 0 just for help
    and the version; otherwise something is said. *)
Theorem C79_stops is_file var w loads o : (∀ f e, ¬ asks_for is_file o f e) →
  let r := client_main is_file var w loads o in
  en_session r = session_start ∧ en_files r = [] ∧
  (en_status r = 0 ↔ asks_for_help o) ∧ (en_status r = 0 ∨ en_status r = 1) ∧
  (en_status r = 1 → ∃ t, en_stderr r = t +:+ newline ∧ t ≠ "").
Proof.
  intros H. cbv zeta. unfold UserModel.client_main. setoid_rewrite <- C79_proceeds in H.
  destruct (validate_args is_file o) as [f e|ok t|] eqn:E; [by destruct (H f e)| |].
  - cbn [en_session en_files en_status en_stderr]. unfold validate_args in E. unfold asks_for_help, println. cbn [String.concat].
    split; [done|]. split; [done|].
    repeat case_match; try done; injection E; intros; subst; (split; [|split; [auto|]]); try naive_solver; intros _; eexists; by split.
  - cbn [en_session en_files en_status en_stderr]. split; [done|]. split; [done|].
    unfold validate_args in E. unfold asks_for_help. repeat case_match; try done. naive_solver.
Qed.
(** Also: the reason. *)
Theorem C79_reasons is_file var w loads o : op_help o = false →
  let t := en_stderr (client_main is_file var w loads o) in
  (∀ e, e ∈ op_errors o → mentions t e) ∧
  (op_errors o = [] → op_version o = false →
    (∀ f, op_beanfile o = Some f → is_file f = false → mentions t f) ∧
    (op_beanfile o = None → mentions t "--beanfile or $LIMABEAN_BEANFILE is required") ∧
    (∀ f a, op_beanfile o = Some f → is_file f = true → a ∈ op_arguments o → mentions t a)).
Proof.
  assert (Hc : ∀ sep l x, x ∈ l → ∃ a b, String.concat sep l = a +:+ x +:+ b).
  { intros sep l x. induction l as [|y l IH]; [by intros ?%elem_of_nil|]. cbn [String.concat].
    intros [->|Hx]%elem_of_cons.
    - destruct l; [exists "", ""; by rewrite append_nil_l, append_nil_r|]. exists "". eexists. by rewrite append_nil_l.
    - destruct (IH Hx) as (a&b&E). destruct l; [by apply elem_of_nil in Hx|]. exists (y +:+ sep +:+ a), b. rewrite E, !string_app_assoc. done. }
  intros Hh. cbv zeta. unfold UserModel.client_main, validate_args. rewrite Hh. split.
  - intros e He. destruct (op_errors o) as [|y l] eqn:E; [by apply elem_of_nil in He|]. cbn [en_stderr]. rewrite <- E in *.
    unfold println, error_msg. cbn [String.concat]. destruct (Hc FormatModel.line_end _ _ He) as (a&b&->).
    exists ("limabean: argument parsing errors:" +:+ FormatModel.line_end +:+ a), (b +:+ FormatModel.line_end). by rewrite !string_app_assoc.
  - intros -> ->. split_and!.
    + intros f -> ->. cbn [negb en_stderr]. unfold println. cbn [String.concat].
      exists "limabean: no such beanfile ", FormatModel.line_end. by rewrite string_app_assoc.
    + intros ->. cbn [en_stderr]. by eexists "limabean: ", _.
    + intros f a -> -> Ha. cbn [negb]. destruct (op_arguments o) as [|y l] eqn:E; [by apply elem_of_nil in Ha|]. cbn [en_stderr].
      destruct (Hc " " _ _ Ha) as (u&v&->). unfold println. cbn [String.concat].
      exists ("superfluous arguments: " +:+ u), (v +:+ FormatModel.line_end). by rewrite !string_app_assoc.
Qed.

(** ** C80 *)

(** With [--eval] the status is 0 exactly if the expression can be read, the ledger was
    loaded, perhaps with errors, and the expression was evaluated without exception in
    what was loaded; else it is 1. *)
Theorem C80_status_partial is_file var w loads o f expr : asks_for is_file o f (Some expr) →
  let r := client_main is_file var w loads o in
  (en_status r = 0 ↔ read_expr expr = None ∧
     ∃ s t, user_load w f session_start = (s, t, Returned) ∧ eval_expr expr (se_globals s) = None ∧ en_session r = s) ∧
  (en_status r = 0 ∨ en_status r = 1 ∧ mentions (en_stderr r) "Exception: ").
Proof.
  intros H%C79_proceeds. cbv zeta. unfold UserModel.client_main. rewrite H. unfold try_eval, UserModel.app_init.
  assert (Hm : ∀ t e s fs, mentions (en_stderr (eval_failed pprint t e s fs)) "Exception: ").
  { intros t e s fs. unfold eval_failed. cbn [en_stderr]. unfold println. cbn [String.concat].
    exists t, ((default "nil" (head (ex_messages e)) +:+ FormatModel.line_end) +:+ pprint e). rewrite !string_app_assoc. done. }
  destruct (read_expr expr) as [e|] eqn:Er.
  { split; [|right; split; [done|apply Hm]]. split; [done|by intros [? _]]. }
  destruct (user_load w f session_start) as [[s t] [|e]] eqn:El.
  - destruct (load_user_cljs load_file var) as [files u]. destruct (eval_expr expr (se_globals s)) as [e|] eqn:Ee.
    + split; [|right; split; [done|apply Hm]]. split; [done|]. intros (_&s'&t'&[= <- <-]&E&_). congruence.
    + cbn [en_status en_session]. split; [|by left]. split; [|done]. intros _. split; [done|]. by exists s, t.
  - split; [|right; split; [done|apply Hm]]. split; [done|]. by intros (_&s'&t'&[=]&_).
Qed.

(** Without [--eval] the status is 0 whatever comes of loading the ledger, and of what is
    loaded afterwards; the session is the one of these loads. *)
Theorem C80_session is_file var w loads o f : asks_for is_file o f None →
  let r := client_main is_file var w loads o in
  en_status r = 0 ∧ en_session r = session_after ((w, f) :: loads) session_start.
Proof.
  intros H%C79_proceeds. cbv zeta. unfold UserModel.client_main. rewrite H. unfold repl, UserModel.app_init. cbn [UserModel.session_after].
  assert (Hl : ∀ l s, (repl_loads env jso jmo ns read_config code spec so l s).1 = session_after l s).
  { induction l as [|[w' path] l IH]; intros s; [done|]. cbn [repl_loads UserModel.session_after]. rewrite <- IH.
    destruct (user_load w' path s) as [[s1 t] x]. cbn [fst]. by destruct (repl_loads _ _ _ _ _ _ _ _ l s1). }
  destruct (user_load w f session_start) as [[s t] [|e]]; [destruct (load_user_cljs load_file var) as [files u]|]; cbn [fst];
    rewrite <- Hl; by destruct (repl_loads _ _ _ _ _ _ _ _ loads s).
Qed.

(** What is thrown when a ledger is loaded is shown, for each of the ledgers of a session,
    after what was printed while it was loaded. *)
Theorem C82_session is_file var w loads o f before w' path after s' t e : asks_for is_file o f None →
  (w, f) :: loads = before ++ (w', path) :: after →
  user_load w' path (session_after before session_start) = (s', t, Threw e) →
  ∃ u, says_exception e u ∧ mentions (en_stderr (client_main is_file var w loads o)) (t +:+ u).
Proof.
  intros H%C79_proceeds Hl Hu. exists (handle_exception e). split; [apply handled|].
  unfold UserModel.client_main. rewrite H. unfold repl, UserModel.app_init.
  destruct before as [|[w0 f0] before]; cbn [app] in Hl; injection Hl as -> -> ->.
  - cbn [UserModel.session_after] in Hu. rewrite Hu. destruct (repl_loads _ _ _ _ _ _ _ _ after s') as [s2 t2]. cbn [en_stderr].
    exists "", t2. by rewrite string_app_assoc.
  - cbn [UserModel.session_after] in Hu.
    assert (Hr : ∀ l s, user_load w' path (session_after l s) = (s', t, Threw e) →
      mentions (repl_loads env jso jmo ns read_config code spec so (l ++ (w', path) :: after) s).2 (t +:+ handle_exception e)).
    { clear. induction l as [|[w1 p1] l IH]; intros s Hu; cbn [app repl_loads UserModel.session_after] in *.
      - rewrite Hu. destruct (repl_loads _ _ _ _ _ _ _ _ after s') as [s2 t2]. exists "", t2. cbn [snd]. by rewrite string_app_assoc.
      - destruct (user_load w1 p1 s) as [[s1 t1] x]. cbn [fst] in Hu. destruct (IH s1 Hu) as (a & b & E).
        destruct (repl_loads _ _ _ _ _ _ _ _ _ s1) as [s2 t2]. cbn [snd] in *. rewrite E.
        exists (t1 +:+ match x with Threw e => handle_exception e | Returned => "" end +:+ a), b. by rewrite !string_app_assoc. }
    destruct (user_load w0 f0 session_start) as [[s1 t1] x] eqn:E1. cbn [fst] in Hu. destruct (Hr before s1 Hu) as (a & b & E).
    destruct x as [|e1]; [destruct (load_user_cljs load_file var) as [files u]|];
      destruct (repl_loads _ _ _ _ _ _ _ _ _ s1) as [s2 t2]; cbn [snd en_stderr] in *; rewrite E.
    + exists ((t1 +:+ u) +:+ a), b. by rewrite !string_app_assoc.
    + exists (t1 +:+ handle_exception e1 +:+ a), b. by rewrite !string_app_assoc.
Qed.

(** ** C81 *)

(** The files of the user are loaded after the ledger, all of them and in order, though
    some fail; which ones and why is said. *)
Lemma parts_no_colon (s : string) : Forall no_colon (parts s).
Proof.
  induction s as [|c s IH]; [by repeat constructor|]. cbn [parts]. destruct (Ascii.eqb_spec c ":") as [->|Hc]; [by constructor|].
  destruct (parts_nonempty s) as (p&ps&E). rewrite E in *. inversion IH; subst. by constructor.
Qed.
Lemma parts_concat (s : string) : String.concat ":" (parts s) = s.
Proof.
  induction s as [|c s IH]; [done|]. cbn [parts]. destruct (parts_nonempty s) as (p&ps&E). rewrite E in *.
  destruct (Ascii.eqb_spec c ":") as [->|Hc].
  - change (String.concat ":" ("" :: p :: ps)) with ("" +:+ ":" +:+ String.concat ":" (p :: ps)). by rewrite IH.
  - rewrite <- IH. cbn [String.concat]. by destruct ps.
Qed.
Lemma drop_trailing l : ∃ n, l = drop_trailing_empty l ++ replicate n "" ∧ last (drop_trailing_empty l) ≠ Some "".
Proof.
  induction l as [|x l (n&E&Hl)]; [by exists 0|]. cbn [drop_trailing_empty]. destruct (drop_trailing_empty l) as [|y d] eqn:Ed.
  - destruct (String.eqb_spec x "") as [->|Hx].
    + exists (Datatypes.S n). split; [|done]. cbn. by rewrite E at 1.
    + exists n. split; [cbn; by rewrite E at 1|]. cbn. congruence.
  - exists n. split; [|done]. cbn. f_equal. exact E.
Qed.
Lemma concat_empties l n : l ≠ [] → String.concat ":" (l ++ replicate n "") = String.concat ":" l +:+ some_colons n.
Proof.
  intros Hl. induction l as [|x l IH]; [done|]. destruct l as [|y l].
  - clear. change ([x] ++ replicate n "") with (x :: replicate n ""). revert x. induction n as [|n IH]; intros x; [cbn; by rewrite append_nil_r|].
    change (replicate (Datatypes.S n) "") with ("" :: replicate n ""). cbn [some_colons].
    change (String.concat ":" (x :: "" :: replicate n "")) with (x +:+ ":" +:+ String.concat ":" ("" :: replicate n "")).
    rewrite IH. done.
  - change ((x :: y :: l) ++ replicate n "") with (x :: y :: (l ++ replicate n "")).
    change (String.concat ":" (x :: y :: (l ++ replicate n ""))) with (x +:+ ":" +:+ String.concat ":" ((y :: l) ++ replicate n "")).
    rewrite IH by done. change (String.concat ":" (x :: y :: l)) with (x +:+ ":" +:+ String.concat ":" (y :: l)). by rewrite !string_app_assoc.
Qed.
Lemma split_separated (s : string) : separated s (split_colon s).
Proof.
  unfold separated. assert (Hf : Forall no_colon (split_colon s)).
  { pose proof (parts_no_colon s) as Hf. unfold split_colon. destruct (drop_trailing (parts s)) as (n&E&_).
    destruct (parts s) as [|p [|q l]]; [done|done|]. rewrite E in Hf. by apply Forall_app in Hf as [? _]. }
  split; [done|]. destruct (decide (s = "")) as [->|Hs]; [by left|right]. split; [done|].
  pose proof (parts_concat s) as Hc. unfold split_colon. destruct (drop_trailing (parts s)) as (n&E&Hl).
  destruct (parts s) as [|p [|q l]] eqn:Ep; [done| |].
  - cbn in Hc. subst p. split; [cbn; congruence|]. exists 0. cbn. by rewrite append_nil_r.
  - split; [done|]. destruct (drop_trailing_empty (p :: q :: l)) as [|y d] eqn:Ed.
    + rewrite E in Hc. destruct n as [|n]; [done|]. exists n. rewrite <- Hc.
      change ([] ++ replicate (Datatypes.S n) "") with ([""] ++ replicate n ""). rewrite concat_empties by done. done.
    + exists n. rewrite <- concat_empties by done. by rewrite <- E.
Qed.
Theorem C81_files w path cljs s s' t : user_load w path s = (s', t, Returned) →
  ∃ files u, UserModel.app_init env jso jmo ns read_config code spec so load_file w path (Some cljs) s = (s', files, t +:+ u, Returned) ∧
    separated cljs files ∧ says_files load_file files u.
Proof.
  intros H. unfold UserModel.app_init. rewrite H. cbn [load_user_cljs]. eexists _, _. split; [done|]. split; [apply split_separated|].
  eexists. split; [done|]. induction (split_colon cljs) as [|f l IH]; [constructor|]. constructor; [|exact IH].
  destruct (load_file f) as [e|]; [|done]. exists (handle_exception e). split; [apply handled|].
  unfold println. cbn [String.concat]. rewrite !string_app_assoc. done.
Qed.
End Main.

End User.

(** * Samples *)
Definition u_world (hl : health) : world := World None hl (λ _, sample_orders) sample_start (Exn ["boom"] None).
Definition u_load (xf : option plugin_xf) : world → string → session → session * string * outcome :=
  user_load sample_env id id (p_env xf) s_read id (λ _ _, true) id.
Definition u_after (xf : option plugin_xf) : list (world * string) → session → session :=
  session_after sample_env id id (p_env xf) s_read id (λ _ _, true) id.
(** A plugin which adds a directive with a wrong error, whose errors can not be
    printed. *)
Definition u_wrong := u_load (Some adding_wrong) (u_world good_health) "a.beancount".

Example C77_globals_example :
  let s := u_after (Some p_passing) [(u_world bad_health, "a.beancount")] session_start in
  (∃ s' t, u_load (Some p_passing) (u_world good_health) "b.beancount" s = (s', t, Returned) ∧
     length (g_directives (se_globals s')) = 3 ∧ se_pods s' = [1]) ∧
  (∃ s' t e, u_load (Some p_passing) (u_world (Unhealthy "gone")) "c.beancount" s = (s', t, Threw e) ∧ se_pods s = [0] ∧ se_pods s' = []).
Proof.
  vm_compute. split; [do 2 eexists|do 3 eexists]; split_and!; reflexivity.
Qed.

Example C78_left_behind_example : ∃ s' t e,
  u_wrong (u_after (Some adding_wrong) [] session_start) = (s', t, Threw e) ∧ se_pods s' = [0] ∧ se_globals s' = assign None.
Proof. vm_compute. do 3 eexists. split_and!; reflexivity. Qed.
(** "There is at most one pod" is false: there may be any number. *)
Theorem C78_refuted n : ∃ loads, length (se_pods (u_after (Some adding_wrong) loads session_start)) = n.
Proof.
  exists (replicate n (u_world good_health, "a.beancount")).
  assert (Hk : ∀ pods k, length (se_pods (u_after (Some adding_wrong) (replicate n (u_world good_health, "a.beancount")) (Session (assign None) pods k))) = length pods + n).
  { induction n as [|n IH]; intros pods k; [cbn; lia|]. cbn [replicate]. unfold u_after. cbn [session_after].
    assert (Hw : ∃ e, load_in sample_env id id (p_env (Some adding_wrong)) s_read id (λ _ _, true) id (u_world good_health) = e ∧
       match e with inr (Some m) => (print_errors sample_env id id (u_world good_health) m).2 ≠ None | _ => False end).
    { eexists. split; [reflexivity|]. by vm_compute. }
    destruct (load_cases sample_env id id (p_env (Some adding_wrong)) s_read id (λ _ _, true) id (u_world good_health) "a.beancount" (Session (assign None) pods k))
      as (s'&t&o&->&Ho). destruct Hw as (x&Hx&Hw). destruct x as [|[m|]]; [destruct Hw| |destruct Hw]. destruct o as [|e].
    - destruct Ho as (m'&Hm'&_&Hp&_). pose proof (eq_trans (eq_sym Hx) Hm') as E. injection E as <-. by destruct (Hw Hp).
    - destruct Ho as [(?&_)|[(_&(u&Hu&_)&_)|(_&_&->)]]; [done|pose proof (eq_trans (eq_sym Hx) Hu) as E; discriminate E|]. cbn [fst]. fold (u_after (Some adding_wrong)).
      unfold others. cbn [se_globals assign g_beans se_pods se_next]. rewrite IH, app_length. cbn. lia. }
  apply Hk.
Qed.
Definition u_plain (good : bool) : parsed :=
  let p := sample_parsed good in Parsed (pa_directives p) (pa_options p) [].
Example C78_without_plugins_example :
  let loads := (λ h, (u_world h, "a.beancount")) <$> [Healthy (inl (u_plain true)); Unhealthy "gone"; sample_broken; Healthy (inl (u_plain false))] in
  (∀ w path, (w, path) ∈ loads → without_plugins sample_env w) ∧ se_pods (u_after None loads session_start) = [3].
Proof.
  split; [|by vm_compute]. intros w path H. repeat (apply elem_of_cons in H as [[= -> ->]|H]; [|]); [done|done| |done|by apply elem_of_nil in H].
  intros e [->|?%elem_of_nil]%elem_of_cons; [|done]. vm_compute. by eexists.
Qed.

Definition u_options (f : string) (e : option string) : options_parsed := OptionsParsed false false (Some f) e [] [] "".
Definition u_is_file (f : string) : bool := String.eqb f "a.beancount".
Definition u_eval (e : string) (g : globals) : option exn := if String.eqb e "(boom)" then Some (Exn ["boom"] None) else None.
Definition u_file (f : string) : option exn := if String.eqb f "b.clj" then Some (Exn ["no such file"; "b.clj"] None) else None.
Definition u_main (xf : option plugin_xf) (hl : health) (o : options_parsed) : ended :=
  client_main sample_env id id (p_env xf) s_read id (λ _ _, true) id u_file (λ _, None) u_eval (λ e, default "" (ex_user_error e))
    u_is_file (Some "a.clj:b.clj::c.clj:") (u_world hl) [] o.
Example C79_proceeds_example : asks_for u_is_file (u_options "a.beancount" (Some "1")) "a.beancount" (Some "1").
Proof. done. Qed.
Example C79_stops_example :
  (∀ f e, ¬ asks_for u_is_file (u_options "b.beancount" None) f e) ∧
  u_main None good_health (u_options "b.beancount" None) = Ended 1 ("limabean: no such beanfile b.beancount" +:+ newline) session_start [] ∧
  (∀ f e, ¬ asks_for u_is_file (OptionsParsed true false None None [] [] "") f e) ∧
  en_status (u_main None good_health (OptionsParsed true false None None [] [] "")) = 0.
Proof.
  split_and!; [|done| |done].
  - intros f e (_&_&_&_&[= <-]&H&_). done.
  - by intros f e (H&_).
Qed.
Example C80_status_example :
  en_status (u_main (Some p_passing) good_health (u_options "a.beancount" (Some "1"))) = 0 ∧
  en_status (u_main (Some p_passing) good_health (u_options "a.beancount" (Some "(boom)"))) = 1 ∧
  en_status (u_main (Some p_passing) (Unhealthy "gone") (u_options "a.beancount" (Some "1"))) = 1.
Proof. by vm_compute. Qed.
(** A session in which the first ledger can not be loaded, and the second can. *)
Example C80_session_example :
  let o := u_options "a.beancount" None in
  let r := client_main sample_env id id (p_env (Some p_passing)) s_read id (λ _ _, true) id u_file (λ _, None) u_eval (λ e, default "" (ex_user_error e))
    u_is_file None (u_world (Unhealthy "gone")) [(u_world good_health, "b.beancount")] o in
  asks_for u_is_file o "a.beancount" None ∧ en_status r = 0 ∧ g_directives (se_globals (en_session r)) ≠ [].
Proof. vm_compute. split_and!; done. Qed.
(** "The status is 0 only if the ledger was loaded without errors" is false. *)
Theorem C80_refuted : ∃ m, asks_for u_is_file (u_options "a.beancount" (Some "1")) "a.beancount" (Some "1") ∧
  let r := u_main (Some p_passing) bad_health (u_options "a.beancount" (Some "1")) in
  en_status r = 0 ∧ g_beans (se_globals (en_session r)) = Some (0, m) ∧
  l_error m ≠ None ∧ g_directives (se_globals (en_session r)) = [].
Proof. vm_compute. eexists. split_and!; done. Qed.

Example C81_files_example :
  en_files (u_main (Some p_passing) good_health (u_options "a.beancount" None)) = ["a.clj"; "b.clj"; ""; "c.clj"] ∧
  en_stderr (u_main (Some p_passing) good_health (u_options "a.beancount" None)) =
    read_line 3 "a.beancount" +:+ result_line 3 +:+
    "Failed to load b.clj from $LIMABEAN_USER_CLJ" +:+ newline +:+ "Exception: no such file" +:+ newline +:+ "b.clj" +:+ newline.
Proof. by vm_compute. Qed.
(** "The files of the user are loaded in every session" is false: not if the ledger can
    not be loaded. *)
Theorem C81_refuted : ∃ why, en_files (u_main None (Unhealthy why) (u_options "a.beancount" None)) = [] ∧
  en_status (u_main None (Unhealthy why) (u_options "a.beancount" None)) = 0.
Proof. exists "gone". by vm_compute. Qed.

(** "Why a ledger can not be loaded is shown" is false: in a session, for no reason
    given by the server. *)
Theorem C82_refuted : ∀ why, en_stderr (u_main None (Unhealthy why) (u_options "a.beancount" None)) = "Exception: pod/start failed" +:+ newline.
Proof. intros why. by vm_compute. Qed.
(** With [--eval] it is. *)
Example C82_unreadable_example :
  en_stderr (u_main None (Unhealthy "gone") (u_options "a.beancount" (Some "1"))) = "Exception: pod/start failed" +:+ newline +:+ "gone".
Proof. by vm_compute. Qed.
Definition u_throwing : plugin_xf := PluginXf (λ _, None) (λ _, Some []).
Example C82_unexplained_example : ∃ s t, u_load (Some u_throwing) (u_world good_health) "a.beancount" session_start = (s, t, Returned) ∧
  t = read_line 3 "a.beancount" +:+ "Exception thrown by raw plugin, all raw plugins ignored" +:+ newline +:+ newline +:+ "nil" +:+ newline.
Proof. vm_compute. do 2 eexists. split; reflexivity. Qed.
Definition u_missing : world → string → session → session * string * outcome :=
  user_load sample_env id id (λ _, None) s_read id (λ _ _, true) id.
Example C82_plugins_example : ∃ s t, u_missing (u_world good_health) "a.beancount" session_start = (s, t, Returned) ∧
  match g_beans (se_globals s) with Some (_, m) => ∃ p, l_plugins m = [p] ∧ is_Some (pl_err p) | None => False end.
Proof. vm_compute. do 2 eexists. split; [reflexivity|]. eexists. split; [reflexivity|]. by eexists. Qed.

Example C83_counts_example : ∃ s t m, u_load (Some p_passing) (u_world good_health) "a.beancount" session_start = (s, t, Returned) ∧
  p_load (Some p_passing) good_health = inr (Some m) ∧ l_error m = None.
Proof. vm_compute. do 3 eexists. split_and!; reflexivity. Qed.
(** "How many directives were read is said" is false: not if a plugin can not be used. *)
Theorem C83_refuted : ∃ s t, u_missing (u_world good_health) "a.beancount" session_start = (s, t, Returned) ∧
  length (pa_directives (sample_parsed true)) = 3 ∧ mentions t (read_line 0 "a.beancount").
Proof.
  destruct (u_missing (u_world good_health) "a.beancount" session_start) as [[s t] o] eqn:E. exists s, t.
  assert (Ho : o = Returned ∧ String.prefix (read_line 0 "a.beancount") t = true).
  { assert (o = (u_missing (u_world good_health) "a.beancount" session_start).2 ∧ t = (u_missing (u_world good_health) "a.beancount" session_start).1.2) as [-> ->] by by rewrite E.
    by vm_compute. }
  destruct Ho as [-> Ht]. split_and!; [done|done|]. exists "".
  clear E. revert t Ht. generalize (read_line 0 "a.beancount"). intros u. induction u as [|c u IH]; intros t Ht; [by exists t|].
  destruct t as [|d t]; [done|]. unfold String.prefix in Ht. fold String.prefix in Ht. destruct (Ascii.ascii_dec c d) as [<-|]; [|done].
  destruct (IH t Ht) as [b ->]. exists b. done.
Qed.
Print Assumptions C77_globals.
Print Assumptions C78_left_behind.
Print Assumptions C78_one_partial.
Print Assumptions C78_without_plugins.
Print Assumptions C78_refuted.
Print Assumptions C79_proceeds.
Print Assumptions C79_stops.
Print Assumptions C79_reasons.
Print Assumptions C80_status_partial.
Print Assumptions C80_session.
Print Assumptions C82_session.
Print Assumptions C80_refuted.
Print Assumptions C81_files.
Print Assumptions C81_refuted.
Print Assumptions C82_unexplained.
Print Assumptions C82_plugins.
Print Assumptions C82_thrown.
Print Assumptions C82_unreadable.
Print Assumptions C82_refuted.
Print Assumptions C83_counts.
Print Assumptions C83_no_result.
Print Assumptions C83_refuted.
