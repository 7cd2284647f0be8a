(** Theorems that the same ledger gives the same values, in whatever order hash maps
    list their entries. *)
From Coq Require Import Ascii QArith.
From stdpp Require Import prelude gmap strings.
From Verif Require Import DecModel LedgerTypes IsoModel JsonModel WireModel WireSpec WireFacts BookModel BookLib BookSpec BookProps ReportSpec ReportSamples ReportProps SpanModel ParserModel
  JsonText SampleLib SampleLedgers WireSamples ServerModel ServerSpec ServerSamples CljModel InventoryModel ClientModel ClientDecode ClientSamples
  FormatModel PluginModel PluginSpec LoaderModel LoaderSpec LoaderFacts LoaderProps EncodeModel SystemModel SystemFacts SystemLoad SystemSpec
  SystemErrors SystemTrace SystemProps ViewSpec ViewFacts ViewProps SameSpec SameProps PrintProps EdnModel EdnSpec EqualSpec EqualFacts.
From Verif Require GoldenModel GoldenSpec GoldenProps EqualKeys.
Local Open Scope nat_scope.

Section Equal.
Context {P S : Type} (env : server_env P S) (p : parsed).
Context (ns : string → option namespace) (read_config : option cval → option (option cval)).
Context (code : nat → nat) (spec : bool → cval → bool).
Notation loads := (loads env p ns read_config code spec).
Notation ledger := (from_directive <$> pa_directives p).

(** The server writes sets and maps in some order each time. *)
Definition writes_all (u : @run P S) : Prop :=
  ∀ n, any_order (or_wire (ru_hs u n)) ∧ ∀ m, or_numbers (ru_hs u n) m ≡ₚ map_to_list m.

(** What is loaded if there are no plugins. *)
Lemma load_values u m : some_run u → pa_plugins p = [] → countable_ledger p → loads u m →
  l_raw m = Some (ledger_values (or_wire (ru_hs u 4)) (pa_directives p)) ∧ l_raw_xf m = None ∧
  ∃ n, match book_with env p (ru_hs u) n ledger with
       | BookSuccess bs _ => l_error m = None ∧ ∃ vs, l_directives m = Some vs ∧
           mapM (resolve_directive (ledger_values (or_wire (ru_hs u 4)) (pa_directives p))) (decode None <$> (put_bdirective (or_wire (ru_hs u n)) <$> bs)) = Some vs
       | _ => l_directives m = None ∧ l_error m = Some (LeBooking (BeReports []))
       end.
Proof.
  intros U Hp Hc L. destruct (load_plain env p ns read_config code spec u m U Hp L) as (X&Y&Z&_&He). pose proof U as (Hjso&Hjmo&Hacc&_).
  pose proof (load_healthy env _ _ Hjmo _ _ _ _ _ _ _ _ _ L) as Hl. pose proof (C53_outcome _ _ _ _ _ _ _ Hl) as Ho. unfold outcome_shown in Ho.
  assert (Hraw : is_Some (l_raw m)). { destruct He as [He|[e He]]; rewrite He in Ho; destruct Ho as (_&_&Ho&_); exact Ho. }
  split; [exact (raw_loaded env _ _ Hjmo _ _ _ _ _ _ _ p m L Hraw)|]. split; [done|].
  destruct (load_book _ _ _ _ _ _ _ _ Hl Z) as (Hr&ok&raw&sp&Hok&_&Hsp&Hr'&_&_&H).
  rewrite <- Hr in H, Hr'. destruct (state_prefix env (ru_jso u) (ru_jmo u) Hjmo p (ru_hs u) (ru_sources u) sp Hsp) as [s Hs].
  rewrite (ask_directives env (ru_jso u) (ru_jmo u) Hjmo) in Hok. injection Hok as <-. rewrite raw_values in Hr'. subst raw.
  rewrite (ask_book_none env (ru_jso u) (ru_jmo u) Hjmo p (ru_hs u) (ru_sources u) _ s Hs (small_prefix sp Hsp)) in H. cbv zeta in H.
  exists (length ([RPlugins; ROptions; RDirectives] ++ sp) + 2). set (n := _ + 2) in *.
  assert (Hfail : l_error m = Some (LeBooking (BeReports [])) → l_directives m = None ∧ l_error m = Some (LeBooking (BeReports []))).
  { intros E. split; [|done]. rewrite E in Ho. by destruct Ho as (_&_&_&_&_&_&?). }
  destruct (book_with env p (ru_hs u) n ledger) as [bs ws|errors|w] eqn:Eb.
  - cbn [result_of a_err a_ok] in H. rewrite booked_value_get in H. unfold seen_list, vec in H.
    destruct (ledger_countable p (or_wire (ru_hs u 4)) Hc) as [Hc1 Hc2].
    destruct (all_taken (or_wire (ru_hs u n)) _ Hc1 Hc2 bs) as (vs&Hv&HF).
    { apply C01_output_mirrors_ledger, mirrors_idx in Eb. unfold ledger_values. by rewrite !fmap_length in *. }
    rewrite Hv in H. destruct H as [H1 H2]. destruct He as [He|[e He]]; [|by apply H2 in He]. split; [done|]. exists vs. split; [|exact Hv].
    rewrite He in Ho. destruct Ho as (_&_&_&_&_&Hph&Hd). rewrite Hd. destruct (l_booked_xf m) as [x|] eqn:Ex; [|done].
    exfalso. rewrite Y in Hph. destruct Hph as [[_ Hph]|[Hph _]]; [congruence|by apply Hph].
  - apply Hfail. destruct (create_reports_from_booking_errors _ _) as [rs|]; [|exact H].
    cbn [result_of a_err a_ok] in H. cbn [fmap option_fmap option_map] in H. rewrite failure_report in H. exact H.
  - apply Hfail. exact H.
Qed.
Lemma ledger_same o1 o2 ds : any_order o1 → any_order o2 → Forall2 same_value (ledger_values o1 ds) (ledger_values o2 ds).
Proof.
  intros H1 H2. unfold ledger_values. rewrite <- !list_fmap_compose. apply Forall2_fmap_2, Forall_Forall2_diag, Forall_forall. intros d _. unfold compose.
  by apply decode_same, directive_like.
Qed.
Lemma ledger_once ord ds : any_order ord → Forall keys_once (ledger_values ord ds).
Proof.
  intros H. unfold ledger_values. apply Forall_forall. intros x (j&->&(d&->&_)%elem_of_list_fmap)%elem_of_list_fmap.
  by apply EqualKeys.decode_once, EqualKeys.directive_once.
Qed.

(** The same ledger without plugins, loaded twice: its directives are the same, before
    booking and after it; or booking fails both times, with the same error. *)
Theorem C99_loaded u1 u2 m1 m2 :
  some_run u1 → some_run u2 → writes_all u1 → writes_all u2 →
  pa_plugins p = [] → lib_ext (env_booking env (pa_options p)) → countable_ledger p →
  loads u1 m1 → loads u2 m2 →
  option_Forall2 (Forall2 same_value) (l_raw m1) (l_raw m2) ∧ is_Some (l_raw m1) ∧
  l_raw_xf m1 = None ∧ l_raw_xf m2 = None ∧
  option_Forall2 (Forall2 same_value) (l_directives m1) (l_directives m2) ∧
  l_error m1 = l_error m2 ∧ (l_error m1 = None → is_Some (l_directives m1)).
Proof.
  intros U1 U2 W1 W2 Hp HL Hc L1 L2.
  destruct (load_values u1 m1 U1 Hp Hc L1) as (R1&X1&n1&H1). destruct (load_values u2 m2 U2 Hp Hc L2) as (R2&X2&n2&H2).
  assert (Hraw : Forall2 same_value (ledger_values (or_wire (ru_hs u1 4)) (pa_directives p)) (ledger_values (or_wire (ru_hs u2 4)) (pa_directives p)))
    by (apply ledger_same; [apply W1|apply W2]).
  split; [rewrite R1, R2; by constructor|]. split; [rewrite R1; by eexists|]. split; [done|]. split; [done|].
  destruct (book_with env p (ru_hs u1) n1 ledger) as [bs ws|e1|w1] eqn:B1.
  - pose proof (booked_same env p u1 u2 n1 n2 bs ws U1 U2 HL B1) as B2. rewrite B2 in H2.
    destruct H1 as (E1&vs1&D1&M1), H2 as (E2&vs2&D2&M2). split; [|split; [congruence|intros _; rewrite D1; by eexists]].
    rewrite D1, D2, <- M1, <- M2. apply mapM_same; [|intros; by apply resolve_same].
    rewrite <- !list_fmap_compose. apply Forall2_fmap_2, Forall_Forall2_diag, Forall_forall. intros b _. unfold compose. apply decode_same, bdirective_like; [apply W1|apply W2].
  - destruct (book_with env p (ru_hs u2) n2 ledger) as [bs ws|e2|w2] eqn:B2.
    + pose proof (booked_same env p u2 u1 n2 n1 bs ws U2 U1 HL B2). congruence.
    + destruct H1 as [-> ->], H2 as [-> ->]. by repeat constructor.
    + destruct H1 as [-> ->], H2 as [-> ->]. by repeat constructor.
  - destruct (book_with env p (ru_hs u2) n2 ledger) as [bs ws|e2|w2] eqn:B2.
    + pose proof (booked_same env p u2 u1 n2 n1 bs ws U2 U1 HL B2). congruence.
    + destruct H1 as [-> ->], H2 as [-> ->]. by repeat constructor.
    + destruct H1 as [-> ->], H2 as [-> ->]. by repeat constructor.
Qed.
Lemma loaded_once u m : some_run u → writes_all u → pa_plugins p = [] → countable_ledger p → loads u m →
  ∀ vs, l_directives m = Some vs → Forall keys_once vs.
Proof.
  intros U W Hp Hc L vs Hvs. destruct (load_values u m U Hp Hc L) as (_&_&n&H).
  destruct (book_with env p (ru_hs u) n ledger) as [bs ws|e|w]; [|destruct H; congruence..].
  destruct H as (_&vs'&D&M). assert (vs' = vs) as -> by congruence. apply mapM_Some in M. clear D Hvs L.
  assert (Hb : Forall keys_once (decode None <$> (put_bdirective (or_wire (ru_hs u n)) <$> bs))).
  { apply Forall_forall. intros x (j&->&(d&->&_)%elem_of_list_fmap)%elem_of_list_fmap. apply EqualKeys.decode_once, EqualKeys.bdirective_once, W. }
  clear -M Hb W. induction M as [|b v l vs Hv _ IH]; [constructor|]. apply Forall_cons in Hb as [Hb1 Hb2]. constructor; [|by apply IH].
  eapply EqualKeys.resolve_once; [|exact Hb1|exact Hv]. apply ledger_once, W.
Qed.

(** Golden tests see no difference, whatever the error is as a value. *)
Theorem C99_tests u1 u2 m1 m2 err :
  some_run u1 → some_run u2 → writes_all u1 → writes_all u2 →
  pa_plugins p = [] → lib_ext (env_booking env (pa_options p)) → countable_ledger p →
  loads u1 m1 → loads u2 m2 → (∀ e, equal (err e) (err e)) →
  GoldenSpec.equal_beans (GoldenModel.beans_of err m1) (GoldenModel.beans_of err m2).
Proof.
  intros U1 U2 W1 W2 Hp HL Hc L1 L2 He.
  destruct (C99_loaded u1 u2 m1 m2 U1 U2 W1 W2 Hp HL Hc L1 L2) as (_&_&X1&X2&D&E&_).
  pose proof (loaded_once u1 m1 U1 W1 Hp Hc L1) as O1. pose proof (loaded_once u2 m2 U2 W2 Hp Hc L2) as O2. clear L1 L2.
  unfold GoldenSpec.equal_beans, GoldenModel.beans_of. cbn [GoldenModel.be_raw_xf GoldenModel.be_directives GoldenModel.be_error].
  rewrite X1, X2, <- E. split; [constructor|]. split.
  - destruct D as [l l' HF|]; [|constructor]. constructor. specialize (O1 l eq_refl). specialize (O2 l' eq_refl).
    eapply Q_seq; [by right|by right|]. apply Forall2_fmap_2. clear -HF O1 O2.
    induction HF as [|v w l l' Hv _ IH]; [constructor|]. apply Forall_cons in O1 as [A1 B1], O2 as [A2 B2]. constructor; [by apply EqualKeys.same_equal|by apply IH].
  - destruct (l_error m1); constructor. apply He.
Qed.

(** The options are the same, except that the documents and the operating currencies may
    come in another order. *)
Theorem C99_options_partial u1 u2 m1 m2 :
  some_run u1 → some_run u2 → writes_all u1 → writes_all u2 → pa_plugins p = [] → loads u1 m1 → loads u2 m2 →
  ∃ o1 o2, l_options m1 = Some o1 ∧ l_options m2 = Some o2 ∧
    (∀ k, k ∉ ["documents"; "operating-currency"] → option_Forall2 same_value (vget k o1) (vget k o2)) ∧
    (∀ k, k ∈ ["documents"; "operating-currency"] →
       option_Forall2 (λ v w, ∃ l l', v = VVec (VStr <$> l) ∧ w = VVec (VStr <$> l') ∧ l ≡ₚ l') (vget k o1) (vget k o2)).
Proof.
  intros U1 U2 W1 W2 Hp L1 L2.
  destruct (load_plain env p ns read_config code spec u1 m1 U1 Hp L1) as (_&_&_&O1&_).
  destruct (load_plain env p ns read_config code spec u2 m2 U2 Hp L2) as (_&_&_&O2&_). clear L1 L2.
  eexists _, _. split; [exact O1|]. split; [exact O2|]. clear O1 O2. destruct (W1 3) as [A1 N1], (W2 3) as [A2 N2]. split.
  - intros k Hk. destruct (decide (k = "inferred-tolerance-default")) as [->|Hne].
    + unfold put_options. rewrite !vget_decode, !entries_app.
      assert (He : ∀ (h : orders P), option_Forall2 (jlike (Some "inferred-tolerance-default"))
        ((λ m, JObj ((λ kv, (kv.1, put_num kv.2)) <$> or_numbers (ru_hs u1 3) m)) <$> o_tolerance_default (from_options (pa_options p)))
        ((λ m, JObj ((λ kv, (kv.1, put_num kv.2)) <$> or_numbers (ru_hs u2 3) m)) <$> o_tolerance_default (from_options (pa_options p)))).
      { intros _. destruct (o_tolerance_default _) as [m|]; [|constructor]. constructor. apply Y_meta; [|by rewrite (N1 m), (N2 m)].
        rewrite <- list_fmap_compose. change (NoDup (fst <$> or_numbers (ru_hs u1 3) m)). rewrite (N1 m). apply NoDup_fst_map_to_list. }
      specialize (He (ru_hs u1 3)). repeat first [rewrite entries_put_eq|rewrite entries_put_ne by done]. cbn [app]. rewrite !app_nil_r.
      change (entries "inferred-tolerance-default" _) with (@nil json). cbn [app]. rewrite !last_option_list. 
      destruct He as [x y Hxy|]; [|constructor]. constructor. apply converted_same, decode_same. exact Hxy.
    + rewrite (options_same (ru_hs u1 3) (ru_hs u2 3)) by set_solver. destruct (vget k _); constructor. apply same_refl.
  - assert (Hx : ∀ k X, is_set_key (Some k) = false →
      ∃ l l', decode (Some k) (put_set (or_wire (ru_hs u1 3)) X) = VVec (VStr <$> l) ∧ decode (Some k) (put_set (or_wire (ru_hs u2 3)) X) = VVec (VStr <$> l') ∧ l ≡ₚ l').
    { intros k X Hk. destruct A1 as [A1 _], A2 as [A2 _]. exists (set_order (or_wire (ru_hs u1 3)) X), (set_order (or_wire (ru_hs u2 3)) X).
      split_and!; [| |by rewrite (A1 X), (A2 X)]; unfold put_set; cbn [decode]; rewrite Hk; f_equal; change (map (decode None) ?l) with (decode None <$> l); by rewrite <- list_fmap_compose. }
    intros k Hk. apply elem_of_cons in Hk as [->|Hk]; [|apply elem_of_list_singleton in Hk as ->]; unfold put_options; rewrite !vget_decode, !entries_app;
      repeat first [rewrite entries_put_eq|rewrite entries_put_ne by done]; cbn [app]; rewrite !app_nil_r.
    + change (entries "documents" _) with (@nil json). cbn [app]. rewrite !last_option_list.
      destruct (o_documents _) as [X|]; [|constructor]. constructor. by apply Hx.
    + change (entries "operating-currency" _) with (@nil json). cbn [app]. rewrite !last_option_list.
      destruct (o_operating_currency _) as [X|]; [|constructor]. constructor. by apply Hx.
Qed.
End Equal.
Print Assumptions C99_loaded.
Print Assumptions C99_tests.
Print Assumptions C99_options_partial.

(** ** Samples *)

(** A ledger with two tags and two operating currencies. *)
Definition q_parsed : parsed :=
  Parsed
    [ PDirective (Span 0 0 10) (day 1) no_metadata (PVOpen "Assets:Bank" ["USD"; "EUR"] (Some BFifo));
      PDirective (Span 0 11 20) (day 1) no_metadata (PVOpen "Equity:Opening" [] None);
      PDirective (Span 0 21 60) (day 2) (PMetadata ["trip"; "work"] [] [("note", PMSimple (SVString "x")); ("spent", PMAmount (Dec 5 1) "USD")])
        (PVTransaction FAsterisk (Some "Shop") None
          [parsed_posting 30 "Assets:Bank" (Dec 100 0); parsed_posting 40 "Equity:Opening" (Dec (-100) 0)]) ]
    (pa_options (sample_parsed true)) [].
Definition back_order : hash_order := HashOrder (λ X, rev (base.elements X)) (λ m, rev (map_to_list m)).
Lemma back_order_any : any_order back_order.
Proof. split; intros; symmetry; apply Permutation_rev. Qed.
Definition q_run1 : @run holding sample_sources := Run (λ l, l) (λ l, l) (λ _, sample_orders) sample_start (λ l, l) plain_orders.
Definition q_run2 : @run holding sample_sources :=
  Run (λ l, rev l) (λ l, rev l) (λ _, Orders _ reverse_ord back_order (λ m, rev (map_to_list m))) sample_start (λ l, rev l) (ClientOrders (λ l, rev l) (λ l, rev l)).
Definition q_loaded (u : run) : option cval + option loaded :=
  load_beanfile sample_env (ru_jso u) (ru_jmo u) (Healthy (inl q_parsed)) (ru_hs u) (ru_sources u) (p_env None) s_read id (λ _ _, true) (ru_so u).
Definition q_loads := loads sample_env q_parsed (p_env None) s_read id (λ _ _, true).
Lemma q_runs : some_run q_run1 ∧ some_run q_run2 ∧ writes_all q_run1 ∧ writes_all q_run2.
Proof.
  assert (∀ A (l : list A), rev l ≡ₚ l) as Hr by (intros A l; symmetry; apply Permutation_rev).
  split; [split_and!; try done; intros; apply sample_ord_perm|].
  split; [split_and!; try apply Hr; intros; apply reverse_ord_perm|].
  split; intros n; [split; [apply plain_order_any|done]|split; [apply back_order_any|intros m; apply Hr]].
Qed.
Lemma q_seen_loads {A} u (f : loaded → A) x : p_seen f (q_loaded u) = Some x → ∃ m, q_loads u m ∧ f m = x.
Proof. intros H. unfold p_seen in H. destruct (q_loaded u) as [|[m|]] eqn:E; [done| |done]. exists m. split; [exact E|by injection H]. Qed.
Lemma q_countable : countable_ledger q_parsed.
Proof.
  split; [by unfold fits; vm_compute|]. intros d f py n ps Hd Ev.
  assert (Hp : Forall (λ d, match pdr_variant d with PVTransaction _ _ _ ps => length ps ≤ 2 | _ => True end) (pa_directives q_parsed)) by (repeat constructor).
  rewrite Forall_forall in Hp. apply Hp in Hd. rewrite Ev in Hd. unfold fits. lia.
Qed.
Definition q_tags (m : loaded) : option cval := ds ← l_directives m; d ← ds !! 2; vget "tags" d.
(** The tags come in another order the second time, and the directives are the same. *)
Example C99_example :
  some_run q_run1 ∧ some_run q_run2 ∧ writes_all q_run1 ∧ writes_all q_run2 ∧
  pa_plugins q_parsed = [] ∧ lib_ext (env_booking sample_env (pa_options q_parsed)) ∧ countable_ledger q_parsed ∧
  (∃ m, q_loads q_run1 m ∧ (l_error m, length (default [] (l_directives m)), q_tags m) = (None, 3, Some (VSet [VStr "trip"; VStr "work"]))) ∧
  (∃ m, q_loads q_run2 m ∧ (l_error m, length (default [] (l_directives m)), q_tags m) = (None, 3, Some (VSet [VStr "work"; VStr "trip"]))).
Proof.
  destruct q_runs as (?&?&?&?). split_and!; [done..|exact sample_lib_ext|exact q_countable| |].
  - apply q_seen_loads. by vm_compute.
  - apply q_seen_loads. by vm_compute.
Qed.
(** The options are not the same values: the operating currencies are a vector, which comes
    in the order of a hash set. *)
Theorem C99_options_refuted : ∃ u1 u2 m1 m2 v1 v2,
  some_run u1 ∧ some_run u2 ∧ writes_all u1 ∧ writes_all u2 ∧ pa_plugins q_parsed = [] ∧ q_loads u1 m1 ∧ q_loads u2 m2 ∧
  l_options m1 ≫= vget "operating-currency" = Some v1 ∧ l_options m2 ≫= vget "operating-currency" = Some v2 ∧ ¬ same_value v1 v2.
Proof.
  destruct q_runs as (?&?&?&?). exists q_run1, q_run2.
  destruct (q_seen_loads q_run1 (λ m, l_options m ≫= vget "operating-currency") (Some (VVec [VStr "EUR"; VStr "USD"]))) as (m1&L1&E1); [by vm_compute|].
  destruct (q_seen_loads q_run2 (λ m, l_options m ≫= vget "operating-currency") (Some (VVec [VStr "USD"; VStr "EUR"]))) as (m2&L2&E2); [by vm_compute|].
  exists m1, m2, (VVec [VStr "EUR"; VStr "USD"]), (VVec [VStr "USD"; VStr "EUR"]). repeat (split; [done|]).
  intros Hs. inversion Hs as [| | | | | | |? ? HF| |]; subst. apply Forall2_cons in HF as [HF _]. inversion HF.
Qed.
Print Assumptions C99_options_refuted.
