(** What the user has seen of a period does not change when later entries are added. *)
From Coq Require Import Ascii QArith Qabs.
From stdpp Require Import prelude gmap strings.
From Verif Require Import DecModel DecProofs LedgerTypes IsoModel JsonModel WireModel WireSpec WireFacts BookModel BookLib BookSpec BookProps BookFacts ReportSpec ReportSamples ReportProps SpanModel ParserModel
  JsonText SampleLib SampleLedgers WireSamples ServerModel ServerSpec ServerFacts ServerSamples CljModel InventoryModel InventorySpec InventoryFacts InventoryProps
  ClientModel ClientSpec ClientDecode ClientSamples FormatModel PluginModel PluginSpec LoaderModel
  LoaderSpec LoaderFacts LoaderProps EncodeModel SystemModel SystemFacts SystemLoad SystemSpec SystemErrors SystemTrace SystemProps ViewSpec ViewFacts ViewProps SameSpec SameProps OrderFacts AnnotSpec AnnotFacts AnnotProps GrowFacts.
Local Open Scope nat_scope.

(** * C103 *)

(** A ledger which books and is continued by more directives: if it still books, all
    that was booked is there as it was, with its warnings, and then what is new. *)
Theorem C103_kept {P} (L : booking_lib P) ord opt ds more bs ws bs' ws' :
  (∀ m, ord m ≡ₚ map_to_list m) →
  book L ord opt ds = BookSuccess bs ws → book L ord opt (ds ++ more) = BookSuccess bs' ws' →
  ∃ nb nw, bs' = bs ++ nb ∧ ws' = ws ++ nw.
Proof. intros Ho H1 H2. destruct (book_grows L ord Ho opt ds more bs ws bs' ws' H1 H2) as (nb&nw&?&?&_). by exists nb, nw. Qed.
Print Assumptions C103_kept.

(** ** The reports *)
Definition not_before (D : date) (d : directive) : Prop := ¬ earlier (d_date d) D.

Lemma orders_agree {P} (L : booking_lib P) ord ord' opt ds bs ws : lib_ext L →
  (∀ m, ord m ≡ₚ map_to_list m) → (∀ m, ord' m ≡ₚ map_to_list m) →
  book L ord opt ds = BookSuccess bs ws → book L ord' opt ds = BookSuccess bs ws.
Proof.
  intros HL Ho Ho' H. pose proof (C20_order_independent _ _ HL ord ord' opt ds Ho Ho') as HC. rewrite H in HC.
  destruct (book L ord' opt ds); try done. by destruct HC as [<- <-].
Qed.
Lemma selected_grows D filters bs nb : date_lt D ∈ filters → Forall (λ b, ¬ earlier (b_date b) D) nb →
  entries_selected filters (bs ++ nb) = entries_selected filters bs.
Proof.
  intros Hf Hn. unfold entries_selected. rewrite booked_entries_app, filter_app.
  rewrite (filter_none _ (booked_entries nb)); [by rewrite app_nil_r|]. intros e He HF.
  rewrite Forall_forall in HF. specialize (HF _ Hf). cbn in HF.
  apply entry_in in He as (j&b&t&Hb&_&_&_&Hd). rewrite (date_lt_earlier D e.1 (b_date b)) in HF by done.
  rewrite Forall_forall in Hn. apply (Hn b); [|done]. by eapply elem_of_list_lookup_2.
Qed.

(** Two ledgers which are the same up to some point, and after it have directives of the
    day [D] and later only, and of which the common part books for itself: what the user
    sees of the days before [D], whatever other filters there are, is the same: in each
    account as much of each currency, and the same rows of the journal with the same
    units and balances. *)
Theorem C103_reports {P} (L : booking_lib P) ord ord1 ord2 opt ds more other bs ws bs1 ws1 bs2 ws2 cs1 cs2 co1 co2 o1 o2 D filters :
  lib_ext L → (∀ m, ord m ≡ₚ map_to_list m) → (∀ m, ord1 m ≡ₚ map_to_list m) → (∀ m, ord2 m ≡ₚ map_to_list m) →
  (∀ l, co_lots co1 l ≡ₚ l) → (∀ l, co_lots co2 l ≡ₚ l) →
  book L ord opt ds = BookSuccess bs ws →
  book L ord1 opt (ds ++ more) = BookSuccess bs1 ws1 → book L ord2 opt (ds ++ other) = BookSuccess bs2 ws2 →
  Forall (not_before D) more → Forall (not_before D) other → date_lt D ∈ filters →
  Forall2 directive_seen cs1 bs1 → Forall2 directive_seen cs2 bs2 →
  (∀ inv1 inv2, inventory co1 (Beans cs1 o1) filters = Some inv1 → inventory co2 (Beans cs2 o2) filters = Some inv2 →
     ∀ acc cur, (held cur (holding inv1 acc) == held cur (holding inv2 acc))%Q) ∧
  (∀ l1 l2, journal co1 (Beans cs1 o1) filters = Some l1 → journal co2 (Beans cs2 o2) filters = Some l2 →
     length l1 = length l2 ∧
     ∀ n row1 bal1, l1 !! n = Some (row1, bal1) → ∃ row2 bal2, l2 !! n = Some (row2, bal2) ∧
       item_of_posting row1 = item_of_posting row2 ∧ (cn_value (cp_units row1) == cn_value (cp_units row2))%Q ∧
       ∀ cur, (held cur bal1 == held cur bal2)%Q).
Proof.
  intros HL Ho Ho1 Ho2 Hco1 Hco2 Hb Hb1 Hb2 Hm Hoth Hf Hs1 Hs2.
  apply (orders_agree L ord1 ord) in Hb1; [|done..]. apply (orders_agree L ord2 ord) in Hb2; [|done..].
  destruct (book_grows L ord Ho opt ds more bs ws bs1 ws1 Hb Hb1) as (n1&?&->&_&F1).
  destruct (book_grows L ord Ho opt ds other bs ws bs2 ws2 Hb Hb2) as (n2&?&->&_&F2).
  assert (∀ more nb, Forall (not_before D) more → Forall (λ b, ∃ d, d ∈ more ∧ b_date b = d_date d) nb → Forall (λ b : bdirective, ¬ earlier (b_date b) D) nb) as HF.
  { intros more' nb HM HN. eapply Forall_impl; [exact HN|]. intros b (d&Hd&->). rewrite Forall_forall in HM. by apply HM. }
  pose proof (selected_grows D filters bs n1 Hf (HF _ _ Hm F1)) as E1. pose proof (selected_grows D filters bs n2 Hf (HF _ _ Hoth F2)) as E2.
  split.
  - intros inv1 inv2 Hi1 Hi2 acc cur. destruct (C87_inventory _ _ _ _ _ _ Hco1 Hs1 Hi1) as [H1 _], (C87_inventory _ _ _ _ _ _ Hco2 Hs2 Hi2) as [H2 _].
    rewrite H1, H2, E1, E2. reflexivity.
  - intros l1 l2 Hj1 Hj2. destruct (C87_journal _ _ _ _ _ _ Hco1 Hs1 Hj1) as [Hl1 H1], (C87_journal _ _ _ _ _ _ Hco2 Hs2 Hj2) as [Hl2 H2].
    rewrite E1 in *. rewrite E2 in *. split; [congruence|]. intros n row1 bal1 Hr.
    destruct (lookup_lt_is_Some_2 (entries_selected filters bs) n) as [e He]; [rewrite <- Hl1; by eapply lookup_lt_Some|].
    destruct (H1 n e He) as (row0&bal0&Hr0&I1&[U1 _]&B1). rewrite Hr in Hr0. injection Hr0 as <- <-.
    destruct (H2 n e He) as (row2&bal2&Hr2&I2&[U2 _]&B2). exists row2, bal2. split; [done|]. split; [congruence|]. split; [by rewrite U1, U2|].
    intros cur. rewrite B1, B2. reflexivity.
Qed.
Print Assumptions C103_reports.

(** ** From the text of the ledger *)
Lemma fold_opt_ext {A B} (f g : A → B → option A) a l : (∀ a b, b ∈ l → f a b = g a b) → fold_opt f a l = fold_opt g a l.
Proof.
  revert a. induction l as [|b l IH]; intros a H; [done|]. cbn. rewrite H by left. destruct (g a b); [|done]. cbn. apply IH. intros; apply H; by right.
Qed.
Lemma inventory_build_ext ho ps f g : (∀ q, q ∈ ps → f (cp_acc q) = g (cp_acc q)) → inventory_build ho ps f = inventory_build ho ps g.
Proof.
  intros H. unfold inventory_build. f_equal. apply fold_opt_ext. intros m q Hq. unfold build_step. by rewrite (H q Hq).
Qed.
Lemma registry_other (m : gmap string booking) ds a : (∀ d, d ∈ ds → cd_dct d = "open" → cd_acc d ≠ Some a) →
  fold_left (λ (m : gmap string booking) d, if String.eqb (cd_dct d) "open" then match cd_booking d, cd_acc d with Some b, Some a => <[a := b]> m | _, _ => m end else m) ds m !! a = m !! a.
Proof.
  revert m. induction ds as [|d ds IH]; intros m H; [done|]. cbn. rewrite IH by (intros; apply H; [by right|done]).
  destruct (String.eqb_spec (cd_dct d) "open") as [E|]; [|done]. destruct (cd_booking d), (cd_acc d) as [a'|] eqn:Ea; try done.
  rewrite lookup_insert_ne; [done|]. intros ->. by eapply (H d); [left|done|].
Qed.
Lemma registry_grows ds ds' a : (∀ d, d ∈ ds' → cd_dct d = "open" → cd_acc d ≠ Some a) → registry_acc_booking (ds ++ ds') !! a = registry_acc_booking ds !! a.
Proof. intros H. unfold registry_acc_booking. rewrite fold_left_app. by apply registry_other. Qed.

Lemma xf_app ds ds' : xf_postings (ds ++ ds') = xf_postings ds ++ xf_postings ds'.
Proof. unfold xf_postings. by rewrite filter_app, bind_app. Qed.
Lemma client_grows co bs nb o filters D : date_lt D ∈ filters → Forall (λ b, ¬ earlier (b_date b) D) nb →
  (∀ b q b' x, b ∈ bs → q ∈ postings_of b → b' ∈ nb → b_variant b' = BVOpen x → op_acc x ≠ p_acc q) →
  inventory co (Beans (seen_directive <$> bs ++ nb) o) filters = inventory co (Beans (seen_directive <$> bs) o) filters ∧
  journal co (Beans (seen_directive <$> bs ++ nb) o) filters = journal co (Beans (seen_directive <$> bs) o) filters.
Proof.
  intros Hf Hn Hop.
  assert (selected (Beans (seen_directive <$> bs ++ nb) o) filters = selected (Beans (seen_directive <$> bs) o) filters) as Hs.
  { unfold selected. cbn [be_directives]. rewrite fmap_app, xf_app, filter_app, (filter_none _ (xf_postings (seen_directive <$> nb))); [by rewrite app_nil_r|].
    intros q Hq HF. apply elem_of_list_lookup in Hq as [i Hq]. destruct (Forall2_lookup_l _ _ _ _ _ (xf_entries _ _ (seen_all nb)) Hq) as (e&He&Hse&_).
    apply elem_of_list_lookup_2, entry_in in He as (j&b&t&Hb&_&_&_&Hd). rewrite forallb_forall in HF. specialize (HF _ (proj1 (elem_of_list_In _ _) Hf)).
    rewrite (date_lt_earlier D _ (b_date b)) in HF by by rewrite Hse. rewrite Forall_forall in Hn. apply (Hn b); [|done]. by eapply elem_of_list_lookup_2. }
  split; [|unfold journal; by rewrite Hs].
  unfold inventory. cbn [be_options]. destruct (default_booking o) as [dflt|]; [|done]. rewrite Hs. apply inventory_build_ext. intros q Hq.
  cbn [be_directives]. rewrite fmap_app, registry_grows; [done|]. intros d (b'&->&Hb')%elem_of_list_fmap Hd Ha.
  unfold selected in Hq. apply elem_of_list_filter in Hq as [_ Hq]. cbn [be_directives] in Hq. apply elem_of_list_lookup in Hq as [i Hq].
  destruct (Forall2_lookup_l _ _ _ _ _ (xf_entries _ _ (seen_all bs)) Hq) as (e&He&Hse&_). apply elem_of_list_lookup_2 in He.
  unfold booked_entries in He. apply elem_of_list_bind in He as (b&He&Hb). destruct (b_variant b) eqn:Eb; try by apply elem_of_nil in He.
  apply elem_of_list_fmap in He as (r&->&Hr). cbn in Hse. injection Hse as _ Hacc _ _ _.
  pose proof (seen_directive_ok b') as [_ Hseen]. destruct (b_variant b') as [| | |x| | | | | | | |] eqn:Ex; destruct Hseen as [X Y]; cbn in X, Y;
    try (destruct X as (X&_); congruence); try (destruct Y as (Y&_); congruence).
  destruct Y as (_&Y&_). apply (Hop b r b' x); [done|by unfold postings_of; rewrite Eb|done..|]. congruence.
Qed.

Lemma mirrors_rest i ds bs more nb : mirrors i ds bs → mirrors i (ds ++ more) (bs ++ nb) → mirrors (i + length ds) more nb.
Proof.
  induction 1 as [i|i d ds b bs Hp _ _ _ IH|i d ds b b' bs Hp _ _ _ _ IH]; cbn; intros H; [by rewrite Nat.add_0_r| |];
    inversion H; subst; try done; rewrite Nat.add_succ_r; by apply IH.
Qed.
Lemma mirrors_open i ds bs b o : mirrors i ds bs → b ∈ bs → b_variant b = BVOpen o → ∃ j d, ds !! j = Some d ∧ d_variant d = DOpen o.
Proof.
  induction 1 as [i|i d ds x bs Hp _ Hc _ IH|i d ds x x' bs Hp _ Hc Hpt _ IH]; [by intros ?%elem_of_nil| |].
  - intros [->|Hb]%elem_of_cons Ho; [|destruct (IH Hb Ho) as (j&d'&?&?); by exists (Datatypes.S j), d'].
    rewrite Ho in Hc. exists 0, d. split; [done|]. by inversion Hc.
  - intros [->|[->|Hb]%elem_of_cons]%elem_of_cons Ho; [| |destruct (IH Hb Ho) as (j&d'&?&?); by exists (Datatypes.S j), d'].
    + rewrite Ho in Hc. exists 0, d. split; [done|]. by inversion Hc.
    + destruct Hpt as (_&l&Hl). congruence.
Qed.

Section System.
Context {P S : Type} (env : server_env P S).
Context (ns : string → option namespace) (read_config : option cval → option (option cval)).
Context (code : nat → nat) (spec : bool → cval → bool).
Context (p1 p2 : parsed).
Notation ledger p := (from_directive <$> pa_directives p).
Notation L := (env_booking env (pa_options p1)).
Notation opt := (po_booking_method (pa_options p1)).

(** Two ledgers without plugins and with the same options, which are loaded without an
    error and are the same up to some point but for the places in the files: the user's
    reports of the days before [D] are the same. *)
Theorem C103_loaded u1 u2 m1 m2 ds more other ord bs ws D :
  some_run u1 → some_run u2 → pa_plugins p1 = [] → pa_plugins p2 = [] → pa_options p2 = pa_options p1 →
  unplaced <$> ledger p1 = ds ++ more → unplaced <$> ledger p2 = ds ++ other → Forall (not_before D) more → Forall (not_before D) other →
  (∀ m, ord m ≡ₚ map_to_list m) → book L ord opt ds = BookSuccess bs ws →
  lib_ext L → lib_blind L → countable_ledger p1 → countable_ledger p2 →
  (∀ n bs ws, book_with env p1 (ru_hs u1) n (ledger p1) = BookSuccess bs ws → Forall dates_valid bs) →
  (∀ n bs ws, book_with env p2 (ru_hs u2) n (ledger p2) = BookSuccess bs ws → Forall dates_valid bs) →
  loads env p1 ns read_config code spec u1 m1 → loads env p2 ns read_config code spec u2 m2 → l_error m1 = None → l_error m2 = None →
  ∃ b1 b2, beans_of m1 = Some b1 ∧ beans_of m2 = Some b2 ∧
    ∀ co filters, date_lt D ∈ filters →
      inventory co b1 filters = inventory co b2 filters ∧ balances co b1 filters = balances co b2 filters ∧
      income_statement co b1 filters = income_statement co b2 filters ∧ journal co b1 filters = journal co b2 filters.
Proof.
  intros U1 U2 Hp1 Hp2 Hopt Hl1 Hl2 Hm Hoth Ho Hb HL HLb Hc1 Hc2 Hd1 Hd2 L1 L2 E1 E2.
  destruct (load_plain env p1 ns read_config code spec u1 m1 U1 Hp1 L1) as (X1&Y1&_&O1&_).
  destruct (load_plain env p2 ns read_config code spec u2 m2 U2 Hp2 L2) as (X2&Y2&_&O2&_).
  pose proof U1 as (J1&J2&J3&J4). pose proof U2 as (K1&K2&K3&K4).
  destruct (loaded_seen env _ _ J1 J2 (ru_hs u1) (ru_sources u1) ns read_config code spec (ru_so u1) p1 J3 m1 L1 E1) as (n1&l1&bs1&ws1&T1&B1&S1).
  { by rewrite Y1. } { done. } { by rewrite X1. }
  destruct (loaded_seen env _ _ K1 K2 (ru_hs u2) (ru_sources u2) ns read_config code spec (ru_so u2) p2 K3 m2 L2 E2) as (n2&l2&bs2&ws2&T2&B2&S2).
  { by rewrite Y2. } { done. } { by rewrite X2. }
  unfold to_be_booked in T1, T2. rewrite X1 in T1. rewrite X2 in T2. subst l1 l2.
  destruct (S1 (Hd1 _ _ _ B1)) as (vs1&ds1&D1&V1&->), (S2 (Hd2 _ _ _ B2)) as (vs2&ds2&D2&V2&->).
  exists (Beans (seen_directive <$> bs1) (default VNil (l_options m1))), (Beans (seen_directive <$> bs2) (default VNil (l_options m2))).
  split. { unfold beans_of. rewrite D1. cbn [mbind option_bind]. by rewrite V1. }
  split. { unfold beans_of. rewrite D2. cbn [mbind option_bind]. by rewrite V2. }
  unfold book_with in B1, B2. rewrite Hopt in B2. rewrite <- (unplaced_book L HLb), Hl1 in B1. rewrite <- (unplaced_book L HLb), Hl2 in B2.
  apply (orders_agree L _ ord) in B1; [|done..]. apply (orders_agree L _ ord) in B2; [|done..].
  destruct (book_grows L ord Ho opt ds more bs ws bs1 ws1 Hb B1) as (nb1&nw1&->&_&F1).
  destruct (book_grows L ord Ho opt ds other bs ws bs2 ws2 Hb B2) as (nb2&nw2&->&_&F2).
  assert (∀ more nb ws, Forall (not_before D) more → Forall (λ b, ∃ d, d ∈ more ∧ b_date b = d_date d) nb →
    book L ord opt (ds ++ more) = BookSuccess (bs ++ nb) ws → ∀ co filters o, date_lt D ∈ filters →
    inventory co (Beans (seen_directive <$> bs ++ nb) o) filters = inventory co (Beans (seen_directive <$> bs) o) filters ∧
    journal co (Beans (seen_directive <$> bs ++ nb) o) filters = journal co (Beans (seen_directive <$> bs) o) filters) as Hone.
  { intros more' nb ws' HM HN HB co filters o Hf. apply (client_grows co bs nb o filters D Hf).
    - eapply Forall_impl; [exact HN|]. intros b (d&Hd&->). rewrite Forall_forall in HM. by apply HM.
    - intros b q b' x Hbin Hq Hb' Hx Heq.
      destruct (posted_opened L ord opt ds bs ws b q Hb Hbin Hq) as (i&x'&d&Hd&Hv&Ha).
      pose proof (mirrors_rest _ _ _ _ _ (C01_output_mirrors_ledger _ _ _ _ _ _ _ Hb) (C01_output_mirrors_ledger _ _ _ _ _ _ _ HB)) as HR.
      destruct (mirrors_open _ _ _ _ _ HR Hb' Hx) as (j&d'&Hd'&Hv').
      assert (i = length ds + j) as Eij.
      { eapply (C05_opened_at_most_once _ _ _ _ _ _ _ (p_acc q)); [exact HB| |].
        - exists d. split; [by apply lookup_app_l_Some|done].
        - exists d'. split; [|done]. rewrite lookup_app_r by lia. by replace (length ds + j - length ds) with j by lia. }
      apply lookup_lt_Some in Hd. lia. }
  assert (∀ k, k ∈ ["booking"; "name-assets"; "name-liabilities"; "name-income"; "name-expenses"] →
    vget k (default VNil (l_options m1)) = vget k (default VNil (l_options m2))) as Hk.
  { intros k Hk. rewrite O1, O2, Hopt. cbn [default]. apply options_same. clear -Hk. set_solver. }
  assert (∀ co fs, inventory co (Beans (seen_directive <$> bs) (default VNil (l_options m1))) fs = inventory co (Beans (seen_directive <$> bs) (default VNil (l_options m2))) fs) as Hi.
  { intros co fs. unfold inventory, default_booking. cbn [be_options be_directives]. by rewrite (Hk "booking") by by left. }
  assert (∀ co fs, date_lt D ∈ fs → inventory co (Beans (seen_directive <$> bs ++ nb1) (default VNil (l_options m1))) fs =
    inventory co (Beans (seen_directive <$> bs ++ nb2) (default VNil (l_options m2))) fs) as Hinv.
  { intros co fs Hf. destruct (Hone _ _ _ Hm F1 B1 co fs (default VNil (l_options m1)) Hf) as [-> _].
    destruct (Hone _ _ _ Hoth F2 B2 co fs (default VNil (l_options m2)) Hf) as [-> _]. apply Hi. }
  intros co filters Hf. split; [by apply Hinv|].
  unfold balances, income_statement, option_name. cbn [be_options].
  rewrite (Hk "name-assets"), (Hk "name-liabilities"), (Hk "name-income"), (Hk "name-expenses") by (clear; set_solver).
  split; [apply Hinv, elem_of_app; by left|]. split; [apply Hinv, elem_of_app; by left|].
  destruct (Hone _ _ _ Hm F1 B1 co filters (default VNil (l_options m1)) Hf) as [_ ->].
  destruct (Hone _ _ _ Hoth F2 B2 co filters (default VNil (l_options m2)) Hf) as [_ ->]. done.
Qed.
End System.
Print Assumptions C103_loaded.

(** The ledger of [ViewProps.v], and one which begins in the same way at other places in
    the files and goes on otherwise from the fourth day. *)
Definition g_parsed : parsed :=
  let dir n k v := PDirective (Span 0 (10 * n) (10 * n + 9)) (day (Z.of_nat k)) no_metadata v in
  Parsed
    [ dir 10 1 (PVOpen "Assets:Bank" [] None); dir 11 1 (PVOpen "Assets:Bank:Sub" [] None); dir 2 1 (PVOpen "Equity:Opening" [] None);
      dir 13 2 (PVPad "Assets:Bank" "Equity:Opening");
      dir 14 3 (PVTransaction FAsterisk (Some "Shop") None
        [parsed_posting 142 "Assets:Bank:Sub" (Dec 250 2); parsed_posting 146 "Equity:Opening" (Dec (-250) 2)]);
      dir 15 4 (PVBalance "Assets:Bank" (Dec 10 0) "USD" None);
      dir 1 5 (PVOpen "Assets:Other" [] None);
      dir 3 6 (PVTransaction FAsterisk None None
        [parsed_posting 32 "Assets:Bank" (Dec (-9) 0); parsed_posting 36 "Assets:Other" (Dec 9 0)]) ]
    (pa_options (sample_parsed true)) [].
Definition g_common : list directive := unplaced <$> (from_directive <$> take 6 (pa_directives v_parsed)).
Definition g_booked : list bdirective :=
  match book_with sample_env g_parsed (λ _, sample_orders) 0 (from_directive <$> pa_directives g_parsed) with BookSuccess bs _ => bs | _ => [] end.
Lemma not_before_checked D ds : forallb (λ d, match date_compare (d_date d) D with Lt => false | _ => true end) ds = true → Forall (not_before D) ds.
Proof.
  rewrite forallb_Forall. intros H. eapply Forall_impl; [exact H|]. intros d Hd He%date_compare_lt. cbn beta in Hd. by rewrite He in Hd.
Qed.
Definition g_total (p : parsed) (k : Z) : option Q :=
  (λ inv, Qred (held "USD" (holding inv "Assets:Bank"))) <$>
  inventory plain_orders (Beans (default [] (p_seen (λ m, default [] (mapM view_directive (default [] (l_directives m)))) (p_load None (Healthy (inl p))))) (client_options None)) [date_lt (day k)].
Example C103_loaded_example :
  some_run run1 ∧ pa_plugins v_parsed = [] ∧ pa_plugins g_parsed = [] ∧ pa_options g_parsed = pa_options v_parsed ∧
  (∃ more other ord bs ws, unplaced <$> (from_directive <$> pa_directives v_parsed) = g_common ++ more ∧
    unplaced <$> (from_directive <$> pa_directives g_parsed) = g_common ++ other ∧
    Forall (not_before (day 4)) more ∧ Forall (not_before (day 4)) other ∧ (∀ m, ord m ≡ₚ map_to_list m) ∧
    book (env_booking sample_env (pa_options v_parsed)) ord (po_booking_method (pa_options v_parsed)) g_common = BookSuccess bs ws) ∧
  lib_ext (env_booking sample_env (pa_options v_parsed)) ∧ lib_blind (env_booking sample_env (pa_options v_parsed)) ∧
  countable_ledger v_parsed ∧ countable_ledger g_parsed ∧
  (∀ n bs ws, book_with sample_env v_parsed (ru_hs run1) n (from_directive <$> pa_directives v_parsed) = BookSuccess bs ws → Forall dates_valid bs) ∧
  (∀ n bs ws, book_with sample_env g_parsed (ru_hs run1) n (from_directive <$> pa_directives g_parsed) = BookSuccess bs ws → Forall dates_valid bs) ∧
  (∃ m1, loads sample_env v_parsed (p_env None) s_read id (λ _ _, true) run1 m1 ∧ l_error m1 = None) ∧
  (∃ m2, loads sample_env g_parsed (p_env None) s_read id (λ _ _, true) run1 m2 ∧ l_error m2 = None) ∧
  (g_total v_parsed 4, g_total g_parsed 4) = (Some (15 # 2)%Q, Some (15 # 2)%Q) ∧ (g_total v_parsed 7, g_total g_parsed 7) = (Some (7 # 2)%Q, Some (-3 # 2)%Q).
Proof.
  pose proof C89_loaded_example as (H1&_&H2&H3&H4&H5&H6&_).
  split; [exact H1|]. split; [exact H2|]. split; [done|]. split; [done|]. split.
  { eexists _, _, sample_ord, _, _. split; [reflexivity|]. split; [reflexivity|].
    split; [apply not_before_checked; by vm_compute|]. split; [apply not_before_checked; by vm_compute|].
    split; [exact sample_ord_perm|]. vm_compute. reflexivity. }
  split; [exact H3|]. split; [exact sample_blind|]. split; [exact H4|]. split.
  { split; [by unfold fits; vm_compute|]. intros d f py n ps Hd Ev.
    assert (Hp : Forall (λ d, match pdr_variant d with PVTransaction _ _ _ ps => length ps ≤ 2 | _ => True end) (pa_directives g_parsed))
      by (repeat constructor).
    rewrite Forall_forall in Hp. apply Hp in Hd. rewrite Ev in Hd. unfold fits. lia. }
  split; [exact H5|]. split.
  { intros n bs ws H. assert (bs = g_booked) as ->; [|apply dates_checked; vm_compute; reflexivity].
    unfold g_booked. change (book_with sample_env g_parsed (λ _, sample_orders) 0) with (book_with sample_env g_parsed (ru_hs run1) n).
    by rewrite H. }
  split; [exact H6|]. split.
  { assert (p_seen (λ m, match l_error m with None => true | _ => false end) (p_load None (Healthy (inl g_parsed))) = Some true) as H by by vm_compute. unfold p_seen in H.
    destruct (p_load None (Healthy (inl g_parsed))) as [|[m|]] eqn:E; [done| |done].
    exists m. split; [exact E|]. injection H as H. by destruct (l_error m). }
  split; by vm_compute.
Qed.

(** Without the condition that the common part books for itself this is false: the
    amount of a pad of which no balance assertion has come yet is decided by the one
    which is added. *)
Definition pad_pending : list directive := [dir 1 (dopen "Assets:Bank"); dir 1 (dopen "Equity"); dir 2 (dpad "Assets:Bank" "Equity")].
Definition pad_filled (n : Z) : list directive := [dir 4 (dbal "Assets:Bank" n 0 "USD")].
Definition pad_booked (n : Z) : list bdirective := booked_or_nil (sample_run (pad_pending ++ pad_filled n)).
Definition pad_inventory (n : Z) : gmap string (list position) :=
  default ∅ (inventory plain_orders (Beans (client_directives (pad_booked n)) (client_options None)) [date_lt (day 3)]).
Theorem C103_pads_refuted :
  ∃ P (L : booking_lib P) ord opt ds more other bs1 bs2 D inv1 inv2,
    lib_ok L ∧ (∀ m, ord m ≡ₚ map_to_list m) ∧ book L ord opt (ds ++ more) = BookSuccess bs1 [] ∧ book L ord opt (ds ++ other) = BookSuccess bs2 [] ∧
    Forall (not_before D) more ∧ Forall (not_before D) other ∧
    inventory plain_orders (Beans (client_directives bs1) (client_options None)) [date_lt D] = Some inv1 ∧
    inventory plain_orders (Beans (client_directives bs2) (client_options None)) [date_lt D] = Some inv2 ∧
    ¬ (held "USD" (holding inv1 "Assets:Bank") == held "USD" (holding inv2 "Assets:Bank"))%Q.
Proof.
  exists _, sample_lib, sample_ord, None, pad_pending, (pad_filled 100), (pad_filled 200), (pad_booked 100), (pad_booked 200), (day 3), (pad_inventory 100), (pad_inventory 200).
  split; [exact sample_lib_ok|]. split; [exact sample_ord_perm|]. split; [by vm_compute|]. split; [by vm_compute|].
  split; [apply not_before_checked; by vm_compute|]. split; [apply not_before_checked; by vm_compute|].
  split; [apply known; by vm_compute|]. split; [apply known; by vm_compute|]. by vm_compute.
Qed.
Print Assumptions C103_pads_refuted.
