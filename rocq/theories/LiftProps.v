(** What has been proved of booked ledgers beside each other, for ledgers which are
    loaded. *)
From Coq Require Import Ascii QArith Qabs.
From stdpp Require Import prelude gmap strings.
From Verif Require Import DecModel DecProofs LedgerTypes IsoModel JsonModel WireModel WireSpec WireFacts BookModel BookLib BookSpec BookProps BookFacts ReportSpec ReportSamples ReportProps SpanModel ParserModel
  JsonText SampleLib SampleLedgers WireSamples ServerModel ServerSpec ServerFacts ServerSamples CljModel InventoryModel InventorySpec InventoryFacts InventoryProps
  ClientModel ClientSpec ClientDecode ClientSamples FormatModel PluginModel PluginSpec LoaderModel
  LoaderSpec LoaderFacts LoaderProps EncodeModel SystemModel SystemFacts SystemLoad SystemSpec SystemErrors SystemTrace SystemProps ViewSpec ViewFacts ViewProps SameSpec SameProps OrderFacts AnnotSpec AnnotFacts AnnotProps GrowFacts GrowProps
  SplitSpec SplitFacts SplitProps ShuffleSpec ShuffleFacts ShuffleProps LeaveSpec LeaveFacts LeaveProps RenameSpec RenameFacts RenameProps LiftSpec.
Local Open Scope nat_scope.

Section System.
Context {P S : Type} (env : server_env P S).
Context (ns : string → option namespace) (read_config : option cval → option (option cval)).
Context (code : nat → nat) (spec : bool → cval → bool).
Notation ledger p := (from_directive <$> pa_directives p).

(** The directives of a ledger, without the places in the files. *)
Definition written (p : parsed) : list directive := unplaced <$> ledger p.
(** A ledger without plugins has been loaded, with or without an error. *)
Definition loaded_from (p : parsed) (u : run) (m : loaded) : Prop :=
  some_run u ∧ pa_plugins p = [] ∧ countable_ledger p ∧
  (∀ n bs ws, book_with env p (ru_hs u) n (ledger p) = BookSuccess bs ws → Forall dates_valid bs) ∧
  loads env p ns read_config code spec u m.

(** It is loaded without an error exactly if it books, and then the user sees what was
    booked. *)
Lemma loaded_books p u m ord :
  lib_ext (env_booking env (pa_options p)) → lib_blind (env_booking env (pa_options p)) → (∀ m, ord m ≡ₚ map_to_list m) → loaded_from p u m →
  (l_error m = None ↔ ∃ bs ws, book (env_booking env (pa_options p)) ord (po_booking_method (pa_options p)) (written p) = BookSuccess bs ws) ∧
  (l_error m = None → ∃ bs ws cs o, book (env_booking env (pa_options p)) ord (po_booking_method (pa_options p)) (written p) = BookSuccess bs ws ∧
     beans_of m = Some (Beans cs o) ∧ Forall2 directive_seen cs bs).
Proof.
  intros HL HLb Ho (U&Hp&Hc&Hd&Hl).
  destruct (load_plain env p ns read_config code spec u m U Hp Hl) as (X&Y&Z&_&E). pose proof U as (J1&J2&J3&J4).
  assert (l_error m = None → ∃ bs ws cs o, book (env_booking env (pa_options p)) ord (po_booking_method (pa_options p)) (written p) = BookSuccess bs ws ∧
     beans_of m = Some (Beans cs o) ∧ Forall2 directive_seen cs bs) as H1.
  { intros Em. destruct (loaded_seen env _ _ J1 J2 (ru_hs u) (ru_sources u) ns read_config code spec (ru_so u) p J3 m Hl Em) as (n&l&bs&ws&T&B&S1).
    { by rewrite Y. } { done. } { by rewrite X. }
    unfold to_be_booked in T. rewrite X in T. subst l. destruct (S1 (Hd _ _ _ B)) as (vs&ds&D&V&->).
    exists bs, ws, (seen_directive <$> bs), (default VNil (l_options m)). split; [|split].
    - unfold book_with in B. rewrite <- (unplaced_book _ HLb) in B. by apply (orders_agree _ _ ord) in B.
    - unfold beans_of. rewrite D. cbn [mbind option_bind]. by rewrite V.
    - apply Forall2_fmap_l, Forall_Forall2_diag, Forall_forall. intros b _. exact (seen_directive_ok b). }
  split; [|exact H1]. split.
  { intros Em. destruct (H1 Em) as (bs&ws&_&_&?&_). by exists bs, ws. }
  intros (bs&ws&B). destruct E as [?|[e Ee]]; [done|]. exfalso.
  destruct (C55_traced env _ _ J2 (ru_hs u) (ru_sources u) ns read_config code spec (ru_so u) p m Hl Z Hc) as [n H].
  unfold written in B. rewrite (unplaced_book _ HLb) in B. apply (orders_agree _ _ (or_accounts (ru_hs u n))) in B; [|done..].
  destruct (H _ _ B) as (vs&Hvs&_).
  pose proof (C53_outcome _ _ _ _ _ _ _ (load_healthy env _ _ J2 _ _ _ _ _ _ _ _ _ Hl)) as Hout.
  unfold outcome_shown in Hout. rewrite Ee in Hout. destruct Hout as (_&_&_&_&Hn&_). congruence.
Qed.

(** ** Premises about the library, for all of the following *)
Context (po : poptions).
Notation L := (env_booking env po).
Context (HL : lib_ok L) (He : lib_ext L) (Hb : lib_blind L).
(** Ledgers with the options [po]. *)
Definition loaded_as (ds : list directive) (m : loaded) : Prop := ∃ p u, pa_options p = po ∧ written p = ds ∧ loaded_from p u m.

Lemma as_books ds m ord : (∀ m, ord m ≡ₚ map_to_list m) → loaded_as ds m →
  (l_error m = None ↔ ∃ bs ws, book L ord (po_booking_method po) ds = BookSuccess bs ws) ∧
  (l_error m = None → ∃ bs ws cs o, book L ord (po_booking_method po) ds = BookSuccess bs ws ∧ beans_of m = Some (Beans cs o) ∧ Forall2 directive_seen cs bs).
Proof using He Hb. clear HL. intros Ho (p&u&E&<-&Hl). subst po. by eapply loaded_books. Qed.
Notation ord := (map_to_list : gmap string (account P) → list (string * account P)).
Notation perm := (λ m, Permutation_refl _).

(** Two ledgers which differ in annotations only: both are loaded without an error or none,
    and with filters which do not ask for payees and narrations the user sees the same
    amounts of them. *)
Theorem C104_loaded ds ds' m m' : bare <$> ds = bare <$> ds' → loaded_as ds m → loaded_as ds' m' →
  (l_error m = None ↔ l_error m' = None) ∧
  (l_error m = None → ∃ b b', beans_of m = Some b ∧ beans_of m' = Some b' ∧
     ∀ filters, Forall plain_filter filters → same_inventories filters b b' ∧ same_amounts filters b b').
Proof using He Hb.
  clear HL. intros Hds Hm Hm'. destruct (as_books ds m ord perm Hm) as [E0 S0], (as_books _ m' ord perm Hm') as [E1 S1].
  pose proof (C104_annotations L ord (po_booking_method po) ds ds' Hb Hds) as HB.
  assert (l_error m = None ↔ l_error m' = None) as E.
  { rewrite E0, E1. split; intros (bs&ws&B); rewrite B in HB; [destruct (book L ord _ ds') as [b w|es|w]|destruct (book L ord _ ds) as [b w|es|w]]; try done; by exists b, w. }
  split; [exact E|]. intros Em. destruct (S0 Em) as (bs&ws&cs&o&B0&V0&D0), (S1 (proj1 E Em)) as (bs1&ws1&cs1&o1&B1&V1&D1).
  exists (Beans cs o), (Beans cs1 o1). split; [done|]. split; [done|]. intros filters Hf. split; intros co co' x x' Hco Hco'.
  - by eapply (C104_reports L ord (po_booking_method po) ds ds' bs ws bs1 ws1 cs cs1 co co' o o1 filters).
  - by eapply (C104_reports L ord (po_booking_method po) ds ds' bs ws bs1 ws1 cs cs1 co co' o o1 filters).
Qed.

(** Two sets of books in one ledger: it is loaded without an error exactly if both of them
    are, and with filters which let only accounts of one of them pass the user sees the
    same of the whole ledger and of this one alone. *)
Theorem C105_loaded mine side ds m m1 m2 : lib_local L → two_books mine side ds →
  loaded_as ds m → loaded_as (books side true ds) m1 → loaded_as (books side false ds) m2 →
  (l_error m = None ↔ l_error m1 = None ∧ l_error m2 = None) ∧
  (l_error m = None → ∃ b b1 b2, beans_of m = Some b ∧ beans_of m1 = Some b1 ∧ beans_of m2 = Some b2 ∧
     ∀ filters s, (∀ it, Forall (λ f : citem → bool, f it = true) filters → ∃ a, it_acc it = Some a ∧ mine a = s) →
       same_inventories filters b (if s then b1 else b2) ∧ same_journals filters b (if s then b1 else b2)).
Proof using HL He Hb.
  intros Hloc H2 Hm H1 H2'. destruct (as_books ds m ord perm Hm) as [E0 S0], (as_books _ m1 ord perm H1) as [E1 S1], (as_books _ m2 ord perm H2') as [E2 S2].
  assert (l_error m = None ↔ l_error m1 = None ∧ l_error m2 = None) as E by (rewrite E0, E1, E2; exact (C105_separate L HL Hloc ord perm (po_booking_method po) mine side ds H2)).
  split; [exact E|]. intros Em. destruct (proj1 E Em) as [Em1 Em2].
  destruct (S0 Em) as (bs&ws&cs&o&B0&V0&D0), (S1 Em1) as (bs1&ws1&cs1&o1&B1&V1&D1), (S2 Em2) as (bs2&ws2&cs2&o2&B2&V2&D2).
  exists (Beans cs o), (Beans cs1 o1), (Beans cs2 o2). split; [done|]. split; [done|]. split; [done|]. intros filters s Hf. destruct s.
  - split; intros co co' x x' Hco Hco'.
    + by eapply (C105_reports L HL Hloc ord perm (po_booking_method po) mine side true ds bs ws bs1 ws1 cs cs1 co co' o o1 filters).
    + by eapply (C105_reports L HL Hloc ord perm (po_booking_method po) mine side true ds bs ws bs1 ws1 cs cs1 co co' o o1 filters).
  - split; intros co co' x x' Hco Hco'.
    + by eapply (C105_reports L HL Hloc ord perm (po_booking_method po) mine side false ds bs ws bs2 ws2 cs cs2 co co' o o2 filters).
    + by eapply (C105_reports L HL Hloc ord perm (po_booking_method po) mine side false ds bs ws bs2 ws2 cs cs2 co co' o o2 filters).
Qed.

(** Two ledgers which differ in the order of transactions: both are loaded without an error
    or none, and all inventories are the same. *)
Theorem C106_loaded same ds ds' m m' : reorders L same → reordered ds ds' → loaded_as ds m → loaded_as ds' m' →
  (l_error m = None ↔ l_error m' = None) ∧
  (l_error m = None → ∃ b b', beans_of m = Some b ∧ beans_of m' = Some b' ∧ ∀ filters, same_inventories filters b b').
Proof using HL He Hb.
  intros HR Hr Hm Hm'. destruct (as_books ds m ord perm Hm) as [E0 S0], (as_books _ m' ord perm Hm') as [E1 S1].
  assert (l_error m = None ↔ l_error m' = None) as E by (rewrite E0, E1; by eapply C106_refused).
  split; [exact E|]. intros Em. destruct (S0 Em) as (bs&ws&cs&o&B0&V0&D0), (S1 (proj1 E Em)) as (bs1&ws1&cs1&o1&B1&V1&D1).
  exists (Beans cs o), (Beans cs1 o1). split; [done|]. split; [done|]. intros filters co co' inv inv' Hco Hco' Hi Hi' acc cur.
  by eapply (C106_reports L same ord (po_booking_method po) ds ds' bs ws bs1 ws1 cs cs1 co co' o o1 filters inv inv').
Qed.

(** Two ledgers which differ in the names of accounts. *)
Theorem C107_loaded r ds m m' : lib_nameless L → keeps_hierarchy r ds → loaded_as ds m → loaded_as (rename r <$> ds) m' →
  (l_error m = None ↔ l_error m' = None) ∧
  (l_error m = None → ∃ b b', beans_of m = Some b ∧ beans_of m' = Some b' ∧
     ∀ filters filters', Forall2 (λ (f f' : citem → bool), ∀ it, f' (rename_item r it) = f it) filters filters' →
       renamed_inventories r (ds ≫= names_of) filters filters' b b' ∧ renamed_journals r filters filters' b b').
Proof using HL He Hb.
  intros Hn Hk Hm Hm'. destruct (as_books ds m ord perm Hm) as [E0 S0], (as_books _ m' ord perm Hm') as [E1 S1].
  pose proof (C107_renamed L HL Hn ord ord perm perm (po_booking_method po) r ds Hk) as HB.
  assert (l_error m = None ↔ l_error m' = None) as E.
  { rewrite E0, E1. split; intros (bs&ws&B).
    - rewrite B in HB. by eexists _, _.
    - destruct (book L ord _ ds) as [bs0 ws0|es|w] eqn:B0; [by exists bs0, ws0| |]; [destruct HB as (?&?&HB&_)|destruct HB as [? HB]]; congruence. }
  split; [exact E|]. intros Em. destruct (S0 Em) as (bs&ws&cs&o&B0&V0&D0), (S1 (proj1 E Em)) as (bs1&ws1&cs1&o1&B1&V1&D1).
  exists (Beans cs o), (Beans cs1 o1). split; [done|]. split; [done|]. intros filters filters' Hf. split; intros co co' x x' Hco Hco'.
  - by eapply (C107_reports L HL Hn ord ord perm perm (po_booking_method po) r ds bs ws bs1 ws1 cs cs1 co co' o o1 filters filters').
  - by eapply (C107_reports L HL Hn ord ord perm perm (po_booking_method po) r ds bs ws bs1 ws1 cs cs1 co co' o o1 filters filters').
Qed.

(** A ledger, and the same without some of what only checks or comments. *)
Theorem C108_loaded gone ds m m' : lib_local L →
  (∀ i d, ds !! i = Some d → gone i = true → comment_only d ∨ check_only ds i d) →
  loaded_as ds m → loaded_as (without gone ds) m' → l_error m = None →
  l_error m' = None ∧ ∃ b b', beans_of m = Some b ∧ beans_of m' = Some b' ∧
    ∀ filters, same_inventories filters b b' ∧ same_journals filters b b'.
Proof using HL He Hb.
  intros Hloc Hg Hm Hm' Em. destruct (as_books ds m ord perm Hm) as [E0 S0], (as_books _ m' ord perm Hm') as [E1 S1].
  destruct (S0 Em) as (bs&ws&cs&o&B0&V0&D0). destruct (C108_left_out L HL Hloc ord perm (po_booking_method po) gone ds bs ws Hg B0) as (bs'&ws'&B'&_).
  assert (l_error m' = None) as Em' by (apply E1; by exists bs', ws'). split; [done|]. destruct (S1 Em') as (bs1&ws1&cs1&o1&B1&V1&D1).
  exists (Beans cs o), (Beans cs1 o1). split; [done|]. split; [done|]. intros filters. split; intros co co' x x' Hco Hco'.
  - by eapply (C108_reports L HL Hloc ord perm (po_booking_method po) gone ds bs ws bs1 ws1 cs cs1 co co' o o1 filters).
  - by eapply (C108_reports L HL Hloc ord perm (po_booking_method po) gone ds bs ws bs1 ws1 cs cs1 co co' o o1 filters).
Qed.
End System.
Print Assumptions C104_loaded.
Print Assumptions C105_loaded.
Print Assumptions C106_loaded.
Print Assumptions C107_loaded.
Print Assumptions C108_loaded.

(** * Samples *)

(** A ledger of these directives, from place [n] of the file on. *)
Definition w_parsed (n : nat) (l : list (Z * pvariant)) : parsed :=
  Parsed (imap (λ i x, PDirective (Span 0 (n + 100 * i) (n + 100 * i + 99)) (day x.1) no_metadata x.2) l) (pa_options v_parsed) [].
Definition w_move (n : nat) (a b : string) (x : Z) : pvariant :=
  PVTransaction FAsterisk (Some "Shop") None [parsed_posting (n + 10) a (Dec x 0); parsed_posting (n + 20) b (Dec (- x) 0)].
Definition w_error (p : parsed) : option bool := p_seen (λ m, match l_error m with None => true | _ => false end) (p_load None (Healthy (inl p))).
Definition w_booked (p : parsed) : list bdirective :=
  match book_with sample_env p (λ _, sample_orders) 0 (from_directive <$> pa_directives p) with BookSuccess bs _ => bs | _ => [] end.
Definition w_small (p : parsed) : bool :=
  Nat.leb (length (pa_directives p)) 20 &&
  forallb (λ d, match pdr_variant d with PVTransaction _ _ _ ps => Nat.leb (length ps) 2 | _ => true end) (pa_directives p).
Notation w_loaded := (loaded_as sample_env (p_env None) s_read id (λ _ _, true) (pa_options v_parsed)).
Lemma w_loads p : pa_plugins p = [] → pa_options p = pa_options v_parsed → w_small p = true → w_error p = Some true →
  forallb (λ b, valid_date (b_date b) && forallb (λ q, match p_cost q with Some c => valid_date (c_date c) | None => true end) (postings_of b)) (w_booked p) = true →
  ∃ m, w_loaded (written p) m ∧ l_error m = None.
Proof.
  intros Hp Ho Hs He Hd. pose proof C89_loaded_example as (U&_). unfold w_error, p_seen in He.
  destruct (p_load None (Healthy (inl p))) as [|[m|]] eqn:E; [done| |done]. injection He as He.
  exists m. split; [|by destruct (l_error m)]. exists p, run1. split; [done|]. split; [done|]. split; [exact U|]. split; [done|]. split; [|split].
  - apply andb_true_iff in Hs as [H1 H2]. apply Nat.leb_le in H1. split; [unfold fits; lia|]. intros d f py n ps Hin Ev.
    rewrite forallb_forall in H2. specialize (H2 d (proj1 (elem_of_list_In _ _) Hin)). rewrite Ev in H2. apply Nat.leb_le in H2. unfold fits. lia.
  - intros n bs ws H. assert (bs = w_booked p) as ->; [|by apply dates_checked].
    unfold w_booked. change (book_with sample_env p (λ _, sample_orders) 0) with (book_with sample_env p (ru_hs run1) n). by rewrite H.
  - exact E.
Qed.

Definition w_mine : list (Z * pvariant) :=
  [ (1%Z, PVOpen "Assets:Bank" [] None); (1%Z, PVOpen "Assets:Bank:Sub" [] None); (1%Z, PVOpen "Equity:Opening" [] None);
    (2%Z, PVPad "Assets:Bank" "Equity:Opening"); (3%Z, w_move 400 "Assets:Bank:Sub" "Equity:Opening" 3); (3%Z, w_move 500 "Assets:Bank" "Assets:Bank:Sub" (-1));
    (4%Z, PVBalance "Assets:Bank" (Dec 10 0) "USD" None); (5%Z, PVBalance "Assets:Bank:Sub" (Dec 4 0) "USD" None) ].
Definition w_noted : list (Z * pvariant) :=
  take 5 w_mine ++ [(3%Z, PVTransaction FExclamation None (Some "moved") [parsed_posting 1 "Assets:Bank" (Dec (-1) 0); parsed_posting 2 "Assets:Bank:Sub" (Dec 1 0)])] ++ drop 6 w_mine.
Definition w_yours : list (Z * pvariant) :=
  [ (1%Z, PVOpen "Assets:Bank2" [] None); (1%Z, PVOpen "Expenses:Food" [] None); (4%Z, w_move 80 "Expenses:Food" "Assets:Bank2" 7); (5%Z, PVBalance "Assets:Bank2" (Dec (-7) 0) "USD" None) ].
Definition w_all : list (Z * pvariant) := (zip w_yours w_mine ≫= λ x, [x.1; x.2]) ++ drop (length w_yours) w_mine.
Definition w_is_mine (a : string) : bool := negb (bool_decide (a ∈ ["Assets:Bank2"; "Expenses:Food"])).
Definition w_side (d : directive) : bool := match names_of d with a :: _ => w_is_mine a | [] => true end.
Definition w_swapped : list (Z * pvariant) :=
  take 4 w_mine ++ [(3%Z, w_move 7 "Assets:Bank" "Assets:Bank:Sub" (-1)); (3%Z, w_move 60 "Assets:Bank:Sub" "Equity:Opening" 3)] ++ drop 6 w_mine.
Definition w_dutch : list (Z * pvariant) :=
  [ (1%Z, PVOpen "Activa:Bank" [] None); (1%Z, PVOpen "Activa:Bank:Sub" [] None); (1%Z, PVOpen "Equity:Opening" [] None);
    (2%Z, PVPad "Activa:Bank" "Equity:Opening"); (3%Z, w_move 410 "Activa:Bank:Sub" "Equity:Opening" 3); (3%Z, w_move 510 "Activa:Bank" "Activa:Bank:Sub" (-1));
    (4%Z, PVBalance "Activa:Bank" (Dec 10 0) "USD" None); (5%Z, PVBalance "Activa:Bank:Sub" (Dec 4 0) "USD" None) ].

(** Ledgers which stand in all of these relations to each other are loaded without an
    error, from other places in their files. *)
Example loaded_example :
  lib_ok sample_lib ∧ lib_ext sample_lib ∧ lib_blind sample_lib ∧ lib_local sample_lib ∧ reorders sample_lib same_units ∧ lib_nameless sample_lib ∧
  bare <$> written (w_parsed 0 w_mine) = bare <$> written (w_parsed 4 w_noted) ∧ written (w_parsed 0 w_mine) ≠ written (w_parsed 4 w_noted) ∧
  two_books w_is_mine w_side (written (w_parsed 5 w_all)) ∧
  books w_side true (written (w_parsed 5 w_all)) = written (w_parsed 0 w_mine) ∧ books w_side false (written (w_parsed 5 w_all)) = written (w_parsed 0 w_yours) ∧
  reordered (written (w_parsed 0 w_mine)) (written (w_parsed 1 w_swapped)) ∧
  keeps_hierarchy in_dutch (written (w_parsed 0 w_mine)) ∧ rename in_dutch <$> written (w_parsed 0 w_mine) = written (w_parsed 2 w_dutch) ∧
  check_only (written (w_parsed 0 w_mine)) 7 (dir 5 (dbal "Assets:Bank:Sub" 4 0 "USD")) ∧
  without (λ i, Nat.eqb i 7) (written (w_parsed 0 w_mine)) = written (w_parsed 3 (take 7 w_mine)) ∧
  Forall (λ p, ∃ m, w_loaded (written p) m ∧ l_error m = None)
    [w_parsed 5 w_all; w_parsed 0 w_mine; w_parsed 0 w_yours; w_parsed 4 w_noted; w_parsed 1 w_swapped; w_parsed 2 w_dutch; w_parsed 3 (take 7 w_mine)].
Proof.
  split; [exact sample_lib_ok|]. split; [exact sample_lib_ext|]. split; [exact sample_blind|]. split; [exact sample_local|]. split; [exact sample_reorders|]. split; [exact sample_nameless|].
  split; [vm_compute; reflexivity|]. split; [vm_compute; discriminate|].
  split; [apply two_checked; vm_compute; reflexivity|]. split; [vm_compute; reflexivity|]. split; [vm_compute; reflexivity|]. split.
  { refine (RO_swap (written (w_parsed 0 (take 4 w_mine))) _ _ (written (w_parsed 0 (drop 6 w_mine))) _ _); (eexists; split; [reflexivity|]; repeat constructor). }
  split; [apply keeps_checked; vm_compute; reflexivity|]. split; [vm_compute; reflexivity|]. split.
  { eexists. split; [reflexivity|]. intros (j&d&p&Hj&Hd&Hv&Ha&Hno). assert (pad_acc p = "Assets:Bank") as E; [|rewrite E in Ha; discriminate Ha].
    do 3 (destruct j as [|j]; [cbn in Hd; injection Hd as <-; discriminate Hv|]). destruct j as [|j]; [cbn in Hd; injection Hd as <-; cbn in Hv; by injection Hv as <-|].
    do 3 (destruct j as [|j]; [cbn in Hd; injection Hd as <-; discriminate Hv|]). lia. }
  split; [vm_compute; reflexivity|].
  repeat (constructor; [apply w_loads; vm_compute; reflexivity|]). constructor.
Qed.
