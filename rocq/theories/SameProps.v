(** Theorems that the same ledger gives the same reports, in whatever order hash maps
    list their entries. *)
From Coq Require Import Ascii QArith Sorted.
From stdpp Require Import prelude gmap strings.
From Verif Require Import DecModel LedgerTypes IsoModel JsonModel WireModel WireSpec BookModel BookLib BookSpec BookProps ReportSpec ReportSamples ReportProps SpanModel ParserModel
  JsonText SampleLib SampleLedgers WireSamples ServerModel ServerSpec ServerSamples CljModel InventoryModel InventorySpec InventoryProps ClientModel ClientSpec ClientDecode ClientSamples
  RollupModel RollupSpec RollupFacts RollupMain RollupProps FormatModel PluginModel PluginSpec LoaderModel LoaderSpec LoaderFacts LoaderProps EncodeModel SystemModel SystemFacts SystemLoad SystemSpec
  SystemErrors SystemTrace SystemProps ViewSpec ViewFacts ViewProps SameSpec SameFacts.
Local Open Scope nat_scope.

(** ** The reports of one list of postings *)

(** Missing: lots of which the costs agree, and of which one price has a point and the
    other has none. *)
Theorem C89_inventory_partial :
  ∀ ho1 ho2 booking ps, (∀ l, ho1 l ≡ₚ l) → (∀ l, ho2 l ≡ₚ l) → written_alike booking ps →
    inventory_build ho1 ps booking = inventory_build ho2 ps booking.
Proof. intros ho1 ho2 booking ps H1 H2. exact (inventory_same ho1 ho2 H1 H2 ps booking). Qed.
Print Assumptions C89_inventory_partial.

Theorem C89_journal :
  ∀ ho1 ho2 ps, (∀ l, ho1 l ≡ₚ l) → (∀ l, ho2 l ≡ₚ l) → journal_build ho1 ps = journal_build ho2 ps.
Proof. intros ho1 ho2 ps H1 H2. exact (journal_same ho1 ho2 H1 H2 ps). Qed.
Print Assumptions C89_journal.

Theorem C89_rollup_of_currency :
  ∀ ho1 ho2 inv cur, (∀ l, ho1 l ≡ₚ l) → (∀ l, ho2 l ≡ₚ l) → rollup_build ho1 inv cur = rollup_build ho2 inv cur.
Proof. intros ho1 ho2 inv cur H1 H2. exact (rollup_build_same ho1 ho2 H1 H2 inv cur). Qed.
Print Assumptions C89_rollup_of_currency.

(** Missing: several currencies held by most accounts. *)
Theorem C89_rollup_partial :
  ∀ ho1 ho2 hof1 hof2 inv cur,
    (∀ l, ho1 l ≡ₚ l) → (∀ l, ho2 l ≡ₚ l) → (∀ l, hof1 l ≡ₚ l) → (∀ l, hof2 l ≡ₚ l) → most_held inv cur →
    rollup ho1 hof1 inv = rollup ho2 hof2 inv.
Proof.
  intros ho1 ho2 hof1 hof2 inv cur H1 H2 F1 F2 Hm.
  assert (∀ hof, (∀ l, hof l ≡ₚ l) → (rollup ho1 hof inv = rollup ho1 hof1 inv)) as H.
  { intros hof F. unfold rollup. destruct (decide (holders inv cur = 0)) as [Hz|Hz].
    - assert (cur_freq inv = ∅) as ->.
      { apply map_empty. intros c. rewrite cur_freq_spec. destruct (decide (c = cur)) as [->|Hne].
        - by rewrite decide_True.
        - specialize (Hm c Hne). lia. }
      rewrite map_to_list_empty. assert (hof [] = []) as -> by (apply Permutation_nil; by symmetry).
      assert (hof1 [] = []) as -> by (apply Permutation_nil; by symmetry). done.
    - assert (∀ hof, (∀ l, hof l ≡ₚ l) → max_key (hof (map_to_list (cur_freq inv))) = Some (cur, holders inv cur)) as Hk.
      { clear hof F. intros hof F. apply max_key_unique.
        - rewrite F, elem_of_map_to_list, cur_freq_spec. by rewrite decide_False.
        - intros [c n] Hc Hne. rewrite F, elem_of_map_to_list, cur_freq_spec in Hc.
          destruct (decide _); [done|]. injection Hc as <-. cbn. apply Hm. intros ->. done. }
      by rewrite !Hk. }
  rewrite <- (H hof2 F2). unfold rollup. destruct (max_key _); [|done]. cbn. f_equal. by apply rollup_build_same.
Qed.
Print Assumptions C89_rollup_partial.

(** Two currencies, each held by two accounts. *)
Definition even_inventory : gmap string (list position) :=
  <["A" := [Position (CLong 1) "EUR" None]]> (<["B" := [Position (CLong 2) "USD" None]]> ∅).
(** "A report is the same however hash maps are ordered" is false of the inventory, when
    lots differ only in the way in which their price is written, and of rollups, when
    two currencies are held by as many accounts. *)
Theorem C89_refuted :
  (∃ ps ho1 ho2 booking, (∀ l, ho1 l ≡ₚ l) ∧ (∀ l, ho2 l ≡ₚ l) ∧
     inventory_build ho1 ps booking ≠ inventory_build ho2 ps booking) ∧
  (∃ inv ho hof1 hof2, (∀ l, ho l ≡ₚ l) ∧ (∀ l, hof1 l ≡ₚ l) ∧ (∀ l, hof2 l ≡ₚ l) ∧
     rollup ho hof1 inv ≠ rollup ho hof2 inv).
Proof.
  split.
  - exists [pst "A" (CLong 1) "HOOL" (at_cost 2023 (CLong 7) None); pst "A" (CLong 2) "HOOL" (at_cost 2023 (CDec (Dec 700 2)) None)],
      (λ l, l), (λ l, rev l), (λ _, BStrict).
    split_and!; [done|intros l; symmetry; apply Permutation_rev|].
    intros H. assert ((λ i : gmap string (list position), pos_units <$> holding i "A") <$> inventory_build (λ l, l)
      [pst "A" (CLong 1) "HOOL" (at_cost 2023 (CLong 7) None); pst "A" (CLong 2) "HOOL" (at_cost 2023 (CDec (Dec 700 2)) None)] (λ _, BStrict) =
      Some [CLong 2; CLong 1]) as H'; [rewrite H|]; vm_compute in H' || vm_compute; try done.
  - exists even_inventory, (λ l, l), (λ l, l), (λ l, rev l).
    split_and!; [done..|intros l; symmetry; apply Permutation_rev|].
    intros H. assert (((λ r : gmap string entry, bool_decide (is_Some (r !! "A"))) <$> rollup (λ l, l) (λ l, l) even_inventory) =
      ((λ r : gmap string entry, bool_decide (is_Some (r !! "A"))) <$> rollup (λ l, l) (λ l, rev l) even_inventory)) as H' by by rewrite H.
    vm_compute in H'. discriminate H'.
Qed.
Print Assumptions C89_refuted.

(** ** Loading the same ledger twice *)

Lemma put_opt_other {A} (k k' : string) (f : A → json) o : k ≠ k' → filter (λ kv : string * json, kv.1 = k) (put_opt k' f o) = [].
Proof. intros Hk. unfold put_opt. destruct o; [|done]. rewrite filter_cons_False; [done|]. cbn. congruence. Qed.
Lemma options_same {P} (h1 h2 : orders P) o k :
  k ∉ ["inferred-tolerance-default"; "documents"; "operating-currency"] →
  vget k (decode (Some "result") (put_options h1 o)) = vget k (decode (Some "result") (put_options h2 o)).
Proof.
  intros Hk. unfold put_options. rewrite !vget_decode. do 2 f_equal. unfold entries. rewrite !filter_app.
  rewrite !(put_opt_other k "inferred-tolerance-default"), !(put_opt_other k "documents"), !(put_opt_other k "operating-currency") by set_solver.
  done.
Qed.

Section System.
Context {P S : Type} (env : server_env P S) (p : parsed).
Context (ns : string → option namespace) (read_config : option cval → option (option cval)).
Context (code : nat → nat) (spec : bool → cval → bool).

(** A run: the orders of hash maps on both sides, the server's state at the start, and the
    orders of the reports. *)
Record run := Run {
  ru_jso : list json → list json; ru_jmo : list (string * json) → list (string * json);
  ru_hs : nat → orders P; ru_sources : S; ru_so : list cval → list cval; ru_co : client_orders }.
Definition some_run (u : run) : Prop :=
  (∀ l, ru_jso u l ≡ₚ l) ∧ (∀ l, ru_jmo u l ≡ₚ l) ∧ (∀ n m, or_accounts (ru_hs u n) m ≡ₚ map_to_list m) ∧ (∀ l, co_lots (ru_co u) l ≡ₚ l).
Definition loads (u : run) (m : loaded) : Prop :=
  load_beanfile env (ru_jso u) (ru_jmo u) (Healthy (inl p)) (ru_hs u) (ru_sources u) ns read_config code spec (ru_so u) = inr (Some m).

Lemma load_plain u m : some_run u → pa_plugins p = [] → loads u m →
  l_raw_xf m = None ∧ l_plugins m = [] ∧ RBook None ∈ l_asked m ∧
  l_options m = Some (decode (Some "result") (put_options (ru_hs u 3) (from_options (pa_options p)))) ∧
  (l_error m = None ∨ ∃ e, l_error m = Some (LeBooking e)).
Proof.
  intros (Hjso&Hjmo&Hacc&Hco) Hp H. apply load_healthy in H; [|done]. unfold load in H.
  apply bind_stages_cons in H as (m1 & H1 & H); [|done].
  apply first_stage_cases in H1 as (R1&R2&R3&R4&R5&H1).
  rewrite (ask_plugins env _ _ Hjmo), Hp in H1. cbn [result_of a_err a_ok] in H1. destruct H1 as (A&B&C&D).
  rewrite (ask_options env _ _ Hjmo) in B. cbn [result_of a_err a_ok] in B.
  assert (l_plugins m1 = []) as Hpl by by rewrite C.
  rewrite Hpl in D. cbn in D.
  apply bind_stages_cons in H as (m2 & H2 & H); [|done].
  apply raw_cases in H2 as (ok & Hok & ->).
  apply bind_stages_cons in H as (m3 & H3 & H); [|done].
  unfold run_phase in H3. cbn [l_plugins] in H3. rewrite Hpl in H3. change (negb (has_plugins [] false)) with true in H3. cbv iota in H3.
  injection H3 as <-.
  apply bind_stages_cons in H as (m4 & H4 & H); [|done].
  apply book_cases in H4 as (Q1&Q2&Q3&Q4&Q5&Q6&Q7&Q8); [|done]. cbn zeta in Q8.
  cbn [l_plugins l_options l_raw l_raw_xf l_asked l_booked_xf l_directives] in *.
  assert (l_error m4 = None ∨ ∃ e, l_error m4 = Some (LeBooking e)) as Q.
  { destruct (result_of _) in Q8.
    - destruct (mapM _ _) in Q8; destruct Q8 as [? ?]; [by left|right; by eexists].
    - destruct Q8 as [? ?]. right. by eexists. }
  assert (RBook None ∈ l_asked m4) as Hb by (rewrite Q7, R2; set_solver).
  destruct Q as [Q|[e Q]].
  2: { apply bind_stages_stop in H; [|congruence]. subst m. split_and!; [congruence..|right; by eexists]. }
  apply bind_stages_cons in H as (m5 & H5 & H); [|done].
  unfold run_phase in H5. rewrite Q1 in H5. change (negb (has_plugins [] true)) with true in H5. cbv iota in H5.
  injection H5 as <-.
  apply bind_stages_cons in H as (m6 & H6 & H); [|done]. cbn in H6. injection H6 as <-. cbn in H. injection H as <-.
  cbn [l_error l_raw_xf l_plugins l_asked l_options]. split_and!; [congruence..|by left].
Qed.

(** The result of booking is the same in both runs. *)
Lemma booked_same u1 u2 n1 n2 bs ws :
  some_run u1 → some_run u2 → lib_ext (env_booking env (pa_options p)) →
  book_with env p (ru_hs u1) n1 (from_directive <$> pa_directives p) = BookSuccess bs ws →
  book_with env p (ru_hs u2) n2 (from_directive <$> pa_directives p) = BookSuccess bs ws.
Proof.
  intros (_&_&H1&_) (_&_&H2&_) HL H.
  pose proof (C20_order_independent _ _ HL (or_accounts (ru_hs u1 n1)) (or_accounts (ru_hs u2 n2)) (po_booking_method (pa_options p))
    (from_directive <$> pa_directives p) (H1 n1) (H2 n2)) as HC.
  unfold book_with in *. rewrite H in HC. destruct (book _ (or_accounts (ru_hs u2 n2)) _ _); try done. by destruct HC as [<- <-].
Qed.

(** The same ledger without plugins, loaded twice: it loads both times or neither time;
    if it loads, the directives which the reports use are the same, and so are the
    reports.  Missing: see [C89_inventory_partial]. *)
Theorem C89_loaded_partial u1 u2 m1 m2 :
  some_run u1 → some_run u2 → pa_plugins p = [] → lib_ext (env_booking env (pa_options p)) → countable_ledger p →
  (∀ n bs ws, book_with env p (ru_hs u1) n (from_directive <$> pa_directives p) = BookSuccess bs ws → Forall dates_valid bs) →
  loads u1 m1 → loads u2 m2 →
  (l_error m1 = None ↔ l_error m2 = None) ∧
  (l_error m1 = None → ∃ b1 b2, beans_of m1 = Some b1 ∧ beans_of m2 = Some b2 ∧ be_directives b1 = be_directives b2 ∧
     ∀ filters,
       journal (ru_co u1) b1 filters = journal (ru_co u2) b2 filters ∧
       (written_alike (λ _, BStrict) (xf_postings (be_directives b1)) →
        inventory (ru_co u1) b1 filters = inventory (ru_co u2) b2 filters ∧
        balances (ru_co u1) b1 filters = balances (ru_co u2) b2 filters ∧
        income_statement (ru_co u1) b1 filters = income_statement (ru_co u2) b2 filters)).
Proof.
  intros U1 U2 Hp HL Hc Hd L1 L2.
  destruct (load_plain u1 m1 U1 Hp L1) as (X1&Y1&Z1&O1&E1). destruct (load_plain u2 m2 U2 Hp L2) as (X2&Y2&Z2&O2&E2).
  assert (∀ u m v w, some_run u → some_run v → loads u m → loads v w → l_raw_xf m = None → l_plugins m = [] → RBook None ∈ l_asked w →
    (l_error w = None ∨ ∃ e, l_error w = Some (LeBooking e)) → l_error m = None → l_error w = None) as Hone.
  { intros u m v w U V Lu Lv Xm Ym Zw Ew Em.
    pose proof U as (J1&J2&J3&_). pose proof V as (K1&K2&K3&_). destruct Ew as [?|[e Ew]]; [done|].
    destruct (loaded_seen env _ _ J1 J2 (ru_hs u) (ru_sources u) ns read_config code spec (ru_so u) p J3 m Lu Em) as (n&l&bs&ws&Ht&Hb&_).
    { by rewrite Ym. } { done. } { by rewrite Xm. }
    unfold to_be_booked in Ht. rewrite Xm in Ht. subst l.
    destruct (C55_traced env _ _ K2 (ru_hs v) (ru_sources v) ns read_config code spec (ru_so v) p w Lv Zw Hc) as [n' H].
    destruct (H _ _ (booked_same _ _ n n' _ _ U V HL Hb)) as (vs&Hvs&_).
    pose proof (C53_outcome _ _ _ _ _ _ _ (load_healthy env _ _ K2 _ _ _ _ _ _ _ _ _ Lv)) as Ho.
    unfold outcome_shown in Ho. rewrite Ew in Ho. destruct Ho as (_&_&_&_&Hn&_). congruence. }
  assert (l_error m1 = None → l_error m2 = None) as H12 by by eapply (Hone u1 m1 u2 m2).
  split; [split; [done|by eapply (Hone u2 m2 u1 m1)]|]. intros Em1. pose proof (H12 Em1) as Em2.
  pose proof U1 as (J1&J2&J3&J4). pose proof U2 as (K1&K2&K3&K4).
  destruct (loaded_seen env _ _ J1 J2 (ru_hs u1) (ru_sources u1) ns read_config code spec (ru_so u1) p J3 m1 L1 Em1) as (n1&l1&bs1&ws1&T1&B1&S1).
  { by rewrite Y1. } { done. } { by rewrite X1. }
  destruct (loaded_seen env _ _ K1 K2 (ru_hs u2) (ru_sources u2) ns read_config code spec (ru_so u2) p K3 m2 L2 Em2) as (n2&l2&bs2&ws2&T2&B2&S2).
  { by rewrite Y2. } { done. } { by rewrite X2. }
  unfold to_be_booked in T1, T2. rewrite X1 in T1. rewrite X2 in T2. subst l1 l2.
  pose proof (booked_same _ _ n1 n2 _ _ U1 U2 HL B1) as B2'. rewrite B2 in B2'. injection B2' as -> ->.
  specialize (Hd _ _ _ B1). destruct (S1 Hd) as (vs1&ds1&D1&V1&->), (S2 Hd) as (vs2&ds2&D2&V2&->).
  assert (beans_of m1 = Some (Beans (seen_directive <$> bs1) (default VNil (l_options m1)))) as Hb1.
  { unfold beans_of. rewrite D1. cbn [mbind option_bind]. by rewrite V1. }
  assert (beans_of m2 = Some (Beans (seen_directive <$> bs1) (default VNil (l_options m2)))) as Hb2.
  { unfold beans_of. rewrite D2. cbn [mbind option_bind]. by rewrite V2. }
  eexists _, _. split; [exact Hb1|]. split; [exact Hb2|]. split; [done|].
  assert (∀ k, k ∈ ["booking"; "name-assets"; "name-liabilities"; "name-income"; "name-expenses"] →
    vget k (default VNil (l_options m1)) = vget k (default VNil (l_options m2))) as Ho.
  { intros k Hk. rewrite O1, O2. cbn [default]. apply options_same. set_solver. }
  intros filters. split; [by apply C89_journal|]. intros Hw. cbn [be_directives] in Hw.
  assert (∀ fs, inventory (ru_co u1) (Beans (seen_directive <$> bs1) (default VNil (l_options m1))) fs =
                inventory (ru_co u2) (Beans (seen_directive <$> bs1) (default VNil (l_options m2))) fs) as Hi.
  { intros fs. unfold inventory, default_booking. cbn [be_options be_directives]. rewrite (Ho "booking") by set_solver.
    destruct (match vget "booking" _ with Some _ => _ | None => _ end); [|done].
    change (selected (Beans (seen_directive <$> bs1) (default VNil (l_options m1))) fs) with (selected (Beans (seen_directive <$> bs1) (default VNil (l_options m2))) fs).
    apply C89_inventory_partial; [done..|].
    intros x y Hx Hy Ha Hcur _. apply Hw; [..|done|done|done].
    - by apply elem_of_list_filter in Hx as [_ ?].
    - by apply elem_of_list_filter in Hy as [_ ?]. }
  split; [apply Hi|]. unfold balances, income_statement, option_name. cbn [be_options].
  rewrite (Ho "name-assets"), (Ho "name-liabilities"), (Ho "name-income"), (Ho "name-expenses") by set_solver.
  split; apply Hi.
Qed.
End System.
Print Assumptions C89_loaded_partial.

(** * Samples *)

Definition written_alikeb (ps : list cposting) : bool :=
  forallb (λ p, forallb (λ q, implb (bool_decide (equal_cost (cp_cost p) (cp_cost q))) (bool_decide (cost_kind (cp_cost p) = cost_kind (cp_cost q)))) ps) ps.
Lemma written_alike_checked booking ps : written_alikeb ps = true → written_alike booking ps.
Proof.
  unfold written_alikeb. rewrite forallb_forall. intros H p q Hp Hq _ _ _ He. apply elem_of_list_In in Hp, Hq.
  specialize (H p Hp). rewrite forallb_forall in H. specialize (H q Hq).
  rewrite (bool_decide_true _ He) in H. cbn [implb] in H. by apply bool_decide_eq_true in H.
Qed.
Lemma only_held inv (curs : list string) cur :
  forallb (λ e : string * list position, forallb (λ p, bool_decide (pos_cur p ∈ curs)) e.2) (map_to_list inv) = true →
  (∀ c, c ∈ curs → c ≠ cur → holders inv c < holders inv cur) → 0 < holders inv cur → most_held inv cur.
Proof.
  intros H Hc H0 c Hne. destruct (decide (c ∈ curs)) as [?|Hn]; [by apply Hc|].
  assert (holders inv c = 0) as ->; [|done]. unfold holders.
  assert (filter (λ e : string * list position, Exists (λ p, pos_cur p = c) e.2) (map_to_list inv) = []) as ->; [|done].
  destruct (filter _ (map_to_list inv)) as [|e l] eqn:E; [done|].
  assert (e ∈ e :: l) as He by left. rewrite <- E in He. apply elem_of_list_filter in He as [Hx He].
  rewrite forallb_forall in H. specialize (H e (proj1 (elem_of_list_In _ _) He)). rewrite forallb_forall in H.
  apply Exists_exists in Hx as (q&Hq&Hqc). specialize (H q (proj1 (elem_of_list_In _ _) Hq)). apply bool_decide_eq_true in H. congruence.
Qed.
(** The postings and the inventory of [InventoryProps.v] and [RollupProps.v]. *)
Example C89_example :
  written_alike sample_booking sample_postings ∧
  (∃ inv, inventory_build (λ l, l) sample_postings sample_booking = Some inv ∧ length (holding inv "A") = 4) ∧
  most_held rollup_inventory "EUR".
Proof.
  split_and!.
  - apply written_alike_checked. by vm_compute.
  - exists sample_inventory. split; [|by vm_compute]. rewrite <- (proj1 sample_builds). apply C89_inventory_partial; [done| |].
    + intros l. symmetry. apply Permutation_rev.
    + apply written_alike_checked. by vm_compute.
  - apply (only_held _ ["EUR"; "USD"]); [by vm_compute| |by vm_compute; lia].
    intros c Hc Hne. assert (c = "USD") as -> by set_solver. by vm_compute; lia.
Qed.

(** The ledger of [ViewProps.v], with maps in another order the second time. *)
Definition run1 : run := Run (λ l, l) (λ l, l) (λ _, sample_orders) sample_start (λ l, l) plain_orders.
Definition run2 : run :=
  Run (λ l, rev l) (λ l, rev l) (λ _, Orders _ reverse_ord plain_order map_to_list) sample_start (λ l, rev l) (ClientOrders (λ l, rev l) (λ l, rev l)).
Example C89_loaded_example :
  some_run run1 ∧ some_run run2 ∧ pa_plugins v_parsed = [] ∧ lib_ext (env_booking sample_env (pa_options v_parsed)) ∧ countable_ledger v_parsed ∧
  (∀ n bs ws, book_with sample_env v_parsed (ru_hs run1) n (from_directive <$> pa_directives v_parsed) = BookSuccess bs ws → Forall dates_valid bs) ∧
  (∃ m1, loads sample_env v_parsed (p_env None) s_read id (λ _ _, true) run1 m1 ∧ l_error m1 = None) ∧
  (∃ m2, loads sample_env v_parsed (p_env None) s_read id (λ _ _, true) run2 m2).
Proof.
  assert (∀ A (l : list A), rev l ≡ₚ l) as Hr by (intros A l; symmetry; apply Permutation_rev).
  split; [split_and!; try done; intros; apply sample_ord_perm|].
  split; [split_and!; try apply Hr; intros; apply reverse_ord_perm|].
  split; [done|]. split; [exact sample_lib_ext|]. split; [apply C88_loaded_example|].
  split.
  - intros n bs ws H. assert (bs = v_booked) as ->; [|apply C88_loaded_example].
    unfold v_booked. change (book_with sample_env v_parsed (λ _, sample_orders) 0) with (book_with sample_env v_parsed (ru_hs run1) n).
    by rewrite H.
  - split.
    + destruct C88_loaded_example as (H&_). unfold p_seen in H.
      change (load_beanfile sample_env id id (Healthy (inl v_parsed)) (λ _, sample_orders) sample_start (p_env None) s_read id (λ _ _, true) id)
        with (p_load None (Healthy (inl v_parsed))) in *.
      destruct (p_load None (Healthy (inl v_parsed))) as [|[m|]] eqn:E; [done| |done].
      exists m. split; [exact E|]. injection H as H _ _. by destruct (l_error m).
    + exact (C73_always_loads sample_env (λ l, rev l) (λ l, rev l) (λ l, Hr _ l) (λ l, Hr _ l) (ru_hs run2) sample_start (p_env None) s_read id (λ _ _, true) (λ l, rev l) (inl v_parsed)).
Qed.
