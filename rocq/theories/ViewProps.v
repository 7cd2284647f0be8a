(** Theorems about what the user's reports show of the booked ledger. *)
From Coq Require Import Ascii QArith Qabs Sorted.
From stdpp Require Import prelude gmap strings.
From Verif Require Import DecModel LedgerTypes IsoModel JsonModel WireModel WireSpec WireFacts BookModel BookLib BookSpec BookProps ReportSpec ReportSamples ReportProps SpanModel ParserModel
  JsonText SampleLib SampleLedgers WireSamples ServerModel ServerSpec ServerFacts ServerSamples CljModel InventoryModel InventorySpec InventoryProps ClientModel ClientSpec ClientDecode ClientSamples FormatModel PluginModel PluginSpec LoaderModel
  LoaderSpec LoaderFacts LoaderProps EncodeModel SystemModel SystemFacts SystemLoad SystemSpec SystemErrors SystemTrace SystemProps ViewSpec ViewFacts.
Local Open Scope nat_scope.

(** * C87 *)

(** Whatever the client has read of the booked directives: an account in the user's
    inventory has the units which the server booked to it and which the filters let
    pass. *)
Theorem C87_inventory co ds bs o filters inv :
  (∀ l, co_lots co l ≡ₚ l) → Forall2 directive_seen ds bs → inventory co (Beans ds o) filters = Some inv →
  (∀ acc cur, held cur (holding inv acc) == entry_units cur (to_account acc (entries_selected filters bs)))%Q ∧
  (∀ cur, held_in_all cur inv == entry_units cur (entries_selected filters bs))%Q.
Proof.
  intros Hco Hs Hi. pose proof (selected_entries ds o bs filters Hs) as He. unfold inventory in Hi.
  destruct (default_booking _) as [dflt|]; [|done]. split.
  - intros acc cur. rewrite (C36_units_conserved _ _ _ _ Hco Hi). by apply posted_entries.
  - intros cur. rewrite (held_in_all_posted _ _ _ _ cur Hco Hi). by apply running_entries.
Qed.
Print Assumptions C87_inventory.

(** The rows of the user's journal are the booked postings which the filters let pass,
    in order; the balance of a row has the units of these up to it. *)
Theorem C87_journal co ds bs o filters l :
  (∀ l, co_lots co l ≡ₚ l) → Forall2 directive_seen ds bs → journal co (Beans ds o) filters = Some l →
  let es := entries_selected filters bs in
  length l = length es ∧
  ∀ n e, es !! n = Some e → ∃ row bal, l !! n = Some (row, bal) ∧
    item_of_posting row = e.1 ∧ num_seen (cp_units row) (p_units e.2) ∧
    ∀ cur, (held cur bal == entry_units cur (take (S n) es))%Q.
Proof.
  intros Hco Hs Hj es. pose proof (selected_entries ds o bs filters Hs) as He.
  destruct (C45_journal _ _ _ Hco Hj) as [Hl H]. split; [by rewrite Hl, (Forall2_length _ _ _ He)|].
  intros n e Hn. destruct (Forall2_lookup_r _ _ _ n e He Hn) as (p&Hp&Hi&Hse).
  destruct (H n p Hp) as (bal&Hn'&_&_&Hb). eexists _, bal. split; [exact Hn'|]. split_and!; [exact Hi|apply Hse|].
  intros cur. rewrite Hb. apply running_entries. by apply Forall2_take.
Qed.
Print Assumptions C87_journal.

(** * C88 *)

Lemma assertion_seen {P} (L : booking_lib P) ord (Hord : ∀ m, ord m ≡ₚ map_to_list m) (HL : lib_ok L) opt ds bs ws n b bb :
  book L ord opt ds = BookSuccess bs ws → bs !! n = Some b → b_variant b = BVBalance bb →
  let bal := bb_raw bb in
  divided_by (b_date b) n bs →
  (∀ j, j < n → unconsumed bs n j = false) →
  (∀ k p m, fills bs k n p m bal → BookSpec.under (bal_acc bal) (pad_source p) = false) →
  let seen := entry_units (bal_cur bal) (entries_selected [f_sub_acc [Some (bal_acc bal)]; date_lt (b_date b)] bs) in
  (Qabs (dec_value (bal_units bal) - seen) <= balance_tolerance (lib_multiplier L) bal ∨ seen == dec_value (bal_units bal))%Q.
Proof.
  intros Hb Hn Hv bal Hd Hu Hf seen.
  pose proof (C15_balances_hold_partial _ L ord Hord HL opt ds bs ws n b bb Hb Hn Hv) as H. unfold assertion_met in H. fold bal in H.
  rewrite visible_all in H; [|by apply lookup_lt_Some in Hn; lia|done].
  unfold seen. rewrite (before_day _ n) by done.
  destruct H as [[_ H]|(k&p&m&Hk&H)]; [by left|right]. rewrite (Hf _ _ _ Hk) in H. exact H.
Qed.

(** When the ledger is in order, a passed balance assertion is what the user sees: the
    units in all accounts under the asserted one before the day of the assertion, both
    in the inventory and at the end of the journal.  Missing from the full statement:
    no pad before the assertion is filled after it, and the source of a pad which it
    fills is not under the asserted account. *)
Theorem C88_asserted_partial {P} (L : booking_lib P) ord opt ds bs ws n b bb cs co o :
  (∀ m, ord m ≡ₚ map_to_list m) → lib_ok L → (∀ l, co_lots co l ≡ₚ l) → in_ledger_order ds →
  book L ord opt ds = BookSuccess bs ws → bs !! n = Some b → b_variant b = BVBalance bb →
  let bal := bb_raw bb in
  (∀ j, j < n → unconsumed bs n j = false) →
  (∀ k p m, fills bs k n p m bal → BookSpec.under (bal_acc bal) (pad_source p) = false) →
  Forall2 directive_seen cs bs →
  let filters := [f_sub_acc [Some (bal_acc bal)]; date_lt (b_date b)] in
  let met (seen : Q) := (Qabs (dec_value (bal_units bal) - seen) <= balance_tolerance (lib_multiplier L) bal ∨
                         seen == dec_value (bal_units bal))%Q in
  (∀ inv, inventory co (Beans cs o) filters = Some inv → met (held_in_all (bal_cur bal) inv)) ∧
  (∀ l, journal co (Beans cs o) filters = Some l → met (held (bal_cur bal) (default [] (last l.*2)))).
Proof.
  intros Hord HL Hco Ho Hb Hn Hv bal Hu Hf Hs filters met.
  assert (divided_by (b_date b) n bs) as Hd.
  { eapply order_divides; [by eapply C01_output_mirrors_ledger|done..]. }
  pose proof (assertion_seen L ord Hord HL opt ds bs ws n b bb Hb Hn Hv Hd Hu Hf) as H. fold bal filters in H. cbv zeta in H.
  split.
  - intros inv Hi. unfold met. destruct (C87_inventory _ _ _ _ _ _ Hco Hs Hi) as [_ Hc]. by rewrite Hc.
  - intros l Hl. unfold met. destruct (C87_journal _ _ _ _ _ _ Hco Hs Hl) as [Hlen Hr]. set (es := entries_selected filters bs) in *.
    assert (held (bal_cur bal) (default [] (last l.*2)) == entry_units (bal_cur bal) es)%Q as ->; [|exact H].
    rewrite last_lookup, fmap_length, Hlen. destruct (decide (es = [])) as [E|E].
    { rewrite E in Hlen |- *. apply nil_length_inv in Hlen as ->. reflexivity. }
    destruct (lookup_lt_is_Some_2 es (pred (length es))) as [e He]; [destruct es; [done|cbn; lia]|].
    destruct (Hr _ _ He) as (row&bl&Hrow&_&_&Hc). rewrite list_lookup_fmap, Hrow. change (default [] (snd <$> Some (row, bl))) with bl. rewrite Hc.
    replace (S (pred (length es))) with (length es) by (destruct es; [done|cbn; lia]). by rewrite firstn_all.
Qed.
Print Assumptions C88_asserted_partial.

(** * From the text of the ledger to the reports *)

Section System.
Context {P S : Type} (env : server_env P S).
Context (jso : list json → list json) (jmo : list (string * json) → list (string * json)).
Context (Hjso : ∀ l, jso l ≡ₚ l) (Hjmo : ∀ l, jmo l ≡ₚ l).
Context (hs : nat → orders P) (sources : S).
Context (ns : string → option namespace) (read_config : option cval → option (option cval)).
Context (code : nat → nat) (spec : bool → cval → bool) (so : list cval → list cval).
Context (p : parsed) (Hacc : ∀ n m, or_accounts (hs n) m ≡ₚ map_to_list m).
Notation load_beanfile := (load_beanfile env jso jmo (Healthy (inl p)) hs sources ns read_config code spec so).

(** What the server books: the ledger, or what it reads of the directives which the
    plugins have made of it. *)
Definition to_be_booked (m : loaded) (l : list directive) : Prop :=
  match l_raw_xf m with
  | None => l = from_directive <$> pa_directives p
  | Some xs => mapM (get_directive (env_dec_parse env)) (encode jso jmo <$> xs) = Some l
  end.

Lemma loaded_seen m :
  load_beanfile = inr (Some m) → l_error m = None → of_phase true (l_plugins m) = [] →
  countable_ledger p → (∀ xs, l_raw_xf m = Some xs → countable xs) →
  ∃ n l bs ws, to_be_booked m l ∧ book_with env p hs n l = BookSuccess bs ws ∧
    (Forall dates_valid bs → ∃ vs ds, l_directives m = Some vs ∧ mapM view_directive vs = Some ds ∧ ds = seen_directive <$> bs).
Proof.
  intros Hl He Hph Hcl Hcx. pose proof (load_healthy env jso jmo Hjmo _ _ _ _ _ _ _ _ _ Hl) as Hld.
  pose proof (C53_outcome _ _ _ _ _ _ _ Hld) as Ho. unfold outcome_shown in Ho. rewrite He in Ho.
  destruct Ho as ((sp&sp'&Has&_)&_&_&_&_&Hpp&Hd).
  assert (Hb : RBook (l_raw_xf m) ∈ l_asked m) by (rewrite Has; set_solver).
  assert (l_booked_xf m = None) as Hbx.
  { destruct Hpp as [[_ ?]|[? _]]; [done|congruence]. }
  rewrite Hbx in Hd. unfold to_be_booked.
  destruct (l_raw_xf m) as [xs|] eqn:Ex.
  - destruct (mapM _ (encode jso jmo <$> xs)) as [l|] eqn:El.
    2: { pose proof (C54_refused env jso jmo Hjmo hs sources ns read_config code spec so p m xs Hl Hb El). congruence. }
    destruct (plugin_outcome env jso jmo Hjmo hs sources ns read_config code spec so p Hacc m xs l Hl Hb El (Hcx _ eq_refl)) as [n H].
    destruct (book_with env p hs n l) as [bs ws|errors|w] eqn:Eb; [|destruct H as (?&?&_); congruence|congruence].
    exists n, l, bs, ws. split_and!; [done|done|]. intros Hv. destruct H as (_&vs&Hvs&HF).
    exists vs, (seen_directive <$> bs). split_and!; [congruence| |done].
    eapply views; [|done|exact HF]. intros b v Hdv. by apply taken_view.
  - destruct (load_book _ _ _ _ _ _ _ _ Hld Hb) as (Hr&ok&raw&sp1&Hok&_&Hsp&Hraw&_&_&H).
    rewrite <- Hr in H, Hraw. destruct (state_prefix env jso jmo Hjmo p hs sources sp1 Hsp) as [s Hs].
    rewrite (ask_directives env jso jmo Hjmo) in Hok. injection Hok as <-. rewrite raw_values in Hraw. subst raw.
    rewrite (ask_book_none env jso jmo Hjmo p hs sources _ s Hs (small_prefix sp1 Hsp)) in H. cbv zeta in H. set (n := _ + 2) in *.
    destruct (book_with env p hs n _) as [bs ws|errors|w] eqn:Eb; [| |cbn in H; congruence].
    + cbn [result_of a_err a_ok] in H. rewrite booked_value_get in H. unfold seen_list, vec in H.
      destruct (ledger_countable p (or_wire (hs 4)) Hcl) as [Hc1 Hc2].
      destruct (all_taken (or_wire (hs n)) _ Hc1 Hc2 bs) as (vs&Hv&HF).
      { apply C01_output_mirrors_ledger, mirrors_idx in Eb. unfold ledger_values. by rewrite !fmap_length in *. }
      rewrite Hv in H. destruct H as [H _]. exists n, (from_directive <$> pa_directives p), bs, ws. split_and!; [done|exact Eb|].
      intros Hdv. exists vs, (seen_directive <$> bs). split_and!; [congruence| |done].
      eapply views; [|done|exact HF]. intros b v Hb'. by apply taken_view.
    + destruct (create_reports_from_booking_errors _ _) as [rs|]; [|cbn in H; congruence].
      cbn [result_of a_err a_ok] in H. cbn [fmap option_fmap option_map] in H. rewrite failure_report in H. cbn in H. congruence.
Qed.
(** A ledger which loads without an error and without plugins after booking gives the
    user a view of every directive which the server booked, in order. *)
Theorem C87_loaded m :
  load_beanfile = inr (Some m) → l_error m = None → of_phase true (l_plugins m) = [] →
  countable_ledger p → (∀ xs, l_raw_xf m = Some xs → countable xs) →
  ∃ n l bs ws, to_be_booked m l ∧ book_with env p hs n l = BookSuccess bs ws ∧
    (Forall dates_valid bs → ∃ vs ds, l_directives m = Some vs ∧ mapM view_directive vs = Some ds ∧ Forall2 directive_seen ds bs).
Proof.
  intros Hl He Hph Hcl Hcx. destruct (loaded_seen m Hl He Hph Hcl Hcx) as (n&l&bs&ws&Ht&Hb&H).
  exists n, l, bs, ws. split_and!; [done..|]. intros Hv. destruct (H Hv) as (vs&ds&Hd&Hm&->). exists vs, (seen_directive <$> bs).
  split_and!; [done..|apply seen_all].
Qed.

(** C88 from the text of the ledger on: whatever is booked of a ledger in order, the
    user sees of each passed balance assertion what it says. *)
Theorem C88_loaded_partial m co o :
  load_beanfile = inr (Some m) → l_error m = None → of_phase true (l_plugins m) = [] →
  countable_ledger p → (∀ xs, l_raw_xf m = Some xs → countable xs) →
  lib_ok (env_booking env (pa_options p)) → (∀ l, co_lots co l ≡ₚ l) →
  (∀ l, to_be_booked m l → in_ledger_order l) →
  ∃ n l bs ws, to_be_booked m l ∧ book_with env p hs n l = BookSuccess bs ws ∧
    (Forall dates_valid bs → ∃ vs ds, l_directives m = Some vs ∧ mapM view_directive vs = Some ds ∧
       ∀ i b bb, bs !! i = Some b → b_variant b = BVBalance bb →
         let bal := bb_raw bb in
         (∀ j, j < i → unconsumed bs i j = false) →
         (∀ k q x, fills bs k i q x bal → BookSpec.under (bal_acc bal) (pad_source q) = false) →
         let filters := [f_sub_acc [Some (bal_acc bal)]; date_lt (b_date b)] in
         let met (seen : Q) := (Qabs (dec_value (bal_units bal) - seen) <= balance_tolerance (lib_multiplier (env_booking env (pa_options p))) bal ∨
                                seen == dec_value (bal_units bal))%Q in
         (∀ inv, inventory co (Beans ds o) filters = Some inv → met (held_in_all (bal_cur bal) inv)) ∧
         (∀ l, journal co (Beans ds o) filters = Some l → met (held (bal_cur bal) (default [] (last l.*2))))).
Proof.
  intros Hl He Hph Hcl Hcx HL Hco Ho. destruct (C87_loaded m Hl He Hph Hcl Hcx) as (n&l&bs&ws&Ht&Hb&H).
  exists n, l, bs, ws. split_and!; [done|done|]. intros Hv. destruct (H Hv) as (vs&ds&Hd&Hvs&HF). exists vs, ds. split_and!; [done|done|].
  intros i b bb Hi Hbv bal Hu Hf. exact (C88_asserted_partial _ _ _ _ _ _ _ _ _ _ co o (Hacc n) HL Hco (Ho l Ht) Hb Hi Hbv Hu Hf HF).
Qed.
End System.
Print Assumptions C87_loaded.
Print Assumptions C88_loaded_partial.

(** * Samples *)

Lemma known {A} (d : A) (x : option A) : (if x then true else false) = true → x = Some (default d x).
Proof. by destruct x. Qed.
Definition v_client : list cdirective := seen_directive <$> booked1.
Definition v_filters : list (citem → bool) := [f_sub_acc [Some "Assets:Bank"]; date_lt (day 7)].
Definition v_inventory : gmap string (list position) := default ∅ (inventory plain_orders (Beans v_client (client_options None)) v_filters).
Definition v_journal : list (cposting * list position) := default [] (journal plain_orders (Beans v_client (client_options None)) v_filters).

(** Of the ledger of [SampleLedgers.v]: before day 7 the account has been padded with
    7.50, a sub-account has got 2.50, and 10 were spent. *)
Example C87_example :
  Forall2 directive_seen v_client booked1 ∧
  inventory plain_orders (Beans v_client (client_options None)) v_filters = Some v_inventory ∧
  journal plain_orders (Beans v_client (client_options None)) v_filters = Some v_journal ∧
  (held "USD" (holding v_inventory "Assets:Bank") == - (5 # 2))%Q ∧
  (held "USD" (holding v_inventory "Assets:Bank:Sub") == 5 # 2)%Q ∧
  (λ e, (e.1.(it_acc), p_units e.2)) <$> entries_selected v_filters booked1 =
    [(Some "Assets:Bank", Dec 750 2); (Some "Assets:Bank:Sub", Dec 250 2); (Some "Assets:Bank", Dec (-10) 0)] ∧
  (λ r, Qred (held "USD" r.2)) <$> v_journal = [15 # 2; 10; 0]%Q.
Proof.
  split_and!; [apply seen_all|apply known; by vm_compute|apply known; by vm_compute|by vm_compute..].
Qed.

Ltac ledger_in_order :=
  repeat first [apply SSorted_nil | apply SSorted_cons | apply Forall_nil_2 | apply Forall_cons_2];
  (split; [vm_compute; intuition discriminate|by vm_compute; try (intros; auto)]).

(** Its assertion of day 7 fills no pad, and that of day 4 fills one. *)
Example C88_example :
  in_ledger_order ledger1 ∧
  (∃ b u m, booked1 !! 10 = Some b ∧ b_variant b = BVBalance (BBalance (Balance "Assets:Bank" (Dec 0 0) "USD" None) u m) ∧ b_date b = day 7) ∧
  (∀ j, j < 10 → unconsumed booked1 10 j = false) ∧
  (∀ k p m, fills booked1 k 10 p m (Balance "Assets:Bank" (Dec 0 0) "USD" None) → BookSpec.under "Assets:Bank" (pad_source p) = false) ∧
  (held_in_all "USD" v_inventory == 0)%Q ∧ (held "USD" (default [] (last v_journal.*2)) == 0)%Q.
Proof.
  split_and!.
  - unfold in_ledger_order, ledger1. ledger_in_order.
  - eexists _, _, _. split_and!; by vm_compute.
  - intros j Hj. do 10 (destruct j as [|j]; [by vm_compute|]). lia.
  - intros k p m (Hk&_&(b&Hb&Hv)&_).
    do 10 (destruct k as [|k]; [injection Hb as <-; try discriminate Hv; injection Hv as <-; by vm_compute|]). lia.
  - by vm_compute.
  - by vm_compute.
Qed.

Definition late_booked : list bdirective := Eval vm_compute in booked_or_nil (sample_run ledger_late).
Definition late_balance : bdirective := Eval vm_compute in default (BDirective 0 (day 1) None None None (BVClose "")) (late_booked !! 5).
Definition late_inventory : gmap string (list position) :=
  default ∅ (inventory plain_orders (Beans (client_directives late_booked) (client_options None)) [f_sub_acc [Some "Assets:Bank"]; date_lt (day 3)]).
(** "Every passed balance assertion is what the user sees" is false: a pad before the
    assertion which is filled after it adds to what was asserted. *)
Theorem C88_refuted :
  ∃ P (L : booking_lib P) ord opt ds bs ws n b bb inv,
    lib_ok L ∧ (∀ m, ord m ≡ₚ map_to_list m) ∧ in_ledger_order ds ∧
    book L ord opt ds = BookSuccess bs ws ∧ bs !! n = Some b ∧ b_variant b = BVBalance bb ∧
    inventory plain_orders (Beans (client_directives bs) (client_options None))
      [f_sub_acc [Some (bal_acc (bb_raw bb))]; date_lt (b_date b)] = Some inv ∧
    (balance_tolerance (lib_multiplier L) (bb_raw bb) <
     Qabs (dec_value (bal_units (bb_raw bb)) - held_in_all (bal_cur (bb_raw bb)) inv))%Q.
Proof.
  exists _, sample_lib, sample_ord, None, ledger_late, late_booked, [], 5, late_balance, (BBalance (Balance "Assets:Bank" (Dec 0 0) "USD" None) None None), late_inventory.
  split; [exact sample_lib_ok|]. split; [exact sample_ord_perm|]. split; [unfold in_ledger_order, ledger_late; ledger_in_order|].
  split; [by vm_compute|]. split; [by vm_compute|]. split; [by vm_compute|]. split; [apply known; by vm_compute|by vm_compute].
Qed.
Print Assumptions C88_refuted.

(** A ledger as parsed, and the outcome of loading it without plugins. *)
Definition v_parsed : parsed :=
  let dir n k v := PDirective (Span 0 (10 * n) (10 * n + 9)) (day (Z.of_nat k)) no_metadata v in
  Parsed
    [ dir 0 1 (PVOpen "Assets:Bank" [] None); dir 1 1 (PVOpen "Assets:Bank:Sub" [] None); dir 2 1 (PVOpen "Equity:Opening" [] None);
      dir 3 2 (PVPad "Assets:Bank" "Equity:Opening");
      dir 4 3 (PVTransaction FAsterisk (Some "Shop") None
        [parsed_posting 42 "Assets:Bank:Sub" (Dec 250 2); parsed_posting 46 "Equity:Opening" (Dec (-250) 2)]);
      dir 5 4 (PVBalance "Assets:Bank" (Dec 10 0) "USD" None);
      dir 6 4 (PVTransaction FAsterisk (Some "Shop") None
        [parsed_posting 62 "Assets:Bank" (Dec (-4) 0); parsed_posting 66 "Equity:Opening" (Dec 4 0)]);
      dir 7 5 (PVBalance "Assets:Bank" (Dec 6 0) "USD" None) ]
    (pa_options (sample_parsed true)) [].
Definition v_booked : list bdirective :=
  match book_with sample_env v_parsed (λ _, sample_orders) 0 (from_directive <$> pa_directives v_parsed) with BookSuccess bs _ => bs | _ => [] end.
Definition v_seen : list cdirective :=
  default [] (p_seen (λ m, default [] (mapM view_directive (default [] (l_directives m)))) (p_load None (Healthy (inl v_parsed)))).
Definition v_total (k : Z) : option Q :=
  (λ inv, Qred (held_in_all "USD" inv)) <$>
  inventory plain_orders (Beans v_seen (client_options None)) [f_sub_acc [Some "Assets:Bank"]; date_lt (day k)].

Lemma dates_checked bs :
  forallb (λ b, valid_date (b_date b) && forallb (λ q, match p_cost q with Some c => valid_date (c_date c) | None => true end) (postings_of b)) bs = true →
  Forall dates_valid bs.
Proof.
  rewrite forallb_Forall. intros H. eapply Forall_impl; [exact H|]. intros b [H1 H2]%andb_true_iff. split; [done|]. unfold postings_of in H2.
  destruct (b_variant b); try done. rewrite forallb_Forall in H2. eapply Forall_impl; [exact H2|].
  intros q Hq c Hc. cbn beta in Hq. by rewrite Hc in Hq.
Qed.
Example C88_loaded_example :
  p_seen (λ m, (match l_error m with None => true | _ => false end, length (l_plugins m), l_raw_xf m)) (p_load None (Healthy (inl v_parsed))) = Some (true, 0, None) ∧
  countable_ledger v_parsed ∧ in_ledger_order (from_directive <$> pa_directives v_parsed) ∧
  Forall dates_valid v_booked ∧ length v_booked = 9 ∧ length v_seen = 9 ∧
  (∀ j, j < 8 → unconsumed v_booked 8 j = false) ∧
  v_total 4 = Some 10%Q ∧ v_total 5 = Some 6%Q.
Proof.
  split_and!.
  - by vm_compute.
  - split; [by unfold fits; vm_compute|]. intros d f py n ps Hd Ev.
    assert (Hp : Forall (λ d, match pdr_variant d with PVTransaction _ _ _ ps => length ps ≤ 2 | _ => True end) (pa_directives v_parsed))
      by (repeat constructor).
    rewrite Forall_forall in Hp. apply Hp in Hd. rewrite Ev in Hd. unfold fits. lia.
  - unfold in_ledger_order. cbn [fmap list_fmap pa_directives v_parsed]. ledger_in_order.
  - apply dates_checked. by vm_compute.
  - by vm_compute.
  - by vm_compute.
  - intros j Hj. do 8 (destruct j as [|j]; [by vm_compute|]). lia.
  - by vm_compute.
  - by vm_compute.
Qed.
