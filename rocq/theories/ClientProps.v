(** The client: what it makes of the server's answers, the registry, filters,
    inventories, balance sheet and income statement.  Orders of hash maps are
    arbitrary. *)
From Coq Require Import Ascii QArith Sorted.
From stdpp Require Import prelude gmap strings.
From Verif Require Import DecModel LedgerTypes IsoModel JsonModel WireModel WireSpec WireSamples ParserModel ServerModel OutputSpec
  BookModel CljModel InventoryModel InventorySpec InventoryMain ClientModel ClientSpec ClientDecode ClientFacts ClientMain
  ClientSamples SampleLedgers.
Local Open Scope nat_scope.

Definition sample_beans (ds : list directive) (m : option booking) : beans :=
  Beans (client_directives (booked_of_ledger ds)) (client_options m).
Definition is_some {A} (o : option A) : bool := match o with Some _ => true | None => false end.
Lemma is_some_default {A} (x : A) o : is_some o = true → o = Some (default x o).
Proof. by destruct o. Qed.

(** ** C65: booked directives reach the client *)

Theorem C65_booked_directives_read :
  ∀ ord bs, Forall dates_valid bs →
    ∃ ds, mapM (λ b, view_directive (decode None (put_bdirective ord b))) bs = Some ds ∧ Forall2 directive_seen ds bs.
Proof.
  intros ord bs Hv. exists (seen_directive <$> bs). split.
  - induction Hv as [|b bs Hb _ IH]; [reflexivity|]. cbn [mapM fmap list_fmap].
    rewrite view_directive_put by exact Hb. cbn [mbind option_bind]. rewrite IH. reflexivity.
  - apply Forall2_fmap_l, Forall_Forall2_diag, Forall_forall. intros b _. exact (seen_directive_ok b).
Qed.
Print Assumptions C65_booked_directives_read.

Theorem C65_numbers_read :
  ∀ key d, ∃ n, decode key (JNum d) = VNum n ∧ num_seen n d.
Proof. intros key d. exists (cn_of_dec d). split; [reflexivity|]. exact (cn_of_dec_seen d). Qed.
Print Assumptions C65_numbers_read.

Example C65_example :
  Forall dates_valid (booked_of_ledger ledger1) ∧
  length (booked_of_ledger ledger1) = length (client_directives (booked_of_ledger ledger1)).
Proof.
  split; [|vm_compute; reflexivity].
  assert (forallb (λ b, valid_date (b_date b) &&
      match b_variant b with
      | BVTransaction t => forallb (λ p, match p_cost p with Some c => valid_date (c_date c) | None => true end) (bt_postings t)
      | _ => true
      end) (booked_of_ledger ledger1) = true) as H by (vm_compute; reflexivity).
  apply Forall_forall. intros b Hb. rewrite forallb_forall in H. apply elem_of_list_In in Hb. specialize (H b Hb).
  apply andb_true_iff in H as [H1 H2]. split; [exact H1|]. destruct (b_variant b); try exact I.
  apply Forall_forall. intros p Hp c Hc. rewrite forallb_forall in H2. apply elem_of_list_In in Hp.
  specialize (H2 p Hp). by rewrite Hc in H2.
Qed.

(** ** C58: metadata *)

(** A metadata entry [booking] is lost. *)
Theorem C58_refuted :
  ∃ m k v, m !! k = Some v ∧ v ≠ MVNull ∧ vget k (decode None (put_metadata plain_order m)) = Some VNil.
Proof. exists {["booking" := MVString "online"]}, "booking", (MVString "online"). vm_compute. split; [reflexivity|]. split; [discriminate|reflexivity]. Qed.
Print Assumptions C58_refuted.

(** Missing: the keys [dct] and [booking]. *)
Theorem C58_metadata_preserved_partial :
  ∀ key j m k,
    exact_map exact_meta j m → k ≠ "dct" → k ≠ "booking" → (∀ v, m !! k = Some v → meta_date_valid v) →
    match m !! k with
    | Some v => ∃ x, vget k (decode key j) = Some x ∧ meta_seen x v
    | None => vget k (decode key j) = None
    end.
Proof. exact metadata_seen. Qed.
Print Assumptions C58_metadata_preserved_partial.

Example C58_example :
  let m : gmap string meta_value := {["date" := MVDate (Date 2024 2 29); "note" := MVAmount (Dec 5 1) "USD"]} in
  vget "date" (decode None (put_metadata plain_order m)) = Some (VMap [("date", VDate (Date 2024 2 29))]) ∧
  vget "note" (decode None (put_metadata plain_order m)) = Some (VMap [("units", VNum (CDec (Dec 5 1))); ("cur", VStr "USD")]) ∧
  vget "other" (decode None (put_metadata plain_order m)) = None.
Proof. vm_compute. auto. Qed.

(** ** C40: inventories of booked ledgers *)

(** The ledger books, and the client can make no inventory of it: an account with
    average booking. *)
Theorem C40_refuted :
  ∃ ds bs ws, sample_run ds = BookSuccess bs ws ∧ length (client_directives bs) = length bs ∧
    ∀ co, inventory co (Beans (client_directives bs) (client_options None)) [] = None.
Proof.
  destruct (books_success average_ledger) as [ws H]; [vm_compute; reflexivity|].
  exists average_ledger, (booked_of_ledger average_ledger), ws. split; [exact H|]. split; [vm_compute; reflexivity|].
  intros co. vm_compute. reflexivity.
Qed.
Print Assumptions C40_refuted.

(** The same because of large whole numbers. *)
Theorem C40_refuted_large :
  ∃ ds bs ws, sample_run ds = BookSuccess bs ws ∧ length (client_directives bs) = length bs ∧
    (∀ acc, opened_with (client_directives bs) acc = []) ∧
    ∀ co, inventory co (Beans (client_directives bs) (client_options None)) [] = None.
Proof.
  destruct (books_success large_ledger) as [ws H]; [vm_compute; reflexivity|].
  exists large_ledger, (booked_of_ledger large_ledger), ws. split; [exact H|]. split; [vm_compute; reflexivity|].
  split; [|intros co; vm_compute; reflexivity].
  intros acc. unfold opened_with.
  assert (Forall (λ d, cd_booking d = None) (client_directives (booked_of_ledger large_ledger))) as Hf
    by (vm_compute; repeat constructor).
  induction Hf as [|d l Hd _ IH]; [reflexivity|]. rewrite filter_cons. destruct (decide _); cbn; [rewrite Hd|]; exact IH.
Qed.
Print Assumptions C40_refuted_large.

(** Missing: accounts with average booking, and sums of whole numbers beyond 64
    bits. *)
Theorem C40_inventory_exists_partial :
  ∀ co bs filters dflt,
    default_booking (be_options bs) = Some dflt → dflt ≠ BAverage →
    (∀ acc, last (opened_with (be_directives bs) acc) ≠ Some BAverage) →
    (∀ acc cur, in_range acc cur (all_postings (be_directives bs))) →
    is_Some (inventory co bs filters).
Proof. exact inventory_exists. Qed.
Print Assumptions C40_inventory_exists_partial.

Example C40_example :
  is_some (inventory plain_orders (sample_beans ledger1 None) []) = true ∧
  default_booking (client_options None) = Some BStrict ∧
  (zsum ((λ p, whole (cp_units p)) <$> all_postings (be_directives (sample_beans ledger1 None))) < 2 ^ 63)%Z.
Proof. vm_compute. auto. Qed.

(** ** C41: the ledger's booking method *)

(** With the option NONE the purchases should be two positions. *)
Theorem C41_refuted :
  ∃ ds acc inv,
    inventory plain_orders (sample_beans ds (Some BNone)) [] = Some inv ∧ opened_with (client_directives (booked_of_ledger ds)) acc = [] ∧
    length (filter (λ p, cp_acc p = acc ∧ cp_cost p ≠ None) (all_postings (client_directives (booked_of_ledger ds)))) = 4 ∧
    length (default [] (inv !! acc)) = 1.
Proof.
  exists lots_ledger, "Assets:Shares", (default ∅ (inventory plain_orders (sample_beans lots_ledger (Some BNone)) [])).
  split; [apply is_some_default; vm_compute; reflexivity|]. vm_compute. auto.
Qed.
Print Assumptions C41_refuted.

(** Whatever the options say. *)
Theorem C41_default_is_strict :
  ∀ P (h : orders P) o, default_booking (decode None (put_options h (from_options o))) = Some BStrict.
Proof. intros P h o. exact (default_is_strict h o). Qed.
Print Assumptions C41_default_is_strict.

(** Missing: the options NONE and AVERAGE. *)
Theorem C41_as_intended_partial :
  ∀ P (h : orders P) co ds o filters,
    (∀ m, po_booking_method o = Some m → merges m = true) →
    let bs := Beans ds (decode None (put_options h (from_options o))) in
    inventory co bs filters =
    inventory_build (co_lots co) (selected bs filters)
      (λ acc, default (default BStrict (po_booking_method o)) (last (opened_with ds acc))).
Proof. intros P h co ds o filters. exact (inventory_as_intended h co ds o filters). Qed.
Print Assumptions C41_as_intended_partial.

Example C41_example :
  (∀ m, po_booking_method (options_with (Some BFifo)) = Some m → merges m = true) ∧
  is_some (inventory plain_orders (sample_beans lots_ledger (Some BFifo)) []) = true.
Proof. split; [intros m [= <-]; reflexivity|vm_compute; reflexivity]. Qed.

(** ** C42: the registry *)

Theorem C42_currencies :
  ∀ ho ds, (∀ l, ho l ≡ₚ l) →
    NoDup (registry_curs ho ds) ∧
    (∀ c, c ∈ registry_curs ho ds ↔ ∃ p, p ∈ all_postings ds ∧ cp_cur p = c) ∧
    StronglySorted (λ a b, uses ds b <= uses ds a) (registry_curs ho ds).
Proof.
  intros ho ds H. split; [exact (registry_curs_nodup ho H ds)|]. split; [exact (registry_curs_in ho H ds)|].
  exact (registry_curs_sorted ho H ds).
Qed.
Print Assumptions C42_currencies.

Theorem C42_booking_methods :
  ∀ ds options acc,
    acc_booking ds options acc =
    match last (opened_with ds acc) with Some m => Some m | None => default_booking options end.
Proof. intros ds options acc. unfold acc_booking. by rewrite registry_booking. Qed.
Print Assumptions C42_booking_methods.

Example C42_example :
  registry_curs id (client_directives (booked_of_ledger ledger1)) = ["USD"; "HOOL"] ∧
  uses (client_directives (booked_of_ledger ledger1)) "HOOL" = 2 ∧
  acc_booking (client_directives (booked_of_ledger ledger1)) (client_options None) "Assets:Bank" = Some BFifo.
Proof. vm_compute. auto. Qed.

(** ** C46: dates *)

Theorem C46_date_filters :
  ∀ args d, to_date args = Some d →
    ∃ lt le gt ge, date_filter date_lt args = Some lt ∧ date_filter date_le args = Some le ∧
      date_filter date_gt args = Some gt ∧ date_filter date_ge args = Some ge ∧
    ∀ x, (lt x = true ↔ ∃ dx, it_date x = Some dx ∧ earlier dx d) ∧
         (le x = true ↔ ∃ dx, it_date x = Some dx ∧ (earlier dx d ∨ dx = d)) ∧
         (gt x = true ↔ ∃ dx, it_date x = Some dx ∧ earlier d dx) ∧
         (ge x = true ↔ ∃ dx, it_date x = Some dx ∧ (earlier d dx ∨ dx = d)).
Proof.
  intros args d H. unfold date_filter. rewrite H. cbn. do 4 eexists. do 4 (split; [reflexivity|]).
  intros x. exact (conj (date_lt_spec d x) (conj (date_le_spec d x) (conj (date_gt_spec d x) (date_ge_spec d x)))).
Qed.
Print Assumptions C46_date_filters.

Theorem C46_date_range :
  ∀ args f, date_ge_lt args = Some f →
    ∃ n b e, length args = 2 * n ∧ to_date (take n args) = Some b ∧ to_date (drop n args) = Some e ∧
    ∀ x, f x = true ↔ ∃ dx, it_date x = Some dx ∧ (earlier b dx ∨ dx = b) ∧ earlier dx e.
Proof.
  intros args f H. unfold date_ge_lt in H.
  destruct args as [|a1 [|a2 [|a3 [|a4 [|a5 [|a6 [|]]]]]]]; try discriminate H;
    apply bind_two in H as (b&e&Eb&Ee&->); [exists 1, b, e|exists 2, b, e|exists 3, b, e];
    (split; [reflexivity|]); (split; [exact Eb|]); (split; [exact Ee|]); exact (date_between_spec b e).
Qed.
Print Assumptions C46_date_range.

(** Arguments: a date, the text of a date, or a year, month and day. *)
Theorem C46_arguments :
  (∀ d, to_date [ADate d] = Some d) ∧
  (∀ d, valid_date d = true → to_date [AStr (fmt_date d)] = Some d) ∧
  (∀ y m d, to_date [AInt y; AInt m; AInt d] = if valid_date (Date y m d) then Some (Date y m d) else None) ∧
  (∀ y m, to_date [AInt y; AInt m] = to_date [AInt y; AInt m; AInt 1]) ∧
  (∀ y, to_date [AInt y] = to_date [AInt y; AInt 1; AInt 1]).
Proof.
  split; [reflexivity|]. split; [|split; [reflexivity|split; reflexivity]].
  intros d H. exact (IsoFacts.parse_fmt_date d H).
Qed.
Print Assumptions C46_arguments.

(** Of dated items none is lost and none counted twice. *)
Theorem C46_split :
  ∀ d l, Forall (λ x, it_date x ≠ None) l →
    l ≡ₚ filter (λ x, date_lt d x = true) l ++ filter (λ x, date_ge d x = true) l ∧
    l ≡ₚ filter (λ x, date_le d x = true) l ++ filter (λ x, date_gt d x = true) l.
Proof.
  intros d l H. rewrite Forall_forall in H.
  split; apply filter_split; intros x Hx; specialize (H x Hx); destruct (it_date x) as [dx|] eqn:E; try done.
  - exact (date_ge_not_lt d x dx E).
  - exact (date_gt_not_le d x dx E).
Qed.
Print Assumptions C46_split.

Example C46_example :
  to_date [AInt 2024; AInt 2] = Some (Date 2024 2 1) ∧ to_date [AInt 2023; AInt 2; AInt 29] = None ∧
  let x d := CItem (Some d) None None None None in
  (λ f, f <$> [x (Date 2024 1 31); x (Date 2024 2 1); x (Date 2024 2 29); x (Date 2024 3 1)]) <$>
    date_ge_lt [AInt 2024; AInt 2; AInt 2024; AInt 3] = Some [false; true; true; false].
Proof. vm_compute. auto. Qed.

(** ** C47: combining filters *)

Theorem C47_combinators :
  ∀ A (fs : list (A → bool)) x,
    (every_f fs x = true ↔ ∀ f, f ∈ fs → f x = true) ∧
    (some_f fs x = true ↔ ∃ f, f ∈ fs ∧ f x = true) ∧
    (none_f fs x = true ↔ ∀ f, f ∈ fs → f x = false).
Proof.
  intros A fs x. unfold every_f, some_f, none_f. split; [|split].
  - rewrite forallb_forall. by setoid_rewrite elem_of_list_In.
  - rewrite existsb_exists. by setoid_rewrite elem_of_list_In.
  - rewrite negb_true_iff, <- not_true_iff_false, existsb_exists. setoid_rewrite elem_of_list_In. split.
    + intros H f Hf. apply not_true_iff_false. intros E. apply H. by exists f.
    + intros H (f&Hf&E). rewrite (H f Hf) in E. discriminate.
Qed.
Print Assumptions C47_combinators.

(** The postings of all transactions, in order and with the date, payee and narration
    of the transaction, which every filter selects. *)
Theorem C47_selected_postings :
  ∀ bs fs,
    (∀ p, p ∈ selected bs fs ↔ p ∈ selected bs [] ∧ ∀ f, f ∈ fs → f (item_of_posting p) = true) ∧
    sublist (selected bs fs) (selected bs []) ∧
    Forall2 (λ p q, ∃ d, d ∈ be_directives bs ∧
        p = CPosting (cd_date d) (cd_payee d) (cd_narration d) (cp_flag q) (cp_acc q) (cp_units q) (cp_cur q) (cp_cost q))
      (selected bs []) (all_postings (be_directives bs)).
Proof.
  intros bs fs. assert (selected bs [] = xf_postings (be_directives bs)) as E.
  { unfold selected. cbn [forallb]. generalize (xf_postings (be_directives bs)) as l.
    induction l as [|p l IH]; [reflexivity|]. rewrite filter_cons, decide_True by reflexivity. by rewrite IH. }
  rewrite E. split; [intros p; exact (elem_of_selected bs fs p)|]. split; [|exact (xf_forall2 (be_directives bs))].
  unfold selected. generalize (xf_postings (be_directives bs)) as l.
  induction l as [|p l IH]; [constructor|]. rewrite filter_cons. destruct (decide _); by constructor.
Qed.
Print Assumptions C47_selected_postings.

Theorem C47_account_filters :
  (∀ ts x, f_sub_acc (Some <$> ts) x = true ↔ ∃ a, it_acc x = Some a ∧ ∃ t, t ∈ ts ∧ under t a) ∧
  (∀ ts x, f_acc ts x = true ↔ ∃ a, it_acc x = Some a ∧ a ∈ ts) ∧
  (∀ c x, f_cur c x = true ↔ it_cur x = Some c) ∧
  (** the server's rule *)
  (∀ base name, is_nonstrict_subaccount base name = true ↔ under base name).
Proof.
  split; [exact f_sub_acc_spec|]. split; [|split].
  - intros ts x. unfold f_acc. destruct (it_acc x) as [a|]; [|split; [done|intros (?&?&?); done]].
    rewrite existsb_exists. split.
    + intros (t&Ht&H). apply String.eqb_eq in H as ->. exists t. split; [done|]. by apply elem_of_list_In.
    + intros (a'&[= <-]&H). exists a. split; [by apply elem_of_list_In|apply String.eqb_refl].
  - intros c x. unfold f_cur. destruct (it_cur x) as [c'|]; [|done]. rewrite String.eqb_eq. split; congruence.
  - intros base name. rewrite BookUnits.is_nonstrict_subaccount_under. exact (under_prefix base name).
Qed.
Print Assumptions C47_account_filters.

Example C47_example :
  length (selected (sample_beans ledger1 None) []) = 8 ∧
  length (selected (sample_beans ledger1 None) [f_sub_acc [Some "Assets:Bank"]; f_cur "USD"; date_ge (Date 2024 1 3)]) = 2 ∧
  f_sub_acc [Some "Assets:Bank"] (CItem None (Some "Assets:Bank2") None None None) = false.
Proof. vm_compute. auto. Qed.

(** ** C48: balance sheet and income statement *)

Theorem C48_balances :
  ∀ P (h : orders P) co ds o filters inv,
    (∀ l, co_lots co l ≡ₚ l) →
    let bs := Beans ds (decode None (put_options h (from_options o))) in
    balances co bs filters = Some inv →
    (∀ acc, under (po_name_assets o) acc ∨ under (po_name_liabilities o) acc →
       ∀ cur, (held cur (holding inv acc) == posted acc cur (selected bs filters))%Q) ∧
    (∀ acc, is_Some (inv !! acc) → under (po_name_assets o) acc ∨ under (po_name_liabilities o) acc).
Proof.
  intros P h co ds o filters inv Hco bs. unfold balances, option_name. cbn [be_options bs].
  rewrite (option_text h "name-assets" po_name_assets), (option_text h "name-liabilities" po_name_liabilities) by set_solver.
  exact (statement co bs filters Hco _ _ inv).
Qed.
Print Assumptions C48_balances.

Theorem C48_income_statement :
  ∀ P (h : orders P) co ds o filters inv,
    (∀ l, co_lots co l ≡ₚ l) →
    let bs := Beans ds (decode None (put_options h (from_options o))) in
    income_statement co bs filters = Some inv →
    (∀ acc, under (po_name_income o) acc ∨ under (po_name_expenses o) acc →
       ∀ cur, (held cur (holding inv acc) == posted acc cur (selected bs filters))%Q) ∧
    (∀ acc, is_Some (inv !! acc) → under (po_name_income o) acc ∨ under (po_name_expenses o) acc).
Proof.
  intros P h co ds o filters inv Hco bs. unfold income_statement, option_name. cbn [be_options bs].
  rewrite (option_text h "name-income" po_name_income), (option_text h "name-expenses" po_name_expenses) by set_solver.
  exact (statement co bs filters Hco _ _ inv).
Qed.
Print Assumptions C48_income_statement.

Theorem C48_disjoint :
  ∀ o acc,
    let names := [po_name_assets o; po_name_liabilities o; po_name_income o; po_name_expenses o] in
    Forall (λ s, has_colon s = false) names → NoDup names →
    (under (po_name_assets o) acc ∨ under (po_name_liabilities o) acc) →
    ¬ (under (po_name_income o) acc ∨ under (po_name_expenses o) acc).
Proof. intros o acc. exact (no_posting_in_both _ _ _ _ acc). Qed.
Print Assumptions C48_disjoint.

Example C48_example :
  Forall (λ s, has_colon s = false) ["Assets"; "Liabilities"; "Income"; "Expenses"] ∧
  (λ inv, (λ e, e.1) <$> map_to_list inv) <$> balances plain_orders (sample_beans lots_ledger None) [] = Some ["Assets:Shares"] ∧
  (λ inv, (λ e, e.1) <$> map_to_list inv) <$> income_statement plain_orders (sample_beans lots_ledger None) [] = Some ["Income:Gift"].
Proof. split; [repeat constructor|]. vm_compute. auto. Qed.

(** ** C66: total costs *)

(** A position of six at 5 USD with a total of 10 USD. *)
Theorem C66_refuted :
  ∃ ds inv p c,
    inventory plain_orders (sample_beans ds None) [] = Some inv ∧ inv !! "Assets:Shares" = Some [p] ∧ pos_cost p = Some c ∧
    ¬ (cn_value (cc_total c) == cn_value (pos_units p) * cn_value (cc_per_unit c))%Q ∧
    (** although the postings have the right totals *)
    Forall (λ q, ∀ k, cp_cost q = Some k → (cn_value (cc_total k) == cn_value (cp_units q) * cn_value (cc_per_unit k))%Q)
      (all_postings (client_directives (booked_of_ledger ds))).
Proof.
  exists lots_ledger, (default ∅ (inventory plain_orders (sample_beans lots_ledger None) [])).
  do 2 eexists. split; [apply is_some_default; vm_compute; reflexivity|].
  split; [vm_compute; reflexivity|]. split; [reflexivity|]. split; [vm_compute; discriminate|].
  vm_compute. repeat (constructor; [intros k Hk; first [discriminate Hk|injection Hk as <-; reflexivity]|]). constructor.
Qed.
Print Assumptions C66_refuted.

(** Missing: lots which are made up of several postings. *)
Theorem C66_single_lots_partial :
  ∀ ho booking ps inv,
    (∀ l, ho l ≡ₚ l) → inventory_build ho ps booking = Some inv →
    ∀ acc q, merges (booking acc) = true → q ∈ holding inv acc →
    (∀ p p' i j, ps !! i = Some p → ps !! j = Some p' → cp_acc p = acc → cp_acc p' = acc →
       cp_cur p = cp_cur p' → same_cost (cp_cost p) (cp_cost p') → i = j) →
    ∃ p, p ∈ ps ∧ cp_acc p = acc ∧ cp_cur p = pos_cur q ∧ cp_cost p = pos_cost q ∧
      (cn_value (cp_units p) == cn_value (pos_units q))%Q.
Proof. intros ho booking ps inv H Hb acc q. exact (InventoryKinds.single_lot ho H booking ps inv Hb acc q). Qed.
Print Assumptions C66_single_lots_partial.

Example C66_example :
  let p n u := CPosting None None None None "A" (CLong n) "HOOL" (Some (CCost (Date 2024 1 1) "USD" (CLong u) (CLong (n * u)) None None)) in
  inventory_build id [p 1 5; p 2 6]%Z (λ _, BStrict) ≠ None ∧
  (λ inv, default [] (inv !! "A")) <$> inventory_build id [p 1 5; p 2 6]%Z (λ _, BStrict) =
  Some [Position (CLong 1) "HOOL" (cp_cost (p 1 5)%Z); Position (CLong 2) "HOOL" (cp_cost (p 2 6)%Z)].
Proof. split; [vm_compute; discriminate|vm_compute; reflexivity]. Qed.
