(** Theorems that the books balance. *)
From Coq Require Import Ascii QArith Qabs.
From stdpp Require Import prelude gmap strings.
From Verif Require Import DecModel DecProofs LedgerTypes IsoModel JsonModel WireModel WireSpec WireFacts BookModel BookLib BookSpec BookProps ReportSpec ReportSamples ReportProps SpanModel ParserModel
  JsonText SampleLib SampleLedgers WireSamples ServerModel ServerSpec ServerFacts ServerSamples CljModel InventoryModel InventorySpec InventoryFacts OrderFacts InventoryMain InventoryProps RollupFacts
  ClientModel ClientSpec ClientDecode ClientFacts ClientMain ClientSamples FormatModel PluginModel PluginSpec LoaderModel
  LoaderSpec LoaderFacts LoaderProps EncodeModel SystemModel SystemFacts SystemLoad SystemSpec SystemErrors SystemTrace SystemProps ViewSpec ViewFacts ViewProps PeriodSpec PeriodFacts BalanceSpec BalanceFacts.
Local Open Scope nat_scope.

(** * C101 *)

(** If the library accepts a transaction without costs and prices only when it adds up
    to zero within a tolerance, then all that the user sees in all accounts of the
    transactions chosen by date, payee and narration adds up to zero within the sum of
    the tolerances.  What pads move adds nothing. *)
Theorem C101_balanced {P} (L : booking_lib P) ord opt ds bs ws cs co o filters inv tol :
  (∀ m, ord m ≡ₚ map_to_list m) → lib_ok L → balances_within L tol → (∀ l, co_lots co l ≡ₚ l) →
  book L ord opt ds = BookSuccess bs ws → Forall2 directive_seen cs bs →
  Forall by_transaction filters → Forall plain (transactions filters ds) →
  inventory co (Beans cs o) filters = Some inv →
  ∀ cur, (Qabs (held_in_all cur inv) <= allowance tol cur (transactions filters ds))%Q.
Proof.
  intros Hord HL Ht Hco Hb Hs Hf Hp Hi cur. destruct (C87_inventory _ _ _ _ _ _ Hco Hs Hi) as [_ Hc]. rewrite Hc.
  by eapply booked_within.
Qed.
Print Assumptions C101_balanced.

(** If they add up exactly, so does everything. *)
Theorem C101_exact {P} (L : booking_lib P) ord opt ds bs ws cs co o filters inv :
  (∀ m, ord m ≡ₚ map_to_list m) → lib_ok L → balances_within L (λ _ _, 0%Q) → (∀ l, co_lots co l ≡ₚ l) →
  book L ord opt ds = BookSuccess bs ws → Forall2 directive_seen cs bs →
  Forall by_transaction filters → Forall plain (transactions filters ds) →
  inventory co (Beans cs o) filters = Some inv →
  ∀ cur, (held_in_all cur inv == 0)%Q.
Proof.
  intros Hord HL Ht Hco Hb Hs Hf Hp Hi cur.
  pose proof (C101_balanced L ord opt ds bs ws cs co o filters inv _ Hord HL Ht Hco Hb Hs Hf Hp Hi cur) as H.
  assert (allowance (λ _ _, 0%Q) cur (transactions filters ds) == 0)%Q as E by (apply qsum_zero; intros; reflexivity).
  rewrite E in H. apply Qabs_Qle_condition in H as [H1 H2]. by apply Qle_antisym.
Qed.
Print Assumptions C101_exact.

(** The filters of the user by date, payee and narration choose whole transactions, and
    so do those made of such. *)
Theorem C101_filters :
  (∀ d, by_transaction (date_lt d) ∧ by_transaction (date_le d) ∧ by_transaction (date_gt d) ∧ by_transaction (date_ge d)) ∧
  (∀ b e, by_transaction (date_between b e)) ∧
  (∀ finds, by_transaction (f_payee finds) ∧ by_transaction (f_narration finds)) ∧
  (∀ fs, Forall by_transaction fs → by_transaction (every_f fs) ∧ by_transaction (some_f fs) ∧ by_transaction (none_f fs)).
Proof.
  assert (∀ test d, by_transaction (on_date test d)) as D. { intros test d x y Hd _ _. unfold on_date. by rewrite Hd. }
  split; [intros d; split_and!; apply D|]. split.
  { intros b e x y Hd Hp Hn. unfold date_between, date_ge, date_lt. f_equal; by apply D. }
  split. { intros finds. split; intros x y _ Hp Hn; [unfold f_payee|unfold f_narration]; by rewrite ?Hp, ?Hn. }
  intros fs HF.
  assert (∀ x y, it_date x = it_date y → it_payee x = it_payee y → it_narration x = it_narration y →
    existsb (λ f, f x) fs = existsb (λ f, f y) fs) as E.
  { intros x y Hd Hp Hn. induction HF as [|f fs Hf HF IH]; [done|]. cbn. by rewrite IH, (Hf x y Hd Hp Hn). }
  split_and!; intros x y Hd Hp Hn; [by apply forallb_by_transaction|by apply E|unfold none_f; f_equal; by apply E].
Qed.
Print Assumptions C101_filters.

(** ** The balance sheet *)
(** Neither assets nor liabilities, nor income nor expenses: what is left, such as
    equity. *)
Definition remaining (bs : beans) : citem → bool :=
  none_f [f_sub_acc [option_name bs "name-assets"; option_name bs "name-liabilities"];
          f_sub_acc [option_name bs "name-income"; option_name bs "name-expenses"]].

Lemma sub_acc_two a b x : f_sub_acc [Some a; Some b] x = true ↔ ∃ acc, it_acc x = Some acc ∧ (under a acc ∨ under b acc).
Proof.
  rewrite (f_sub_acc_spec [a; b]). split; intros (acc&Ha&H); exists acc; (split; [done|]).
  - destruct H as (t&Ht&Hu). apply elem_of_cons in Ht as [->|Ht]; [by left|]. apply elem_of_list_singleton in Ht as ->. by right.
  - destruct H; [exists a|exists b]; (split; [set_solver|done]).
Qed.

(** The balances, the income statement and what is left make up the whole inventory. *)
Theorem C101_sheet co bs filters a l i e bal inc rest all :
  (∀ l, co_lots co l ≡ₚ l) →
  option_name bs "name-assets" = Some a → option_name bs "name-liabilities" = Some l →
  option_name bs "name-income" = Some i → option_name bs "name-expenses" = Some e →
  Forall (λ s, has_colon s = false) [a; l; i; e] → NoDup [a; l; i; e] →
  balances co bs filters = Some bal → income_statement co bs filters = Some inc →
  inventory co bs (filters ++ [remaining bs]) = Some rest → inventory co bs filters = Some all →
  ∀ cur, (held_in_all cur bal + held_in_all cur inc + held_in_all cur rest == held_in_all cur all)%Q.
Proof.
  intros Hco Ha Hl Hi He Hcol Hnd Hbal Hinc Hrest Hall cur.
  set (f1 := f_sub_acc [Some a; Some l]). set (f2 := f_sub_acc [Some i; Some e]).
  unfold balances in Hbal. rewrite Ha, Hl in Hbal. fold f1 in Hbal. unfold income_statement in Hinc. rewrite Hi, He in Hinc. fold f2 in Hinc.
  unfold remaining in Hrest. rewrite Ha, Hl, Hi, He in Hrest. fold f1 f2 in Hrest.
  assert (parts (λ _, true) [f1; f2; none_f [f1; f2]]) as Hparts.
  { intros x. unfold ones. cbn [fmap list_fmap qsum]. unfold none_f. cbn [existsb].
    destruct (f1 x) eqn:E1, (f2 x) eqn:E2; cbn [orb negb]; try reflexivity. exfalso.
    unfold f1, f2 in E1, E2. apply sub_acc_two in E1 as (acc&Hx&H1), E2 as (acc'&Hx'&H2). rewrite Hx in Hx'. injection Hx' as <-.
    by eapply no_posting_in_both. }
  assert (inventory co bs (filters ++ (λ _, true) :: []) = Some all) as Hall'.
  { rewrite <- Hall. unfold inventory. assert (selected bs (filters ++ [λ _, true]) = selected bs filters) as ->; [|done].
    unfold selected. apply filter_ext'. intros p _. rewrite forallb_app. cbn. by rewrite andb_true_r. }
  destruct (report_parts co bs (inventory co bs) (λ _, true) [f1; f2; none_f [f1; f2]] filters [] all [bal; inc; rest]) as [_ H].
  - done.
  - by left.
  - done.
  - done.
  - repeat (constructor; [done|]). constructor.
  - rewrite (H cur). cbn [fmap list_fmap qsum]. ring.
Qed.
Print Assumptions C101_sheet.

(** ** From the text of the ledger *)
Section System.
Context {P S : Type} (env : server_env P S).
Context (jso : list json → list json) (jmo : list (string * json) → list (string * json)).
Context (Hjso : ∀ l, jso l ≡ₚ l) (Hjmo : ∀ l, jmo l ≡ₚ l).
Context (hs : nat → orders P) (sources : S).
Context (ns : string → option namespace) (read_config : option cval → option (option cval)).
Context (code : nat → nat) (spec : bool → cval → bool) (so : list cval → list cval).
Context (p : parsed) (Hacc : ∀ n m, or_accounts (hs n) m ≡ₚ map_to_list m).
Notation load_beanfile := (load_beanfile env jso jmo (Healthy (inl p)) hs sources ns read_config code spec so).

(** The same of a ledger which is loaded without an error and without plugins after
    booking. *)
Theorem C101_loaded m co o tol :
  load_beanfile = inr (Some m) → l_error m = None → of_phase true (l_plugins m) = [] →
  countable_ledger p → (∀ xs, l_raw_xf m = Some xs → countable xs) →
  lib_ok (env_booking env (pa_options p)) → balances_within (env_booking env (pa_options p)) tol → (∀ l, co_lots co l ≡ₚ l) →
  ∃ n l bs ws, to_be_booked env jso jmo p m l ∧ book_with env p hs n l = BookSuccess bs ws ∧
    (Forall dates_valid bs → ∃ vs ds, l_directives m = Some vs ∧ mapM view_directive vs = Some ds ∧
       ∀ filters inv, Forall by_transaction filters → Forall plain (transactions filters l) →
         inventory co (Beans ds o) filters = Some inv →
         ∀ cur, (Qabs (held_in_all cur inv) <= allowance tol cur (transactions filters l))%Q).
Proof using Hjso Hjmo Hacc.
  intros H1 H2 H3 H4 H5 HL Ht Hco.
  destruct (C87_loaded env jso jmo Hjso Hjmo hs sources ns read_config code spec so p Hacc m H1 H2 H3 H4 H5) as (n&l&bs&ws&Hl&Hb&Hd).
  exists n, l, bs, ws. split; [done|]. split; [done|]. intros Hv. destruct (Hd Hv) as (vs&ds&Hvs&Hds&Hs).
  exists vs, ds. split; [done|]. split; [done|]. intros filters inv Hf Hp Hi.
  eapply C101_balanced; [|done..]. intros mm. apply (Hacc n).
Qed.
End System.
Print Assumptions C101_loaded.

(** ** Samples *)
(** The library of [SampleLib.v], refusing what does not add up. *)
Definition strict_book (dt : date) (l : list posting_spec) (inv : string → option SampleLib.holding) (meth : string → lbooking) : lib_result SampleLib.holding :=
  match sample_book dt l inv meth with
  | LibOk ips upd =>
      if forallb (λ ip, Qeq_bool (completed_units (in_currency ip) ips) 0) ips then LibOk ips upd
      else LibErrTransaction "unbalanced transaction"
  | r => r
  end.
Definition strict_lib : booking_lib SampleLib.holding := BookingLib SampleLib.holding
  (lib_empty sample_lib) (lib_units sample_lib) (lib_accumulate sample_lib) strict_book
  (lib_supported sample_lib) (lib_default_booking sample_lib) (lib_multiplier sample_lib) (lib_show_booking sample_lib).
Lemma strict_sample dt l inv meth ips upd : strict_book dt l inv meth = LibOk ips upd →
  sample_book dt l inv meth = LibOk ips upd ∧ ∀ cur, (completed_units cur ips == 0)%Q.
Proof.
  unfold strict_book. destruct (sample_book dt l inv meth) as [ips' upd'| |]; try discriminate.
  destruct (forallb _ ips') eqn:E; [|discriminate]. intros [= <- <-]. split; [done|]. intros cur.
  destruct (decide (Exists (λ ip, in_currency ip = cur) ips')) as [H|H].
  - apply Exists_exists in H as (ip&Hip&<-). rewrite forallb_forall in E. apply Qeq_bool_iff, E. by apply elem_of_list_In.
  - unfold completed_units. rewrite filter_none; [reflexivity|]. intros ip Hip Hc. apply H, Exists_exists. by exists ip.
Qed.
Lemma strict_lib_ok : lib_ok strict_lib.
Proof.
  pose proof sample_lib_ok as [H1 H2 H3 H4 H5 H6]. split.
  - exact H1.
  - exact H2.
  - intros dt ps inv bk ips upd [H _]%strict_sample. by eapply H3.
  - intros dt ps inv bk ips upd [H _]%strict_sample. by eapply H4.
  - intros dt ps inv bk ips upd ip costs [H _]%strict_sample. by eapply H5.
  - intros dt ps inv bk ips upd n p cur [H _]%strict_sample. by eapply H6.
Qed.
Lemma strict_balances : balances_within strict_lib (λ _ _, 0%Q).
Proof. intros dt t inv meth ips upd cur _ [_ H]%strict_sample. by apply Qabs_zero. Qed.

(** A ledger with a pad and three transactions, one without a payee. *)
Definition e_ledger : list directive :=
  [ dir 1 (dopen "Assets:Bank"); dir 1 (dopen "Income:Work"); dir 1 (dopen "Expenses:Food"); dir 1 (dopen "Equity:Opening");
    dir 2 (DPad (Pad "Assets:Bank" "Equity:Opening"));
    dir 3 (dbal "Assets:Bank" 100 0 "USD");
    dir 3 (txn [post "Assets:Bank" 20 "USD"; post "Income:Work" (-20) "USD"]);
    dir 4 (DTransaction (Transaction "*" (Some "Shop") None [post "Expenses:Food" 15 "USD"; post "Assets:Bank" (-15) "USD"]));
    dir 5 (dbal "Assets:Bank" 105 0 "USD");
    dir 6 (txn [post "Expenses:Food" 5 "USD"; post "Assets:Bank" (-5) "USD"]) ].
Definition e_booked : list bdirective := booked_or_nil (book strict_lib sample_ord None e_ledger).
Definition e_beans : beans := Beans (seen_directive <$> e_booked) (client_options None).
Definition e_filters : list (citem → bool) := [date_lt (day 6)].
Definition e_total (i : option (gmap string (list position))) : option Q := (λ i, Qred (held_in_all "USD" i)) <$> i.
Example C101_example :
  (∃ ws, book strict_lib sample_ord None e_ledger = BookSuccess e_booked ws) ∧
  Forall2 directive_seen (seen_directive <$> e_booked) e_booked ∧
  Forall by_transaction e_filters ∧ length (transactions e_filters e_ledger) = 2 ∧ Forall plain (transactions e_filters e_ledger) ∧
  e_total (inventory plain_orders e_beans e_filters) = Some 0%Q ∧
  e_total (balances plain_orders e_beans e_filters) = Some 105%Q ∧
  e_total (income_statement plain_orders e_beans e_filters) = Some (-5)%Q ∧
  e_total (inventory plain_orders e_beans (e_filters ++ [remaining e_beans])) = Some (-100)%Q ∧
  (option_name e_beans <$> ["name-assets"; "name-liabilities"; "name-income"; "name-expenses"]) =
    [Some "Assets"; Some "Liabilities"; Some "Income"; Some "Expenses"] ∧
  (** a transaction which does not add up is refused *)
  strict_book (day 1) [post "Assets:Bank" 20 "USD"; post "Income:Work" (-19) "USD"] (λ _, None) (λ _, LStrict) = LibErrTransaction "unbalanced transaction".
Proof.
  split_and!; try (vm_compute; reflexivity).
  - eexists. vm_compute. reflexivity.
  - apply seen_all.
  - constructor; [|constructor]. apply C101_filters.
  - vm_compute. repeat constructor.
Qed.
