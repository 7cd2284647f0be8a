(** Theorems about reports of periods. *)
From Coq Require Import Ascii QArith Sorted.
From stdpp Require Import prelude gmap strings.
From Verif Require Import DecModel LedgerTypes IsoModel BookModel BookSpec BookProps SampleLib SampleLedgers WireSamples CljModel InventoryModel InventorySpec InventoryFacts OrderFacts InventoryMain InventoryProps
  RollupFacts ClientModel ClientSpec ClientDecode ClientFacts ClientMain ClientSamples ViewSpec ViewFacts ViewProps PeriodModel PeriodSpec PeriodFacts.
Local Open Scope nat_scope.

(** * C100 *)

(** Whatever report of accounts and whatever other filters: what an account holds of a
    period is the sum of what it holds of the periods which it is divided into, and what
    is held before the last day is what was held before the first with what was added in
    each period. *)
Theorem C100_periods co bs r pre post b ends inv invs :
  (∀ l, co_lots co l ≡ₚ l) → is_report co bs r → StronglySorted not_later (b :: ends) →
  let of f := r (pre ++ f :: post) in
  of (date_between b (default b (last ends))) = Some inv →
  Forall2 (λ p i, of (date_between p.1 p.2) = Some i) (periods b ends) invs →
  (∀ acc cur, held cur (holding inv acc) == qsum ((λ i, held cur (holding i acc)) <$> invs))%Q ∧
  (∀ cur, held_in_all cur inv == qsum (held_in_all cur <$> invs))%Q.
Proof.
  intros Hco Hr Hs of Hi HF. eapply (report_parts co bs r _ _ pre post inv invs Hco Hr (parts_between b ends Hs) Hi).
  by apply Forall2_fmap_l.
Qed.
Print Assumptions C100_periods.

Theorem C100_opening co bs r pre post b ends before0 inv invs :
  (∀ l, co_lots co l ≡ₚ l) → is_report co bs r → StronglySorted not_later (b :: ends) →
  let of f := r (pre ++ f :: post) in
  of (date_lt b) = Some before0 → of (date_lt (default b (last ends))) = Some inv →
  Forall2 (λ p i, of (date_between p.1 p.2) = Some i) (periods b ends) invs →
  (∀ acc cur, held cur (holding inv acc) == held cur (holding before0 acc) + qsum ((λ i, held cur (holding i acc)) <$> invs))%Q ∧
  (∀ cur, held_in_all cur inv == held_in_all cur before0 + qsum (held_in_all cur <$> invs))%Q.
Proof.
  intros Hco Hr Hs of H0 Hi HF.
  apply (report_parts co bs r _ _ pre post inv (before0 :: invs) Hco Hr (parts_before b ends Hs) Hi).
  constructor; [done|]. by apply Forall2_fmap_l.
Qed.
Print Assumptions C100_opening.

(** ** Journals *)

(** When the transactions are in order of their dates, the journal up to a day is the
    beginning of the journal up to a later day, with the same balances. *)
Theorem C100_journal co bs pre post d1 d2 l :
  in_date_order (be_directives bs) → not_later d1 d2 →
  journal co bs (pre ++ date_lt d2 :: post) = Some l →
  ∃ k, journal co bs (pre ++ date_lt d1 :: post) = Some k ∧ k `prefix_of` l.
Proof.
  intros Ho Hd. unfold journal, selected.
  destruct (before_prefix pre post d1 d2 _ Hd (xf_in_order _ Ho)) as [qs ->]. apply journal_build_prefix.
Qed.
Print Assumptions C100_journal.

(** Those of a ledger in order are. *)
Theorem C100_in_order {P} (L : booking_lib P) ord opt ds bs ws cs :
  in_ledger_order ds → book L ord opt ds = BookSuccess bs ws → Forall2 directive_seen cs bs → in_date_order cs.
Proof.
  intros Ho Hb Hs i j d d' a b Hij Hi Hj _ _ Ha Hb'.
  pose proof (mirrors_sorted _ _ _ (C01_output_mirrors_ledger _ _ _ _ _ _ _ Hb) Ho) as HS.
  destruct (Forall2_lookup_l _ _ _ _ _ Hs Hi) as (x&Hx&[Ex _]). destruct (Forall2_lookup_l _ _ _ _ _ Hs Hj) as (y&Hy&[Ey _]).
  destruct (sorted_lookup _ _ _ _ _ _ HS Hij Hx Hy) as [H _]. unfold not_later. congruence.
Qed.
Print Assumptions C100_in_order.

(** The last balance of a journal is what all accounts of the inventory hold. *)
Theorem C100_closing co bs filters l inv :
  (∀ l, co_lots co l ≡ₚ l) → journal co bs filters = Some l → inventory co bs filters = Some inv →
  ∀ cur, (held cur (default [] (last l.*2)) == held_in_all cur inv)%Q.
Proof.
  intros Hco Hj [m Hi]%inventory_built cur. rewrite (held_in_all_posted _ _ _ _ cur Hco Hi).
  destruct (C45_journal _ _ _ Hco Hj) as [Hlen Hr]. set (ps := selected bs filters) in *. clearbody ps. clear Hi Hj.
  rewrite last_lookup, fmap_length, Hlen. destruct (decide (ps = [])) as [E|E].
  { rewrite E in Hlen |- *. apply nil_length_inv in Hlen as ->. reflexivity. }
  destruct (lookup_lt_is_Some_2 ps (pred (length ps))) as [e He]; [destruct ps; [done|cbn; lia]|].
  destruct (Hr _ _ He) as (bl&Hrow&_&_&Hc). rewrite list_lookup_fmap, Hrow. cbn [fmap option_fmap option_map snd default]. rewrite Hc.
  replace (S (pred (length ps))) with (length ps) by (destruct ps; [done|cbn; lia]). by rewrite firstn_all.
Qed.
Print Assumptions C100_closing.

(** ** Financial years *)

Lemma fy_between y f : fy y = Some f →
  let y := if (y <? 100)%Z then (2000 + y)%Z else y in
  f = date_between (Date y 4 1) (Date (y + 1) 4 1).
Proof.
  unfold fy, date_ge_lt, to_date. cbv zeta. set (z := if (y <? 100)%Z then (2000 + y)%Z else y).
  destruct (valid_date (Date z 4 1)); [|discriminate]. destruct (valid_date (Date (z + 1) 4 1)); [|discriminate].
  by intros [= <-].
Qed.
Lemma in_financial_year y d : valid_date d = true →
  ((earlier (Date y 4 1) d ∨ d = Date y 4 1) ∧ earlier d (Date (y + 1) 4 1)) ↔ financial_year d = y.
Proof.
  unfold valid_date, earlier, financial_year. destruct d as [yy mm dd]. cbn [date_year date_month date_day].
  rewrite !andb_true_iff, !Z.leb_le. intros H. destruct (Z.leb_spec 4 mm).
  - split; [intros [[?|[= -> -> ->]] ?]; lia|]. intros <-. split; [|lia]. destruct (decide (mm = 4%Z)) as [->|]; [|left; right; lia].
    destruct (decide (dd = 1%Z)) as [->|]; [by right|left; right; lia].
  - split; [|intros <-; split; [left; lia|lia]].
    intros [[?|[= -> -> ->]] ?]; lia.
Qed.
(** The filter passes the items of one financial year. *)
Theorem C100_financial_year year f x d :
  fy year = Some f → it_date x = Some d → valid_date d = true →
  f x = true ↔ financial_year d = if (year <? 100)%Z then (2000 + year)%Z else year.
Proof.
  intros Hf Hx Hd. rewrite (fy_between _ _ Hf). rewrite date_between_spec, <- (in_financial_year _ _ Hd).
  split; [intros (e&He&H); rewrite Hx in He; by injection He as <-|]. intros H. by exists d.
Qed.
Print Assumptions C100_financial_year.

(** Every day from April of the year 100 on is in one financial year and no other. *)
Theorem C100_every_day d x :
  valid_date d = true → it_date x = Some d → (100 <= financial_year d < 9999)%Z →
  (∃ f, fy (financial_year d) = Some f ∧ f x = true) ∧
  ∀ y f, (100 <= y)%Z → fy y = Some f → f x = true → y = financial_year d.
Proof.
  intros Hd Hx Hy. split.
  - assert (∃ f, fy (financial_year d) = Some f) as [f Hf].
    { unfold fy. cbv zeta. destruct (Z.ltb_spec (financial_year d) 100); [lia|]. unfold date_ge_lt, to_date.
      assert (∀ y, (-9999 <= y <= 9999)%Z → valid_date (Date y 4 1) = true) as V.
      { intros y H1. unfold valid_date. cbn [date_year date_month date_day]. unfold month_days. cbn.
        rewrite !andb_true_iff, !Z.leb_le. lia. }
      rewrite !V by lia. eauto. }
    exists f. split; [done|]. apply (C100_financial_year _ _ _ _ Hf Hx Hd). by destruct (Z.ltb_spec (financial_year d) 100); [lia|].
  - intros y f H100 Hf H. apply (C100_financial_year _ _ _ _ Hf Hx Hd) in H. destruct (Z.ltb_spec y 100); [lia|done].
Qed.
Print Assumptions C100_every_day.

Lemma periods_years (y : Z) n :
  periods (Date y 4 1) ((λ y, Date y 4 1) <$> seqZ (y + 1) (Z.of_nat n)) = (λ y, (Date y 4 1, Date (y + 1) 4 1)) <$> seqZ y (Z.of_nat n).
Proof.
  revert y. induction n as [|n IH]; intros y; [done|].
  rewrite !(seqZ_cons _ (Z.of_nat (S n))) by lia. rewrite <- !Z.add_1_r. cbn [fmap list_fmap periods].
  replace (Z.pred (Z.of_nat (S n))) with (Z.of_nat n) by lia. by rewrite (IH (y + 1)%Z).
Qed.
Lemma years_sorted (y : Z) n : StronglySorted not_later ((λ y, Date y 4 1) <$> seqZ y (Z.of_nat n)).
Proof.
  revert y. induction n as [|n IH]; intros y; [constructor|].
  rewrite (seqZ_cons _ (Z.of_nat (S n))) by lia. replace (Z.pred (Z.of_nat (S n))) with (Z.of_nat n) by lia.
  cbn [fmap list_fmap]. constructor; [apply IH|]. apply Forall_fmap, Forall_forall. intros z Hz%elem_of_seqZ. cbn.
  unfold not_later, earlier. cbn. lia.
Qed.
(** The reports of consecutive financial years add up to that of all. *)
Theorem C100_years co bs r pre post year n inv invs :
  (∀ l, co_lots co l ≡ₚ l) → is_report co bs r → (100 <= year)%Z →
  r (pre ++ date_between (Date year 4 1) (Date (year + Z.of_nat n) 4 1) :: post) = Some inv →
  Forall2 (λ y i, ∃ f, fy y = Some f ∧ r (pre ++ f :: post) = Some i) (seqZ year (Z.of_nat n)) invs →
  (∀ acc cur, held cur (holding inv acc) == qsum ((λ i, held cur (holding i acc)) <$> invs))%Q ∧
  (∀ cur, held_in_all cur inv == qsum (held_in_all cur <$> invs))%Q.
Proof.
  intros Hco Hr Hy Hi HF.
  apply (C100_periods co bs r pre post (Date year 4 1) ((λ y, Date y 4 1) <$> seqZ (year + 1) (Z.of_nat n))); [done..| | |].
  - pose proof (years_sorted year (S n)) as H. rewrite (seqZ_cons _ (Z.of_nat (S n))) in H by lia.
    rewrite <- Z.add_1_r in H. by replace (Z.pred (Z.of_nat (S n))) with (Z.of_nat n) in H by lia.
  - rewrite <- Hi. do 2 f_equal. f_equal. destruct n as [|n]; [cbn; by rewrite Z.add_0_r|].
    rewrite seqZ_S, fmap_app. cbn [fmap list_fmap]. rewrite last_snoc. cbn [default]. unfold id. by replace (year + 1 + Z.of_nat n)%Z with (year + Z.of_nat (S n))%Z by lia.
  - rewrite periods_years. apply Forall2_fmap_l. apply Forall2_same_length_lookup in HF as [Hlen HF].
    apply Forall2_same_length_lookup. split; [done|]. intros k y i Hk Hi'. destruct (HF k y i Hk Hi') as (f&Hf&Hfi).
    apply elem_of_list_lookup_2, elem_of_seqZ in Hk. cbn. rewrite <- Hfi. do 2 f_equal. rewrite (fy_between _ _ Hf). destruct (Z.ltb_spec y 100); [|done]. lia.
Qed.
Print Assumptions C100_years.

(** ** Samples *)
(** Reports of the ledger of [SampleLedgers.v]: a pad on day 2, and transactions on days
    3 and 6. *)
Definition p_beans : beans := Beans v_client (client_options None).
Definition p_of (f : citem → bool) : option (gmap string (list position)) := inventory plain_orders p_beans ([] ++ f :: [f_cur "USD"]).
Definition p_held (acc : string) (i : option (gmap string (list position))) : option Q := (λ i, Qred (held "USD" (holding i acc))) <$> i.
Definition p_rows (d : date) : option (list (string * Q * Q)) :=
  map (λ e, (cp_acc e.1, cn_value (cp_units e.1), Qred (held "USD" e.2))) <$> journal plain_orders p_beans ([f_cur "USD"] ++ date_lt d :: []).
Example C100_example :
  StronglySorted not_later [day 1; day 3; day 6; day 8] ∧
  p_held "Assets:Bank" (p_of (date_between (day 1) (day 8))) = Some (- (5 # 2))%Q ∧
  (λ p, p_held "Assets:Bank" (p_of (date_between p.1 p.2))) <$> periods (day 1) [day 3; day 6; day 8] = [Some (15 # 2); Some 0; Some (-10)]%Q ∧
  in_date_order v_client ∧
  p_rows (day 4) = Some [("Assets:Bank", 750 # 100, 15 # 2); ("Equity:Opening", -750 # 100, 0); ("Assets:Bank:Sub", 250 # 100, 5 # 2); ("Equity:Opening", -3, -1 # 2)]%Q ∧
  length <$> p_rows (day 8) = Some 6.
Proof.
  split_and!; try (vm_compute; reflexivity).
  - repeat first [apply SSorted_nil | apply SSorted_cons | apply Forall_nil_2 | apply Forall_cons_2]; vm_compute; intuition discriminate.
  - apply (C100_in_order sample_lib sample_ord None ledger1 booked1 (match sample_run ledger1 with BookSuccess _ ws => ws | _ => [] end)).
    + exact (proj1 C88_example).
    + vm_compute. reflexivity.
    + exact (proj1 C87_example).
Qed.
Definition on (y m d : Z) : citem := CItem (Some (Date y m d)) None None None None.
Example C100_years_example :
  (λ f : citem → bool, f <$> [on 2025 3 31; on 2025 4 1; on 2026 3 31; on 2026 4 1]) <$> fy 25 = Some [false; true; true; false] ∧
  (λ f : citem → bool, f <$> [on 2025 3 31; on 2025 4 1; on 2026 3 31; on 2026 4 1]) <$> fy 2024 = Some [true; false; false; false].
Proof. vm_compute. auto. Qed.
