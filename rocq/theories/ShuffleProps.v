(** The order of transactions which follow each other does not matter. *)
From Coq Require Import Ascii QArith Qabs.
From stdpp Require Import prelude gmap strings.
From Verif Require Import DecModel DecProofs LedgerTypes IsoModel JsonModel WireModel WireSpec WireFacts BookModel BookLib BookSpec BookProps BookFacts ReportSpec ReportSamples ReportProps SpanModel ParserModel
  JsonText SampleLib SampleLedgers WireSamples ServerModel ServerSpec ServerFacts ServerSamples CljModel InventoryModel InventorySpec InventoryFacts InventoryProps
  ClientModel ClientSpec ClientDecode ClientSamples FormatModel PluginModel PluginSpec LoaderModel
  LoaderSpec LoaderFacts LoaderProps EncodeModel SystemModel SystemFacts SystemLoad SystemSpec SystemErrors SystemTrace SystemProps ViewSpec ViewFacts ViewProps SameSpec SameProps SplitFacts ShuffleSpec ShuffleFacts.
Local Open Scope nat_scope.

(** * C106 *)

(** A ledger is booked in any order of the transactions which follow each other, with the
    same warnings, and the same is booked but for the order. *)
Theorem C106_order {P} (L : booking_lib P) same ord opt ds ds' bs ws :
  reorders L same → lib_ok L → lib_ext L → (∀ m, ord m ≡ₚ map_to_list m) → reordered ds ds' →
  book L ord opt ds = BookSuccess bs ws → ∃ bs', book L ord opt ds' = BookSuccess bs' ws ∧ same_but_order bs bs'.
Proof.
  intros HR HL He Ho H. revert bs. induction H as [ds|ds1 a b ds2 Ca Cb|ds ds' ds'' _ IH1 _ IH2]; intros bs Hb.
  - exists bs. split; [done|apply same_but_order_refl].
  - by eapply swap_book.
  - destruct (IH1 bs Hb) as (bs1&H1&S1). destruct (IH2 bs1 H1) as (bs2&H2&S2). exists bs2. split; [done|]. by eapply same_but_order_trans.
Qed.
Print Assumptions C106_order.
(** So it is refused in any order if it is refused in one. *)
Theorem C106_refused {P} (L : booking_lib P) same ord opt ds ds' :
  reorders L same → lib_ok L → lib_ext L → (∀ m, ord m ≡ₚ map_to_list m) → reordered ds ds' →
  (∃ bs ws, book L ord opt ds = BookSuccess bs ws) ↔ (∃ bs ws, book L ord opt ds' = BookSuccess bs ws).
Proof.
  intros HR HL He Ho H. split; intros (bs&ws&Hb).
  - destruct (C106_order L same ord opt ds ds' bs ws HR HL He Ho H Hb) as (bs'&?&_). eauto.
  - destruct (C106_order L same ord opt ds' ds bs ws HR HL He Ho (reordered_sym _ _ H) Hb) as (bs'&?&_). eauto.
Qed.
Print Assumptions C106_refused.

(** ** The reports *)
Lemma qsum_perm l l' : l ≡ₚ l' → (qsum l == qsum l')%Q.
Proof.
  induction 1 as [|x l l' _ IH|x y l|l l' l'' _ IH1 _ IH2]; cbn; [done|by rewrite IH|ring|by rewrite IH1].
Qed.
Lemma units_order filters acc cur bs cs : same_but_order bs cs →
  (entry_units cur (ViewSpec.to_account acc (entries_selected filters bs)) == entry_units cur (ViewSpec.to_account acc (entries_selected filters cs)))%Q.
Proof.
  intros (ms&Hp&Ha).
  transitivity (entry_units cur (ViewSpec.to_account acc (entries_selected filters ms))).
  - unfold entry_units. apply qsum_perm. apply fmap_Permutation. unfold ViewSpec.to_account, entries_selected.
    assert (booked_entries bs ≡ₚ booked_entries ms) as -> by (unfold booked_entries; by rewrite Hp). done.
  - clear bs Hp. induction Ha as [|b c ms cs Hbc _ IH]; [done|].
    assert (∀ (b : bdirective) l, (entry_units cur (ViewSpec.to_account acc (entries_selected filters (b :: l))) ==
      entry_units cur (ViewSpec.to_account acc (entries_selected filters [b])) + entry_units cur (ViewSpec.to_account acc (entries_selected filters l)))%Q) as Hc.
    { intros b' l. unfold entry_units, ViewSpec.to_account, entries_selected.
      assert (booked_entries (b' :: l) = booked_entries [b'] ++ booked_entries l) as -> by apply (booked_entries_app [b'] l).
      rewrite !filter_app, fmap_app. apply qsum_app. }
    rewrite (Hc b), (Hc c), IH. apply Qplus_inj_r. clear IH Hc ms cs.
    destruct Hbc as [D1 _ _ _ D2]. unfold entry_units, ViewSpec.to_account, entries_selected, booked_entries. cbn [mbind list_bind].
    destruct (b_variant b) as [t| | | | | | | | | | |], (b_variant c) as [u| | | | | | | | | | |]; try done.
    destruct D2 as (_&->&->&HF). rewrite D1, !app_nil_r. induction HF as [|p q l l' [Hu (_&_&E1&E2&_)] _ IH]; [done|].
    rewrite !fmap_cons, !(filter_cons (λ e : citem * posting, Forall _ _)). rewrite E1, E2. cbn [fst].
    case_decide as HD; [|exact IH]. rewrite !(filter_cons (λ e : citem * posting, _ = _) (_, _)). cbn [fst snd it_acc]. rewrite E1.
    case_decide as HD1; [|exact IH]. rewrite !(filter_cons (λ e : citem * posting, _ = _) (_, _)). cbn [fst snd]. rewrite E2.
    case_decide as HD2; [|exact IH]. cbn. by rewrite Hu, IH.
Qed.
(** And the user sees the same holdings, with whatever filters. *)
Theorem C106_reports {P} (L : booking_lib P) same ord opt ds ds' bs ws bs' ws' cs cs' co co' o o' filters inv inv' acc cur :
  reorders L same → lib_ok L → lib_ext L → (∀ m, ord m ≡ₚ map_to_list m) → reordered ds ds' →
  (∀ l, co_lots co l ≡ₚ l) → (∀ l, co_lots co' l ≡ₚ l) →
  book L ord opt ds = BookSuccess bs ws → book L ord opt ds' = BookSuccess bs' ws' →
  Forall2 directive_seen cs bs → Forall2 directive_seen cs' bs' →
  inventory co (Beans cs o) filters = Some inv → inventory co' (Beans cs' o') filters = Some inv' →
  (InventorySpec.held cur (InventorySpec.holding inv acc) == InventorySpec.held cur (InventorySpec.holding inv' acc))%Q.
Proof.
  intros HR HL He Ho H Hco Hco' Hb Hb' Hs Hs' Hi Hi'.
  destruct (C106_order L same ord opt ds ds' bs ws HR HL He Ho H Hb) as (bs1&Hb1&Hso). rewrite Hb' in Hb1. injection Hb1 as <- _.
  destruct (C87_inventory _ _ _ _ _ _ Hco Hs Hi) as [X1 _], (C87_inventory _ _ _ _ _ _ Hco' Hs' Hi') as [X2 _].
  rewrite X1, X2. by apply units_order.
Qed.
Print Assumptions C106_reports.

(** The library of the examples is one. *)
Definition same_units (p p' : SampleLib.holding) : Prop := ∀ cur, (BookLib.held sample_lib p cur == BookLib.held sample_lib p' cur)%Q.
Lemma updates_of {A} (f : string → A) (l : list string) n : (list_to_map ((λ n, (n, f n)) <$> remove_dups l) : gmap string A) !! n = if decide (n ∈ l) then Some (f n) else None.
Proof.
  assert (NoDup (((λ n, (n, f n)) <$> remove_dups l).*1)) as Hnd. { rewrite <- list_fmap_compose. unfold compose. cbn. rewrite list_fmap_id. apply NoDup_remove_dups. }
  case_decide as H.
  - apply elem_of_list_to_map_1; [done|]. apply elem_of_list_fmap. exists n. split; [done|]. by apply elem_of_remove_dups.
  - apply not_elem_of_list_to_map_1. intros ([n' a]&Hn&(m&[= -> ->]&Hm)%elem_of_list_fmap)%elem_of_list_fmap. cbn in Hn. subst. by apply (proj1 (elem_of_remove_dups _ _)) in Hm.
Qed.
Lemma sample_does dt ps inv inv' bk bk' ips upd : lib_book sample_lib dt ps inv bk = LibOk ips upd → ∃ upd', lib_book sample_lib dt ps inv' bk' = LibOk ips upd'.
Proof. cbn. unfold sample_book. destruct ps; [done|]. destruct (SampleLib.sample_postings _ _ _); [done|]. intros [= <- _]. by eexists. Qed.
Lemma sample_reorders : reorders sample_lib same_units.
Proof.
  split.
  - intros p cur. reflexivity.
  - done.
  - intros p p' u u' c H Hu cur. rewrite !(lk_accumulate _ sample_lib_ok), (H cur). destruct (String.eqb c cur); [by rewrite Hu|reflexivity].
  - intros dt ps inv inv' bk ips upd Hi H. destruct (sample_does dt ps inv inv' bk bk ips upd H) as [upd' H']. exists upd'. split; [done|].
    cbn in H, H'. apply sample_book_inv in H as [_ ->], H' as [_ ->]. intros n. rewrite !updates_of. case_decide; constructor.
    intros cur. rewrite !sample_apply_held. apply Qplus_inj_r. destruct (Hi n) as [p p' Hp|]; [apply Hp|reflexivity].
  - intros dt ps ips upd dt' ps' ips' upd' inv bk _ _ Hacc H1 H2.
    destruct (sample_does dt' ps' _ inv bk bk ips' upd' H2) as [upd1 G1]. destruct (sample_does dt ps _ (after inv upd1) bk bk ips upd H1) as [upd2 G2].
    exists upd1, upd2. split; [done|]. split; [done|]. intros n.
    assert (∀ dt ps inv ips upd, lib_book sample_lib dt ps inv bk = LibOk ips upd → ∀ n p, inv n = Some p → ∃ q, after inv upd n = Some q ∧
      ∀ cur, (BookLib.held sample_lib q cur == BookLib.held sample_lib p cur + interpolated_units n cur (zip ips ps))%Q) as Hsome.
    { clear. intros dt ps inv ips upd H n p Hp. unfold after. destruct ((list_to_map upd : gmap string SampleLib.holding) !! n) as [q|] eqn:E.
      - exists q. split; [done|]. intros cur. pose proof (lk_units _ sample_lib_ok _ _ _ _ _ _ n p cur H Hp) as X. by rewrite E in X.
      - exists p. split; [done|]. intros cur. pose proof (lk_units _ sample_lib_ok _ _ _ _ _ _ n p cur H Hp) as X. by rewrite E in X. }
    assert (∀ dt ps inv ips upd, lib_book sample_lib dt ps inv bk = LibOk ips upd → ∀ n, n ∉ ps_acc <$> ps → after inv upd n = inv n) as Hnone.
    { clear. intros dt ps inv ips upd H n Hn. unfold after. rewrite not_elem_of_list_to_map_1; [done|]. intros Hin. apply Hn. by apply (lk_names _ sample_lib_ok _ _ _ _ _ _ H). }
    destruct (inv n) as [p|] eqn:En.
    + destruct (Hsome _ _ _ _ _ H1 n p En) as (q1&E1&X1). destruct (Hsome _ _ _ _ _ H2 n q1 E1) as (q2&->&X2).
      destruct (Hsome _ _ _ _ _ G1 n p En) as (r1&F1&Y1). destruct (Hsome _ _ _ _ _ G2 n r1 F1) as (r2&->&Y2). constructor.
      intros cur. rewrite X2, X1, Y2, Y1. ring.
    + assert (n ∉ ps_acc <$> ps ++ ps') as Hn by (intros Hn%Hacc; rewrite En in Hn; by destruct Hn).
      rewrite fmap_app, elem_of_app in Hn. rewrite (Hnone _ _ _ _ _ H2), (Hnone _ _ _ _ _ H1), (Hnone _ _ _ _ _ G2), (Hnone _ _ _ _ _ G1) by tauto. rewrite En. constructor.
Qed.

(** Three transactions between a pad and the assertion which fills it, written in three
    different scales. *)
Definition post2 (acc : string) (m : Z) (s : nat) (cur : string) : posting_spec :=
  PostingSpec None None acc (Some (Dec m s)) (Some cur) None None None None None.
Definition t1 := dir 3 (txn [post2 "Assets:Bank" 250 2 "USD"; post2 "Income:Job" (-250) 2 "USD"]).
Definition t2 := dir 3 (txn [post2 "Assets:Bank:Sub" (-5) 1 "USD"; post2 "Expenses:Food" 5 1 "USD"]).
Definition t3 := dir 4 (txn [post "Assets:Bank" 4 "USD"; post "Assets:Bank:Sub" (-4) "USD"]).
Definition around (l : list directive) : list directive :=
  [ dir 1 (dopen "Assets:Bank"); dir 1 (dopen "Assets:Bank:Sub"); dir 1 (dopen "Income:Job"); dir 1 (dopen "Expenses:Food"); dir 1 (dopen "Equity:Opening");
    dir 2 (DPad (Pad "Assets:Bank" "Equity:Opening")) ] ++ l ++
  [ dir 5 (dbal "Assets:Bank" 10 0 "USD"); dir 6 (txn [post "Assets:Bank" 1 "USD"; post "Income:Job" (-1) "USD"]); dir 7 (dbal "Assets:Bank" 11 0 "USD") ].
Example C106_example :
  reorders sample_lib same_units ∧ lib_ok sample_lib ∧ lib_ext sample_lib ∧
  reordered (around [t1; t2; t3]) (around [t3; t1; t2]) ∧
  let bs := booked_or_nil (sample_run (around [t1; t2; t3])) in let bs' := booked_or_nil (sample_run (around [t3; t1; t2])) in
  sample_run (around [t1; t2; t3]) = BookSuccess bs [] ∧ sample_run (around [t3; t1; t2]) = BookSuccess bs' [] ∧
  length bs = 13 ∧ same_but_order bs bs' ∧ b_date <$> bs ≠ b_date <$> bs'.
Proof.
  split; [exact sample_reorders|]. split; [exact sample_lib_ok|].
  pose proof sample_lib_ext as He.
  split; [exact He|].
  assert (reordered (around [t1; t2; t3]) (around [t3; t1; t2])) as Hr.
  { apply reordered_block; [by rewrite (Permutation_app_comm [t1; t2] [t3])|]. repeat constructor; (eexists; split; [reflexivity|]; repeat constructor). }
  split; [exact Hr|]. cbv zeta.
  assert (sample_run (around [t1; t2; t3]) = BookSuccess (booked_or_nil (sample_run (around [t1; t2; t3]))) []) as B1 by (vm_compute; reflexivity).
  assert (sample_run (around [t3; t1; t2]) = BookSuccess (booked_or_nil (sample_run (around [t3; t1; t2]))) []) as B2 by (vm_compute; reflexivity).
  split; [exact B1|]. split; [exact B2|]. split; [by vm_compute|]. split; [|vm_compute; discriminate].
  destruct (C106_order sample_lib same_units sample_ord None _ _ _ _ sample_reorders sample_lib_ok He sample_ord_perm Hr B1) as (bs'&Hb&Hs).
  unfold sample_run in B2 at 1. rewrite B2 in Hb. apply (f_equal booked_or_nil) in Hb. change (booked_or_nil (sample_run (around [t3; t1; t2])) = bs') in Hb. by rewrite Hb.
Qed.
(** A transaction does not change places with a balance assertion. *)
Theorem C106_balance_refuted : ∃ ds1 a b ds2 bs, costless_transaction a ∧
  sample_run (ds1 ++ a :: b :: ds2) = BookSuccess bs [] ∧ ¬ (∃ bs' ws, sample_run (ds1 ++ b :: a :: ds2) = BookSuccess bs' ws).
Proof.
  pose (a := dir 3 (txn [post "Assets:Bank" 2 "USD"; post "Income:Job" (-2) "USD"])). pose (b := dir 3 (dbal "Assets:Bank" 2 0 "USD")).
  exists [dir 1 (dopen "Assets:Bank"); dir 1 (dopen "Income:Job")], a, b, [], (booked_or_nil (sample_run ([dir 1 (dopen "Assets:Bank"); dir 1 (dopen "Income:Job")] ++ [a; b]))).
  split; [eexists; split; [reflexivity|]; repeat constructor|]. split; [by vm_compute|]. intros (bs&ws&H). vm_compute in H. discriminate H.
Qed.
Print Assumptions C106_balance_refuted.
