(** The names of commodities matter only for what is the same as what. *)
From Coq Require Import Ascii QArith Qabs.
From stdpp Require Import prelude gmap strings.
From Verif Require Import DecModel DecProofs LedgerTypes IsoModel JsonModel WireModel WireSpec WireFacts BookModel BookLib BookSpec BookProps BookFacts ReportSpec ReportSamples ReportProps SpanModel ParserModel
  JsonText SampleLib SampleLedgers WireSamples ServerModel ServerSpec ServerFacts ServerSamples CljModel InventoryModel InventorySpec InventoryFacts InventoryProps
  ClientModel ClientSpec ClientDecode ClientSamples FormatModel PluginModel PluginSpec LoaderModel
  LoaderSpec LoaderFacts LoaderProps EncodeModel SystemModel SystemFacts SystemLoad SystemSpec SystemErrors SystemTrace SystemProps ViewSpec ViewFacts ViewProps CommoditySpec CommodityFacts.
Local Open Scope nat_scope.

(** * C110 *)

Section Names.
Context {P P' : Type} (L : booking_lib P) (L' : booking_lib P').
Context (r : string → string) (Hr : ∀ a b, r a = r b → a = b) (f : P → P') (HL : lib_renamed r f L L').
Context (ord : gmap string (account P) → list (string * account P)) (Hord : ∀ m, ord m ≡ₚ map_to_list m).
Context (ord' : gmap string (account P') → list (string * account P')) (Hord' : ∀ m, ord' m ≡ₚ map_to_list m).

(** If the commodities of a ledger get other names, no two of them the same, what is booked
    is the same with the other names, and the warnings are the same; a ledger which is
    refused is refused, with the same errors but for the names in their texts. *)
Theorem C110_renamed opt ds :
  match book L ord opt ds with
  | BookSuccess bs ws => book L' ord' opt (recur r <$> ds) = BookSuccess (recur_booked r <$> bs) ws
  | BookFailure es => ∃ es1 es', book L' ord' opt (recur r <$> ds) = BookFailure es' ∧ es1 ≡ₚ es ∧ Forall2 same_but_text es1 es'
  | BookPanic _ => ∃ w, book L' ord' opt (recur r <$> ds) = BookPanic w
  end.
Proof using HL Hr Hord Hord'.
  pose proof (cur_book L L' r Hr f HL ord Hord ord' Hord' opt ds) as HB.
  destruct (book L ord opt ds), (book L' ord' opt _); try done.
  - by destruct HB as (->&->).
  - destruct HB as (es1&H1&H2). by exists es1, errors0.
  - by eexists.
Qed.

(** ** The reports *)
Definition recur_entry (e : citem * posting) : citem * posting := (recur_item r e.1, recur_posting r e.2).
Lemma entries_recur bs : booked_entries (recur_booked r <$> bs) = recur_entry <$> booked_entries bs.
Proof.
  induction bs as [|b bs IH]; [done|]. rewrite fmap_cons. unfold booked_entries in *. rewrite !bind_cons, fmap_app, IH. f_equal.
  change (b_variant (recur_booked r b)) with (recur_booked_variant r (b_variant b)). destruct (b_variant b); try done. cbn [recur_booked_variant bt_postings].
  rewrite <- !list_fmap_compose. by apply list_fmap_ext.
Qed.
Lemma selected_recur filters filters' bs : Forall2 (λ (f f' : citem → bool), ∀ it, f' (recur_item r it) = f it) filters filters' →
  entries_selected filters' (recur_booked r <$> bs) = recur_entry <$> entries_selected filters bs.
Proof.
  intros HF. unfold entries_selected. rewrite entries_recur. induction (booked_entries bs) as [|e l IH]; [done|]. rewrite fmap_cons, !filter_cons.
  assert (Forall (λ f, f e.1 = true) filters ↔ Forall (λ f, f (recur_entry e).1 = true) filters') as Hiff.
  { clear -HF. induction HF as [|g g' fs fs' H HF IH]; [by split; constructor|]. rewrite !Forall_cons, IH. unfold recur_entry. cbn [fst]. by rewrite H. }
  destruct (decide (Forall (λ f, f e.1 = true) filters)) as [Hd|Hd], (decide (Forall (λ f, f (recur_entry e).1 = true) filters')) as [Hd'|Hd'];
    [rewrite fmap_cons; by f_equal|tauto|tauto|done].
Qed.
Lemma units_recur cur l : entry_units (r cur) (recur_entry <$> l) = entry_units cur l.
Proof using Hr.
  unfold entry_units. f_equal. induction l as [|e l IH]; [done|]. rewrite fmap_cons, !filter_cons.
  destruct (decide (p_cur e.2 = cur)) as [E|E], (decide (p_cur (recur_entry e).2 = r cur)) as [E'|E']; cbn in E'.
  - rewrite !fmap_cons. cbn. by f_equal.
  - by destruct E'; rewrite E.
  - by destruct E; apply Hr.
  - done.
Qed.
Lemma units_new cur l : (∀ c, r c ≠ cur) → entry_units cur (recur_entry <$> l) = 0%Q.
Proof.
  intros H. unfold entry_units. induction l as [|e l IH]; [done|]. rewrite fmap_cons, filter_cons. destruct (decide (p_cur (recur_entry e).2 = cur)) as [E|E]; [by apply H in E|done].
Qed.
Lemma to_account_recur acc l : to_account acc (recur_entry <$> l) = recur_entry <$> to_account acc l.
Proof.
  unfold to_account. induction l as [|e l IH]; [done|]. rewrite fmap_cons, !filter_cons. change (p_acc (recur_entry e).2) with (p_acc e.2).
  destruct (decide (p_acc e.2 = acc)); [|done]. rewrite fmap_cons. by f_equal.
Qed.
(** With filters which let the renamed pass as the old ones did, the user sees in each
    account as much of a commodity under its new name as under the old one, and nothing
    else, and the same journal. *)
Theorem C110_reports opt ds bs ws bs' ws' cs cs' co co' o o' filters filters' :
  (∀ l, co_lots co l ≡ₚ l) → (∀ l, co_lots co' l ≡ₚ l) →
  book L ord opt ds = BookSuccess bs ws → book L' ord' opt (recur r <$> ds) = BookSuccess bs' ws' →
  Forall2 (λ (f f' : citem → bool), ∀ it, f' (recur_item r it) = f it) filters filters' →
  Forall2 directive_seen cs bs → Forall2 directive_seen cs' bs' →
  (∀ inv inv', inventory co (Beans cs o) filters = Some inv → inventory co' (Beans cs' o') filters' = Some inv' →
     ∀ acc, (∀ cur, (InventorySpec.held (r cur) (InventorySpec.holding inv' acc) == InventorySpec.held cur (InventorySpec.holding inv acc))%Q) ∧
       (∀ cur, (∀ c, r c ≠ cur) → (InventorySpec.held cur (InventorySpec.holding inv' acc) == 0)%Q)) ∧
  (∀ l l', journal co (Beans cs o) filters = Some l → journal co' (Beans cs' o') filters' = Some l' →
     length l' = length l ∧
     ∀ n row bal, l !! n = Some (row, bal) → ∃ row' bal', l' !! n = Some (row', bal') ∧
       item_of_posting row' = recur_item r (item_of_posting row) ∧ (cn_value (cp_units row') == cn_value (cp_units row))%Q ∧
       ∀ cur, (InventorySpec.held (r cur) bal' == InventorySpec.held cur bal)%Q).
Proof using HL Hr Hord Hord'.
  intros Hco Hco' Hb Hb' Hf Hs Hs'.
  pose proof (cur_book L L' r Hr f HL ord Hord ord' Hord' opt ds) as HB. rewrite Hb, Hb' in HB. destruct HB as (->&_).
  pose proof (selected_recur filters filters' bs Hf) as E. split.
  - intros inv inv' Hi Hi' acc. destruct (C87_inventory _ _ _ _ _ _ Hco Hs Hi) as [X1 _], (C87_inventory _ _ _ _ _ _ Hco' Hs' Hi') as [X2 _]. split.
    + intros cur. rewrite X1, X2, E, to_account_recur. by rewrite units_recur.
    + intros cur Hc. rewrite X2, E, to_account_recur, units_new by done. reflexivity.
  - intros l l' Hj Hj'. destruct (C87_journal _ _ _ _ _ _ Hco Hs Hj) as [Hl1 X1], (C87_journal _ _ _ _ _ _ Hco' Hs' Hj') as [Hl2 X2].
    rewrite E in *. rewrite fmap_length in Hl2. split; [congruence|]. intros n row bal Hrow.
    destruct (lookup_lt_is_Some_2 (entries_selected filters bs) n) as [e He]; [rewrite <- Hl1; by eapply lookup_lt_Some|].
    destruct (X1 n e He) as (row0&bal0&Hr0&I1&[U1 _]&B1). rewrite Hrow in Hr0. injection Hr0 as <- <-.
    destruct (X2 n (recur_entry e)) as (row'&bal'&Hr'&I2&[U2 _]&B2); [by rewrite list_lookup_fmap, He|].
    exists row', bal'. split; [done|]. split; [rewrite I2, I1; done|]. split; [by rewrite U1, U2|].
    intros cur. rewrite B1, B2, <- fmap_take, units_recur. reflexivity.
Qed.
End Names.
Print Assumptions C110_renamed.
Print Assumptions C110_reports.

(** ** A library which meets the premise *)
Section Sample.
Context (r : string → string) (Hr : ∀ a b, r a = r b → a = b) (Hd : r "USD" = "USD").
Local Instance r_is_inj : Inj (=) (=) r := Hr.
Definition recur_holding (p : SampleLib.holding) : SampleLib.holding := kmap r p.
Lemma sample_add_recur p u c : sample_add (recur_holding p) u (r c) = recur_holding (sample_add p u c).
Proof using Hr. unfold sample_add, recur_holding. rewrite kmap_insert by apply _. by rewrite lookup_kmap by apply _. Qed.
Lemma sample_lots_recur dt u cs : sample_lots dt u (recur_cost_spec r cs) = (λ x, (r x.1, x.2)) <$> sample_lots dt u cs.
Proof using Hd.
  unfold sample_lots. cbn [recur_cost_spec cs_cur cs_date cs_per_unit cs_label cs_merge].
  assert (default "USD" (r <$> cs_cur cs) = r (default "USD" (cs_cur cs))) as -> by (destruct (cs_cur cs); cbn; done). done.
Qed.
Lemma sample_postings_recur dt i l : SampleLib.sample_postings dt i (recur_posting_spec r <$> l) =
  match SampleLib.sample_postings dt i l with inl e => inl e | inr x => inr (recur_interpolated r <$> x) end.
Proof using Hd.
  revert i. induction l as [|p l IH]; intros i; [done|]. rewrite fmap_cons. cbn [SampleLib.sample_postings]. cbn [recur_posting_spec ps_units ps_cur ps_cost].
  destruct (ps_units p) as [u|]; [|done]. destruct (ps_cur p) as [c|]; [|done]. cbn [fmap option_fmap option_map]. rewrite IH. destruct (SampleLib.sample_postings dt (S i) l); [done|].
  rewrite fmap_cons. do 2 f_equal. unfold recur_interpolated. cbn [in_units in_currency in_cost in_price]. f_equal.
  destruct (ps_cost p); [|done]. cbn [fmap option_fmap option_map]. by rewrite sample_lots_recur.
Qed.
Lemma sample_apply_recur n ips ps h :
  sample_apply n (zip (recur_interpolated r <$> ips) (recur_posting_spec r <$> ps)) (recur_holding h) = recur_holding (sample_apply n (zip ips ps) h).
Proof using Hr.
  revert ips h. induction ps as [|p ps IH]; intros [|ip ips] h; try done. rewrite !fmap_cons. cbn [zip zip_with sample_apply]. cbn [recur_posting_spec ps_acc recur_interpolated in_units in_currency].
  destruct (String.eqb (ps_acc p) n); [rewrite sample_add_recur|]; apply IH.
Qed.
Lemma sample_renamed : lib_renamed r recur_holding sample_lib sample_lib.
Proof using Hr Hd.
  constructor; try done.
  - intros p c. cbn [lib_units sample_lib]. unfold recur_holding. by rewrite lookup_kmap by apply _.
  - intros p u c. apply sample_add_recur.
  - intros dt ps inv inv' bk bk' Hinv _. cbn [lib_book sample_lib]. unfold sample_book. destruct ps as [|p ps]; [done|]. set (l := p :: ps).
    assert (∀ (A : Type) (x y : A), match recur_posting_spec r <$> l with [] => x | _ :: _ => y end = y) as Em by done. rewrite !Em.
    rewrite sample_postings_recur. destruct (SampleLib.sample_postings dt 0 l) as [k|ips]; [done|]. f_equal.
    assert (ps_acc <$> (recur_posting_spec r <$> l) = ps_acc <$> l) as -> by by rewrite <- !list_fmap_compose.
    rewrite <- list_fmap_compose. apply list_fmap_ext. intros i n _. cbn. f_equal. rewrite <- (sample_apply_recur n ips l), Hinv. f_equal.
    destruct (inv n); [done|]. cbn [fmap option_fmap option_map default]. unfold recur_holding. symmetry. apply kmap_empty.
Qed.
End Sample.

(** The user calls the euro by another name. *)
Definition eur_chf (c : string) : string := if String.eqb c "EUR" then "CHF" else if String.eqb c "CHF" then "EUR" else c.
Lemma eur_chf_inj a b : eur_chf a = eur_chf b → a = b.
Proof.
  unfold eur_chf. destruct (String.eqb_spec a "EUR"), (String.eqb_spec a "CHF"), (String.eqb_spec b "EUR"), (String.eqb_spec b "CHF"); congruence.
Qed.
Definition euros : list directive :=
  [ dir 1 (DOpen (Open "Assets:Bank" (Some {["USD"; "EUR"]}) None)); dir 1 (dopen "Equity:Opening"); dir 1 (DCommodity "EUR");
    dir 2 (DPad (Pad "Assets:Bank" "Equity:Opening"));
    dir 3 (txn [post "Assets:Bank" 8 "EUR"; post "Equity:Opening" (-8) "EUR"]);
    dir 4 (txn [post "Assets:Bank" 5 "USD"; post "Equity:Opening" (-5) "USD"]);
    dir 5 (dbal "Assets:Bank" 10 0 "EUR"); dir 6 (dbal "Assets:Bank" 5 0 "USD") ].
Definition euros_booked : list bdirective := booked_or_nil (sample_run euros).
Lemma euros_book : sample_run euros = BookSuccess euros_booked [].
Proof. by vm_compute. Qed.
Example C110_example :
  lib_ok sample_lib ∧ lib_renamed eur_chf (recur_holding eur_chf) sample_lib sample_lib ∧ eur_chf "EUR" = "CHF" ∧ eur_chf "USD" = "USD" ∧
  sample_run (recur eur_chf <$> euros) = BookSuccess (recur_booked eur_chf <$> euros_booked) [] ∧ recur_booked eur_chf <$> euros_booked ≠ euros_booked.
Proof.
  split; [exact sample_lib_ok|]. split; [by apply sample_renamed; [exact eur_chf_inj|]|]. split; [done|]. split; [done|]. split; [|vm_compute; discriminate].
  pose proof (C110_renamed sample_lib sample_lib eur_chf eur_chf_inj (recur_holding eur_chf) (sample_renamed eur_chf eur_chf_inj eq_refl) sample_ord sample_ord_perm sample_ord sample_ord_perm None euros) as H.
  pose proof euros_book as Hb. unfold sample_run in *. rewrite Hb in H. exact H.
Qed.

(** If two commodities get the same name, what was right about one of them need not be
    right about both together. *)
Definition merged (c : string) : string := if String.eqb c "EUR" then "USD" else c.
Theorem C110_merged_refuted : ∃ ds bs,
  sample_run ds = BookSuccess bs [] ∧ ¬ (∃ bs' ws, sample_run (recur merged <$> ds) = BookSuccess bs' ws).
Proof.
  exists euros, euros_booked. split; [exact euros_book|]. intros (bs&ws&H). vm_compute in H. discriminate H.
Qed.
Print Assumptions C110_merged_refuted.
