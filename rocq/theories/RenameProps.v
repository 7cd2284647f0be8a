(** The names of accounts matter only for what is below what. *)
From Coq Require Import Ascii QArith Qabs.
From stdpp Require Import prelude gmap strings.
From Verif Require Import DecModel DecProofs LedgerTypes IsoModel JsonModel WireModel WireSpec WireFacts BookModel BookLib BookSpec BookProps BookFacts ReportSpec ReportSamples ReportProps SpanModel ParserModel
  JsonText SampleLib SampleLedgers WireSamples ServerModel ServerSpec ServerFacts ServerSamples CljModel InventoryModel InventorySpec InventoryFacts InventoryProps
  ClientModel ClientSpec ClientDecode ClientSamples FormatModel PluginModel PluginSpec LoaderModel
  LoaderSpec LoaderFacts LoaderProps EncodeModel SystemModel SystemFacts SystemLoad SystemSpec SystemErrors SystemTrace SystemProps ViewSpec ViewFacts ViewProps RenameSpec RenameFacts.
Local Open Scope nat_scope.

(** * C107 *)

Section Names.
Context {P : Type} (L : booking_lib P) (HL : lib_ok L) (Hn : lib_nameless L).
Context (ord ord' : gmap string (account P) → list (string * account P)) (Hord : ∀ m, ord m ≡ₚ map_to_list m) (Hord' : ∀ m, ord' m ≡ₚ map_to_list m).

(** If the accounts of a ledger get other names, which are below each other as the old
    ones were, what is booked is the same with the other names, and so are the warnings; a
    ledger which is refused is refused, with errors at the same places. *)
Theorem C107_renamed opt r ds : keeps_hierarchy r ds →
  match book L ord opt ds with
  | BookSuccess bs ws => book L ord' opt (rename r <$> ds) = BookSuccess (rename_booked r <$> bs) ws
  | BookFailure es => ∃ es1 es', book L ord' opt (rename r <$> ds) = BookFailure es' ∧ es1 ≡ₚ es ∧ Forall2 same_place es1 es'
  | BookPanic _ => ∃ w, book L ord' opt (rename r <$> ds) = BookPanic w
  end.
Proof using HL Hn Hord Hord'.
  intros H. pose proof (ren_book L HL Hn ord ord' Hord Hord' r (λ a, a ∈ ds ≫= names_of) H opt ds (λ a Ha, Ha)) as HB.
  destruct (book L ord opt ds), (book L ord' opt _); try done.
  - by destruct HB as (->&->&_).
  - destruct HB as (es1&H1&H2). by exists es1, errors0.
  - by eexists.
Qed.

(** ** The reports *)
Definition rename_entry (r : string → string) (e : citem * posting) : citem * posting := (rename_item r e.1, rename_booked_posting r e.2).
Lemma entries_renamed r bs : booked_entries (rename_booked r <$> bs) = rename_entry r <$> booked_entries bs.
Proof.
  induction bs as [|b bs IH]; [done|]. rewrite fmap_cons. unfold booked_entries in *. rewrite !bind_cons, fmap_app, IH. f_equal.
  change (b_variant (rename_booked r b)) with (rename_booked_variant r (b_variant b)). destruct (b_variant b); try done. cbn [rename_booked_variant bt_postings].
  rewrite <- !list_fmap_compose. by apply list_fmap_ext.
Qed.
Lemma selected_renamed r filters filters' bs : Forall2 (λ (f f' : citem → bool), ∀ it, f' (rename_item r it) = f it) filters filters' →
  entries_selected filters' (rename_booked r <$> bs) = rename_entry r <$> entries_selected filters bs.
Proof.
  intros HF. unfold entries_selected. rewrite entries_renamed. induction (booked_entries bs) as [|e l IH]; [done|]. rewrite fmap_cons, !filter_cons.
  assert (Forall (λ f, f e.1 = true) filters ↔ Forall (λ f, f (rename_entry r e).1 = true) filters') as Hiff.
  { clear -HF. induction HF as [|f f' fs fs' H HF IH]; [by split; constructor|]. rewrite !Forall_cons, IH. unfold rename_entry. cbn [fst]. by rewrite H. }
  destruct (decide (Forall (λ f, f e.1 = true) filters)) as [Hd|Hd], (decide (Forall (λ f, f (rename_entry r e).1 = true) filters')) as [Hd'|Hd'];
    [rewrite fmap_cons; by f_equal|tauto|tauto|done].
Qed.
Lemma units_renamed r cur l : entry_units cur (rename_entry r <$> l) = entry_units cur l.
Proof.
  unfold entry_units. f_equal. induction l as [|e l IH]; [done|]. rewrite fmap_cons, !filter_cons. cbn [rename_entry snd rename_booked_posting p_cur].
  destruct (decide _); [|done]. rewrite !fmap_cons. cbn. by f_equal.
Qed.
Lemma to_account_renamed r acc l : (∀ e, e ∈ l → r (p_acc e.2) = r acc → p_acc e.2 = acc) → to_account (r acc) (rename_entry r <$> l) = rename_entry r <$> to_account acc l.
Proof.
  intros H. unfold to_account. induction l as [|e l IH]; [done|]. rewrite fmap_cons, !filter_cons. specialize (IH ltac:(intros x Hx; apply H; by right)).
  destruct (decide (p_acc e.2 = acc)) as [E|E], (decide (p_acc (rename_entry r e).2 = r acc)) as [E'|E']; cbn in E'.
  - rewrite fmap_cons. by f_equal.
  - by destruct E'; rewrite E.
  - destruct E. apply H; [by left|done].
  - done.
Qed.
Lemma entry_names (N : string → Prop) bs e : Forall (ok_b N) bs → e ∈ booked_entries bs → N (p_acc e.2).
Proof.
  intros Hok He. unfold booked_entries in He. apply elem_of_list_bind in He as (b&He&Hb). rewrite Forall_forall in Hok. specialize (Hok b Hb). unfold ok_b in Hok.
  destruct (b_variant b); try by apply elem_of_nil in He. apply elem_of_list_fmap in He as (q&->&Hq). cbn. rewrite Forall_forall in Hok. by apply Hok.
Qed.
(** With filters which let the renamed pass as the old ones did, the user sees under the
    new name of an account what was under the old one, and the same journal. *)
Theorem C107_reports opt r ds bs ws bs' ws' cs cs' co co' o o' filters filters' :
  (∀ l, co_lots co l ≡ₚ l) → (∀ l, co_lots co' l ≡ₚ l) → keeps_hierarchy r ds →
  book L ord opt ds = BookSuccess bs ws → book L ord' opt (rename r <$> ds) = BookSuccess bs' ws' →
  Forall2 (λ (f f' : citem → bool), ∀ it, f' (rename_item r it) = f it) filters filters' →
  Forall2 directive_seen cs bs → Forall2 directive_seen cs' bs' →
  (∀ inv inv', inventory co (Beans cs o) filters = Some inv → inventory co' (Beans cs' o') filters' = Some inv' →
     ∀ acc cur, acc ∈ ds ≫= names_of →
     (InventorySpec.held cur (InventorySpec.holding inv' (r acc)) == InventorySpec.held cur (InventorySpec.holding inv acc))%Q) ∧
  (∀ l l', journal co (Beans cs o) filters = Some l → journal co' (Beans cs' o') filters' = Some l' →
     length l' = length l ∧
     ∀ n row bal, l !! n = Some (row, bal) → ∃ row' bal', l' !! n = Some (row', bal') ∧
       item_of_posting row' = rename_item r (item_of_posting row) ∧ (cn_value (cp_units row') == cn_value (cp_units row))%Q ∧
       ∀ cur, (InventorySpec.held cur bal' == InventorySpec.held cur bal)%Q).
Proof using HL Hn Hord Hord'.
  intros Hco Hco' Hk Hb Hb' Hf Hs Hs'.
  pose proof (ren_book L HL Hn ord ord' Hord Hord' r (λ a, a ∈ ds ≫= names_of) Hk opt ds (λ a Ha, Ha)) as HB. rewrite Hb, Hb' in HB. destruct HB as (->&_&Hok).
  pose proof (selected_renamed r filters filters' bs Hf) as E. split.
  - intros inv inv' Hi Hi' acc cur Hacc. destruct (C87_inventory _ _ _ _ _ _ Hco Hs Hi) as [X1 _], (C87_inventory _ _ _ _ _ _ Hco' Hs' Hi') as [X2 _].
    rewrite X1, X2, E, to_account_renamed; [by rewrite units_renamed|].
    intros e He HE. eapply (r_inj r (λ a, a ∈ ds ≫= names_of) Hk); [|done|done]. eapply (entry_names (λ a, a ∈ ds ≫= names_of)); [exact Hok|].
    unfold entries_selected in He. by apply elem_of_list_filter in He as [_ He].
  - intros l l' Hj Hj'. destruct (C87_journal _ _ _ _ _ _ Hco Hs Hj) as [Hl1 X1], (C87_journal _ _ _ _ _ _ Hco' Hs' Hj') as [Hl2 X2].
    rewrite E in *. rewrite fmap_length in Hl2. split; [congruence|]. intros n row bal Hr.
    destruct (lookup_lt_is_Some_2 (entries_selected filters bs) n) as [e He]; [rewrite <- Hl1; by eapply lookup_lt_Some|].
    destruct (X1 n e He) as (row0&bal0&Hr0&I1&[U1 _]&B1). rewrite Hr in Hr0. injection Hr0 as <- <-.
    destruct (X2 n (rename_entry r e)) as (row'&bal'&Hr'&I2&[U2 _]&B2); [by rewrite list_lookup_fmap, He|].
    exists row', bal'. split; [done|]. split; [rewrite I2, I1; done|]. split; [by rewrite U1, U2|].
    intros cur. rewrite B1, B2, <- fmap_take, units_renamed. reflexivity.
Qed.
End Names.
Print Assumptions C107_renamed.
Print Assumptions C107_reports.

Lemma sample_postings_renamed r dt i l : SampleLib.sample_postings dt i (rename_posting r <$> l) = SampleLib.sample_postings dt i l.
Proof. revert i. induction l as [|p l IH]; intros i; [done|]. rewrite fmap_cons. cbn [SampleLib.sample_postings rename_posting ps_units ps_cur ps_cost]. by rewrite IH. Qed.
Lemma sample_apply_renamed r n ips ps h : (∀ a, a ∈ ps_acc <$> ps → r a = r n → a = n) → sample_apply (r n) (zip ips (rename_posting r <$> ps)) h = sample_apply n (zip ips ps) h.
Proof.
  revert ips h. induction ps as [|p ps IH]; intros [|ip ips] h H; try done. rewrite fmap_cons. cbn [zip zip_with sample_apply]. cbn [rename_posting ps_acc].
  assert (String.eqb (r (ps_acc p)) (r n) = String.eqb (ps_acc p) n) as ->.
  { destruct (String.eqb_spec (ps_acc p) n) as [->|Hne]; [apply String.eqb_refl|]. apply String.eqb_neq. intros E. apply Hne, H; [by left|done]. }
  apply IH. intros a Ha. apply H. by right.
Qed.
Lemma remove_dups_renamed (r : string → string) l : (∀ a b, a ∈ l → b ∈ l → r a = r b → a = b) → remove_dups (r <$> l) = r <$> remove_dups l.
Proof.
  induction l as [|x l IH]; intros H; [done|]. rewrite fmap_cons. cbn [remove_dups].
  specialize (IH ltac:(intros a b Ha Hb; apply H; by right)).
  destruct (decide_rel elem_of x l) as [Hd|Hd], (decide_rel elem_of (r x) (r <$> l)) as [Hd'|Hd'].
  - done.
  - destruct Hd'. by apply elem_of_list_fmap_1.
  - destruct Hd. apply elem_of_list_fmap in Hd' as (y&E&Hy). rewrite (H x y); [done|by left|by right|done].
  - rewrite fmap_cons. by f_equal.
Qed.
Lemma sample_nameless : lib_nameless sample_lib.
Proof.
  intros r dt ps inv inv' bk bk' Hinj Hinv. cbn [lib_book sample_lib]. unfold sample_book. destruct ps as [|p ps]; [done|]. set (l := p :: ps) in *.
  assert (∀ (A : Type) (x y : A), match rename_posting r <$> l with [] => x | _ :: _ => y end = y) as Em by done. rewrite !Em.
  rewrite sample_postings_renamed. destruct (SampleLib.sample_postings dt 0 l) as [k|ips]; [done|]. f_equal.
  assert (ps_acc <$> (rename_posting r <$> l) = r <$> (ps_acc <$> l)) as -> by by rewrite <- !list_fmap_compose.
  rewrite remove_dups_renamed by done. rewrite <- !list_fmap_compose. apply list_fmap_ext. intros i n Hi. apply elem_of_list_lookup_2 in Hi. apply (proj1 (elem_of_remove_dups _ _)) in Hi.
  cbn. destruct (Hinv n Hi) as [-> _]. f_equal. apply (sample_apply_renamed r n ips l). intros a Ha. by apply Hinj.
Qed.

(** The assets called otherwise, as a user may who sets the option for their name. *)
Definition in_dutch (a : string) : string := if String.prefix "Assets" a then "Activa" +:+ substring 6 (String.length a) a else a.
Lemma keeps_checked r ds : forallb (λ a, forallb (λ b, Bool.eqb (BookSpec.under (r a) (r b)) (BookSpec.under a b)) (ds ≫= names_of)) (ds ≫= names_of) = true → keeps_hierarchy r ds.
Proof.
  rewrite forallb_forall. intros H a b Ha%elem_of_list_In Hb%elem_of_list_In. specialize (H a Ha). cbn beta in H. rewrite forallb_forall in H. by apply eqb_prop, H.
Qed.
Example C107_example :
  lib_ok sample_lib ∧ lib_nameless sample_lib ∧ keeps_hierarchy in_dutch ledger1 ∧
  in_dutch "Assets:Bank:Sub" = "Activa:Bank:Sub" ∧ in_dutch "Equity:Opening" = "Equity:Opening" ∧
  sample_run (rename in_dutch <$> ledger1) = BookSuccess (rename_booked in_dutch <$> booked1) [] ∧ rename_booked in_dutch <$> booked1 ≠ booked1.
Proof.
  assert (keeps_hierarchy in_dutch ledger1) as Hk by (apply keeps_checked; vm_compute; reflexivity).
  split; [exact sample_lib_ok|]. split; [exact sample_nameless|]. split; [exact Hk|]. split; [by vm_compute|]. split; [by vm_compute|]. split; [|vm_compute; discriminate].
  pose proof (C107_renamed sample_lib sample_lib_ok sample_nameless sample_ord sample_ord sample_ord_perm sample_ord_perm None in_dutch ledger1 Hk) as H.
  pose proof ledger1_books as Hb. unfold sample_run in *. rewrite Hb in H. exact H.
Qed.

(** An account moved away from under another is missed in the assertions of that one. *)
Definition moved (a : string) : string := if String.eqb a "Assets:Bank:Sub" then "Assets:Cash" else a.
Theorem C107_moved_refuted : ∃ ds bs,
  sample_run ds = BookSuccess bs [] ∧
  (∀ a b, a ∈ ds ≫= names_of → b ∈ ds ≫= names_of → moved a = moved b → a = b) ∧
  ¬ (∃ bs' ws, sample_run (rename moved <$> ds) = BookSuccess bs' ws).
Proof.
  pose (ds := [ dir 1 (dopen "Assets:Bank"); dir 1 (dopen "Assets:Bank:Sub"); dir 1 (dopen "Equity:Opening");
    dir 2 (txn [post "Assets:Bank:Sub" 8 "USD"; post "Equity:Opening" (-8) "USD"]); dir 3 (dbal "Assets:Bank" 8 0 "USD") ]).
  exists ds, (booked_or_nil (sample_run ds)). split; [by vm_compute|]. split.
  - intros a b Ha Hb. assert (ds ≫= names_of = ["Assets:Bank"; "Assets:Bank:Sub"; "Equity:Opening"; "Assets:Bank:Sub"; "Equity:Opening"; "Assets:Bank"]) as E by by vm_compute.
    rewrite E in Ha, Hb. repeat (apply elem_of_cons in Ha as [->|Ha]); try (by apply elem_of_nil in Ha); repeat (apply elem_of_cons in Hb as [->|Hb]); try (by apply elem_of_nil in Hb); done.
  - intros (bs&ws&H). vm_compute in H. discriminate H.
Qed.
Print Assumptions C107_moved_refuted.
