(** Two sets of books in one ledger have nothing to do with each other. *)
From Coq Require Import Ascii QArith Qabs.
From stdpp Require Import prelude gmap strings.
From Verif Require Import DecModel DecProofs LedgerTypes IsoModel JsonModel WireModel WireSpec WireFacts BookModel BookLib BookSpec BookProps BookFacts ReportSpec ReportSamples ReportProps SpanModel ParserModel
  JsonText SampleLib SampleLedgers WireSamples ServerModel ServerSpec ServerFacts ServerSamples CljModel InventoryModel InventorySpec InventoryFacts InventoryProps
  ClientModel ClientSpec ClientDecode ClientSamples FormatModel PluginModel PluginSpec LoaderModel
  LoaderSpec LoaderFacts LoaderProps EncodeModel SystemModel SystemFacts SystemLoad SystemSpec SystemErrors SystemTrace SystemProps ViewSpec ViewFacts ViewProps SameSpec SameProps SplitSpec SplitFacts.
Local Open Scope nat_scope.

(** * C105 *)

Section Books.
Context {P : Type} (L : booking_lib P) (HL : lib_ok L) (Hloc : lib_local L).
Context (ord : gmap string (account P) → list (string * account P)) (Hord : ∀ m, ord m ≡ₚ map_to_list m).

Definition kept_of (side : directive → bool) (ds : list directive) (i : nat) : bool := match ds !! i with Some d => side d | None => false end.
Definition opened_in (ds : list directive) (n : string) : Prop := ∃ d o, d ∈ ds ∧ d_variant d = DOpen o ∧ op_acc o = n.
Lemma books_fit mine side ds : two_books mine side ds → Forall (fitting mine side (opened_in ds)) ds.
Proof.
  intros [H1 H2]. apply Forall_forall. intros d Hd. split; [by apply H1|]. split; [intros o Ho; by exists d, o|].
  intros b n Hb (d'&o&Hd'&Ho&<-) Hu. symmetry. by eapply (H2 d d').
Qed.
Lemma kept_at side ds j d : ds !! j = Some d → kept_of side ds (0 + j) = side d.
Proof. intros H. unfold kept_of. cbn. by rewrite H. Qed.
Lemma books_other mine side ds : two_books mine side ds → two_books (λ a, negb (mine a)) (λ d, negb (side d)) ds.
Proof.
  intros [H1 H2]. split; [|intros d d' b o Hd Hd' Hb Ho Hu; by rewrite (H2 d d' b o Hd Hd' Hb Ho Hu)].
  intros d Hd. specialize (H1 d Hd). unfold about in *. destruct (d_variant d); try done; try (by rewrite H1).
  - eapply Forall_impl; [exact H1|]. intros x Hx. by rewrite Hx.
  - by destruct H1 as [-> ->].
Qed.
Lemma books_negb side ds : books (λ d, negb (side d)) true ds = books side false ds.
Proof. unfold books. apply list_filter_iff. intros d. by destruct (side d). Qed.
Lemma booked_for_negb side ds bs : booked_for (λ d, negb (side d)) true ds bs = booked_for side false ds bs.
Proof. unfold booked_for. apply list_filter_iff. intros b. destruct (ds !! b_idx b) as [d|]; [|done]. cbn. by destruct (side d). Qed.

(** What is found on the first side, from the run of the whole. *)
Lemma first_side opt mine side ds bs ws : two_books mine side ds → book L ord opt ds = BookSuccess bs ws →
  (∃ bs' ws', book L ord opt (books side true ds) = BookSuccess bs' ws' ∧ unnumbered <$> booked_for side true ds bs = unnumbered <$> bs') ∧
  (∀ b q, b ∈ bs → q ∈ postings_of b → mine (p_acc q) = kept_of side ds (b_idx b)).
Proof using HL Hloc Hord.
  intros H2 (s&Hg&_&Hn)%book_good; [|done].
  pose proof (part_new (P:=P) mine (kept_of side ds) (default_booking_option L opt)) as Hp. pose proof (sound_new (P:=P) mine (kept_of side ds) (opened_in ds) (default_booking_option L opt)) as Hs.
  destruct (split_loop L HL Hloc ord Hord mine side (kept_of side ds) (opened_in ds) 0 0 ds _ [] _ [] s bs (books_fit _ _ _ H2) (kept_at side ds) Hp Hs Hg) as (s1&b1&Hg1&Hp1).
  split.
  - exists b1, (s_warnings s1). split.
    + apply book_good; [done|]. exists s1. split; [exact Hg1|]. split; [done|]. intros n x Hx. destruct (mine n) eqn:Em; [|by rewrite (pt_out _ _ _ _ _ _ Hp1 n Em) in Hx].
      pose proof (pt_acc _ _ _ _ _ _ Hp1 n Em) as Ha. rewrite Hx in Ha. destruct (s_accounts s !! n) as [y|] eqn:Ey; [|done]. destruct Ha as (_&_&_&Ha).
      rewrite (Hn n y Ey) in Ha. by destruct (a_pad x).
    + rewrite <- (pt_booked _ _ _ _ _ _ Hp1). f_equal. unfold booked_for. apply list_filter_iff. intros b. unfold kept_of. destruct (ds !! b_idx b); cbn; [|done].
      split; [by intros [= ->]|by intros ->].
  - assert (sided mine (kept_of side ds) []) as H0 by (intros ? ? []%elem_of_nil).
    exact (sided_loop L HL Hloc ord Hord mine side (kept_of side ds) (opened_in ds) 0 0 ds _ [] _ [] s bs (books_fit _ _ _ H2) (kept_at side ds) Hp Hs H0 Hg).
Qed.

(** A ledger of two sets of books books exactly if each of them does for itself. *)
Theorem C105_separate opt mine side ds : two_books mine side ds →
  (∃ bs ws, book L ord opt ds = BookSuccess bs ws) ↔
  (∃ bs ws, book L ord opt (books side true ds) = BookSuccess bs ws) ∧ (∃ bs ws, book L ord opt (books side false ds) = BookSuccess bs ws).
Proof using HL Hloc Hord.
  intros H2. split.
  - intros (bs&ws&Hb). destruct (first_side opt _ _ _ _ _ H2 Hb) as [(b1&w1&H1&_) _], (first_side opt _ _ _ _ _ (books_other _ _ _ H2) Hb) as [(b3&w3&H3&_) _].
    rewrite books_negb in H3. split; [by exists b1, w1|by exists b3, w3].
  - intros [(ba&wa&(sa&Ha&_&Na)%book_good) (bb&wb&(sb&Hb&_&Nb)%book_good)]; [|done..].
    set (k := kept_of side ds).
    destruct (merge_loop L HL Hloc ord Hord mine side k (opened_in ds) 0 0 0 ds (acc_new (default_booking_option L opt)) [] _ [] _ [] sa ba sb bb
      (books_fit _ _ _ H2) (kept_at side ds) (part_new _ _ _) (sound_new _ _ _ _) (part_new _ _ _) (sound_new _ _ _ _) Ha Hb) as (s&bs&Hg&P1&P2).
    exists bs, (s_warnings s). apply book_good; [done|]. exists s. split; [done|]. split; [done|]. intros n x Hx. destruct (mine n) eqn:Em.
    + pose proof (pt_acc _ _ _ _ _ _ P1 n Em) as Hl. rewrite Hx in Hl. destruct (s_accounts sa !! n) as [y|] eqn:Ey; [|done]. destruct Hl as (_&_&_&Hl).
      rewrite (Na n y Ey) in Hl. by destruct (a_pad x) as [[? ?]|].
    + assert (negb (mine n) = true) as Em' by by rewrite Em. pose proof (pt_acc _ _ _ _ _ _ P2 n Em') as Hl. rewrite Hx in Hl. destruct (s_accounts sb !! n) as [y|] eqn:Ey; [|done]. destruct Hl as (_&_&_&Hl).
      rewrite (Nb n y Ey) in Hl. by destruct (a_pad x) as [[? ?]|].
Qed.
(** What is booked for the directives of one of them is what is booked if they are alone,
    but for the numbers of the directives. *)
Theorem C105_booked opt mine side s ds bs ws bs' ws' : two_books mine side ds →
  book L ord opt ds = BookSuccess bs ws → book L ord opt (books side s ds) = BookSuccess bs' ws' →
  unnumbered <$> booked_for side s ds bs = unnumbered <$> bs'.
Proof using HL Hloc Hord.
  intros H2 Hb Hb'. destruct s.
  - destruct (first_side opt _ _ _ _ _ H2 Hb) as [(b1&w1&H1&E) _]. rewrite Hb' in H1. by injection H1 as <- <-.
  - destruct (first_side opt _ _ _ _ _ (books_other _ _ _ H2) Hb) as [(b1&w1&H1&E) _]. rewrite books_negb, Hb' in H1. injection H1 as <- <-. by rewrite booked_for_negb in E.
Qed.

(** ** The reports *)
Lemma entries_unnumbered bs bs' : unnumbered <$> bs = unnumbered <$> bs' → booked_entries bs = booked_entries bs'.
Proof.
  revert bs'. induction bs as [|b bs IH]; intros [|b' bs'] H; try done. rewrite !fmap_cons in H. injection H as Hd _ _ _ Hv H.
  unfold booked_entries. rewrite !bind_cons, Hd, Hv. f_equal. by apply IH.
Qed.
Lemma selected_books mine side s ds bs filters : (∀ b q, b ∈ bs → q ∈ postings_of b → ∃ d, ds !! b_idx b = Some d ∧ mine (p_acc q) = side d) →
  (∀ it, Forall (λ f : citem → bool, f it = true) filters → ∃ a, it_acc it = Some a ∧ mine a = s) →
  entries_selected filters bs = entries_selected filters (booked_for side s ds bs).
Proof.
  intros Hb Hf. unfold entries_selected, booked_for. induction bs as [|b bs IH]; [done|].
  assert (∀ b q, b ∈ bs → q ∈ postings_of b → ∃ d, ds !! b_idx b = Some d ∧ mine (p_acc q) = side d) as Hb' by (intros; apply Hb; [by right|done]).
  rewrite (filter_cons _ b). specialize (IH Hb').
  assert (∀ l, booked_entries (b :: l) = booked_entries [b] ++ booked_entries l) as Hc by (intros l; apply (booked_entries_app [b] l)).
  rewrite Hc, filter_app, IH.
  destruct (decide (side <$> ds !! b_idx b = Some s)) as [Hd|Hd].
  - by rewrite (Hc (filter _ bs)), filter_app.
  - rewrite filter_none; [done|]. intros e He HF. destruct (Hf _ HF) as (a&Ha&Hm).
    unfold booked_entries in He. apply elem_of_list_bind in He as (b'&He&->%elem_of_list_singleton).
    destruct (b_variant b) eqn:Ev; try by apply elem_of_nil in He. apply elem_of_list_fmap in He as (q&->&Hq). cbn in Ha. injection Ha as <-.
    destruct (Hb b q ltac:(by left) ltac:(unfold postings_of; by rewrite Ev)) as (d&Hd'&E). apply Hd. rewrite Hd'. cbn. congruence.
Qed.
(** With filters which let only accounts of one of them pass, the user sees of the whole
    ledger what is seen of this one alone. *)
Theorem C105_reports opt mine side s ds bs ws bs' ws' cs cs' co co' o o' filters :
  (∀ l, co_lots co l ≡ₚ l) → (∀ l, co_lots co' l ≡ₚ l) → two_books mine side ds →
  book L ord opt ds = BookSuccess bs ws → book L ord opt (books side s ds) = BookSuccess bs' ws' →
  (∀ it, Forall (λ f : citem → bool, f it = true) filters → ∃ a, it_acc it = Some a ∧ mine a = s) →
  Forall2 directive_seen cs bs → Forall2 directive_seen cs' bs' →
  (∀ inv inv', inventory co (Beans cs o) filters = Some inv → inventory co' (Beans cs' o') filters = Some inv' →
     ∀ acc cur, (InventorySpec.held cur (InventorySpec.holding inv acc) == InventorySpec.held cur (InventorySpec.holding inv' acc))%Q) ∧
  (∀ l l', journal co (Beans cs o) filters = Some l → journal co' (Beans cs' o') filters = Some l' →
     length l = length l' ∧
     ∀ n row bal, l !! n = Some (row, bal) → ∃ row' bal', l' !! n = Some (row', bal') ∧
       item_of_posting row = item_of_posting row' ∧ (cn_value (cp_units row) == cn_value (cp_units row'))%Q ∧
       ∀ cur, (InventorySpec.held cur bal == InventorySpec.held cur bal')%Q).
Proof using HL Hloc Hord.
  intros Hco Hco' H2 Hb Hb' Hf Hs Hs'. pose proof (C105_booked opt _ _ _ _ _ _ _ _ H2 Hb Hb') as Eb.
  destruct (first_side opt _ _ _ _ _ H2 Hb) as [_ Hside].
  assert (entries_selected filters bs = entries_selected filters bs') as E.
  { rewrite (selected_books mine side s ds bs filters); [|intros b q Hin Hq|done].
    - unfold entries_selected. by rewrite (entries_unnumbered _ _ Eb).
    - pose proof (Hside b q Hin Hq) as Hm. unfold kept_of in Hm.
      apply elem_of_list_lookup in Hin as [j Hj]. destruct (ds !! b_idx b) as [d|] eqn:Ed; [by exists d|]. exfalso.
      apply lookup_ge_None in Ed. pose proof (mirrors_idx _ _ _ (C01_output_mirrors_ledger _ _ _ _ _ _ _ Hb)) as HF. rewrite Forall_lookup in HF. specialize (HF _ _ Hj). lia. }
  split.
  - intros inv inv' Hi Hi' acc cur. destruct (C87_inventory _ _ _ _ _ _ Hco Hs Hi) as [X1 _], (C87_inventory _ _ _ _ _ _ Hco' Hs' Hi') as [X2 _].
    rewrite X1, X2, E. reflexivity.
  - intros l l' Hj Hj'. destruct (C87_journal _ _ _ _ _ _ Hco Hs Hj) as [Hl1 X1], (C87_journal _ _ _ _ _ _ Hco' Hs' Hj') as [Hl2 X2].
    rewrite E in *. split; [congruence|]. intros n row bal Hr.
    destruct (lookup_lt_is_Some_2 (entries_selected filters bs') n) as [e He]; [rewrite <- Hl1; by eapply lookup_lt_Some|].
    destruct (X1 n e He) as (row0&bal0&Hr0&I1&[U1 _]&B1). rewrite Hr in Hr0. injection Hr0 as <- <-.
    destruct (X2 n e He) as (row'&bal'&Hr'&I2&[U2 _]&B2). exists row', bal'. split; [done|]. split; [congruence|]. split; [by rewrite U1, U2|].
    intros cur. rewrite B1, B2. reflexivity.
Qed.
End Books.
Print Assumptions C105_separate.
Print Assumptions C105_booked.
Print Assumptions C105_reports.

Lemma sample_local : lib_local sample_lib.
Proof.
  intros dt ps inv inv' bk bk' H. cbn [lib_book sample_lib]. unfold sample_book. destruct ps as [|p ps]; [done|].
  destruct (SampleLib.sample_postings dt 0 (p :: ps)); [done|]. f_equal. apply list_fmap_ext. intros i n Hn.
  apply elem_of_list_lookup_2 in Hn. apply (proj1 (elem_of_remove_dups _ _)) in Hn. by destruct (H n Hn) as [-> _].
Qed.
Definition about_b (mine : string → bool) (s : bool) (d : directive) : bool :=
  match d_variant d with
  | DTransaction t => forallb (λ ps, Bool.eqb (mine (ps_acc ps)) s) (tx_postings t)
  | DBalance b => Bool.eqb (mine (bal_acc b)) s
  | DOpen o => Bool.eqb (mine (op_acc o)) s
  | DClose a => Bool.eqb (mine a) s
  | DPad p => Bool.eqb (mine (pad_acc p)) s && Bool.eqb (mine (pad_source p)) s
  | _ => true
  end.
Definition apart_b (mine : string → bool) (d d' : directive) : bool :=
  match d_variant d, d_variant d' with
  | DBalance b, DOpen o => negb (BookSpec.under (bal_acc b) (op_acc o)) || Bool.eqb (mine (bal_acc b)) (mine (op_acc o))
  | _, _ => true
  end.
Lemma two_checked mine side ds : forallb (λ d, about_b mine (side d) d) ds = true → forallb (λ d, forallb (apart_b mine d) ds) ds = true → two_books mine side ds.
Proof.
  rewrite !forallb_forall. setoid_rewrite <- elem_of_list_In. intros H1 H2. split.
  - intros d Hd. specialize (H1 d Hd). unfold about, about_b in *. destruct (d_variant d); try done; try by apply eqb_prop in H1.
    + rewrite forallb_forall in H1. apply Forall_forall. intros x Hx%elem_of_list_In. by apply eqb_prop, H1.
    + apply andb_true_iff in H1 as [H1 H3]. by apply eqb_prop in H1, H3.
  - intros d d' b o Hd Hd' Hb Ho Hu. specialize (H2 d Hd). cbn beta in H2. rewrite forallb_forall in H2. specialize (H2 d' (proj1 (elem_of_list_In _ _) Hd')).
    unfold apart_b in H2. rewrite Hb, Ho, Hu in H2. by apply eqb_prop in H2.
Qed.

(** A pad and balance assertions on both sides, and an account of one below an account of
    the other. *)
Definition theirs : list directive :=
  [ dir 1 (dopen "Assets:Bank2:Card"); dir 1 (dopen "Expenses:Food"); dir 1 (dopen "Equity:Other");
    dir 2 (DPad (Pad "Assets:Bank2:Card" "Equity:Other"));
    dir 3 (txn [post "Assets:Bank2:Card" (-8) "USD"; post "Expenses:Food" 8 "USD"]);
    dir 4 (dbal "Assets:Bank2:Card" 20 0 "USD");
    dir 5 (txn [post "Assets:Bank2:Card" (-5) "USD"; post "Expenses:Food" 5 "USD"]);
    dir 6 (dbal "Expenses:Food" 13 0 "USD") ].
Definition in_turn (ds ds' : list directive) : list directive := (zip ds ds' ≫= λ x, [x.1; x.2]) ++ drop (length ds') ds.
Definition mine_account (a : string) : bool := negb (bool_decide (a ∈ ["Assets:Bank2:Card"; "Expenses:Food"; "Equity:Other"])).
Definition mine_directive (d : directive) : bool :=
  match d_variant d with
  | DTransaction t => default true (mine_account ∘ ps_acc <$> head (tx_postings t))
  | DBalance b => mine_account (bal_acc b)
  | DOpen o => mine_account (op_acc o)
  | DClose a => mine_account a
  | DPad p => mine_account (pad_acc p)
  | _ => true
  end.
Definition both : list directive := in_turn ledger1 theirs.
Example C105_example :
  lib_ok sample_lib ∧ lib_local sample_lib ∧ two_books mine_account mine_directive both ∧
  books mine_directive true both = ledger1 ∧ books mine_directive false both = theirs ∧
  let bs := booked_or_nil (sample_run both) in let bs' := booked_or_nil (sample_run theirs) in
  sample_run both = BookSuccess bs [] ∧ sample_run theirs = BookSuccess bs' [] ∧ length bs = 22 ∧ length bs' = 9 ∧
  unnumbered <$> booked_for mine_directive true both bs = unnumbered <$> booked1 ∧
  unnumbered <$> booked_for mine_directive false both bs = unnumbered <$> bs' ∧
  b_idx <$> booked_for mine_directive false both bs ≠ b_idx <$> bs'.
Proof.
  split; [exact sample_lib_ok|]. split; [exact sample_local|].
  assert (two_books mine_account mine_directive both) as H2 by (apply two_checked; vm_compute; reflexivity).
  split; [exact H2|]. assert (books mine_directive true both = ledger1) as E1 by (vm_compute; reflexivity). split; [exact E1|].
  assert (books mine_directive false both = theirs) as E2 by (vm_compute; reflexivity). split; [exact E2|]. cbv zeta.
  assert (sample_run both = BookSuccess (booked_or_nil (sample_run both)) []) as B by (vm_compute; reflexivity).
  assert (sample_run theirs = BookSuccess (booked_or_nil (sample_run theirs)) []) as B' by (vm_compute; reflexivity).
  split; [exact B|]. split; [exact B'|]. split; [by vm_compute|]. split; [by vm_compute|]. split_and!.
  - eapply (C105_booked sample_lib sample_lib_ok sample_local sample_ord sample_ord_perm None mine_account mine_directive true both); [exact H2|exact B|].
    rewrite E1. exact ledger1_books.
  - eapply (C105_booked sample_lib sample_lib_ok sample_local sample_ord sample_ord_perm None mine_account mine_directive false both); [exact H2|exact B|].
    rewrite E2. exact B'.
  - vm_compute. discriminate.
Qed.

(** A balance assertion on an account above accounts of both does see both. *)
Theorem C105_parent_refuted : ∃ mine side ds bs bs',
  (∀ d, d ∈ ds → about mine (side d) d) ∧
  sample_run (books side true ds) = BookSuccess bs [] ∧ sample_run (books side false ds) = BookSuccess bs' [] ∧
  ¬ (∃ bs ws, sample_run ds = BookSuccess bs ws).
Proof.
  pose (ds := [ dir 1 (dopen "Assets"); dir 1 (dopen "Assets:Other"); dir 1 (dopen "Equity:Other");
    dir 2 (txn [post "Assets:Other" 8 "USD"; post "Equity:Other" (-8) "USD"]); dir 3 (dbal "Assets" 0 0 "USD") ]).
  pose (mine := λ a, bool_decide (a = "Assets")).
  pose (side := λ d, match d_variant d with DBalance _ => true | DOpen o => mine (op_acc o) | _ => false end).
  exists mine, side, ds, (booked_or_nil (sample_run (books side true ds))), (booked_or_nil (sample_run (books side false ds))).
  split. { intros d Hd. repeat (apply elem_of_cons in Hd as [->|Hd]); [repeat constructor..|by apply elem_of_nil in Hd]. }
  split; [by vm_compute|]. split; [by vm_compute|]. intros (bs&ws&H). vm_compute in H. discriminate H.
Qed.
Print Assumptions C105_parent_refuted.
