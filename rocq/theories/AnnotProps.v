(** Annotations and places in the files have no effect on what is booked and reported. *)
From Coq Require Import Ascii QArith Qabs.
From stdpp Require Import prelude gmap strings.
From Verif Require Import DecModel DecProofs LedgerTypes IsoModel JsonModel WireModel WireSpec WireFacts BookModel BookLib BookSpec BookProps BookFacts ReportSpec ReportSamples ReportProps SpanModel ParserModel
  JsonText SampleLib SampleLedgers WireSamples ServerModel ServerSpec ServerFacts ServerSamples CljModel InventoryModel InventorySpec InventoryFacts InventoryProps
  ClientModel ClientSpec ClientDecode ClientSamples FormatModel PluginModel PluginSpec LoaderModel
  LoaderSpec LoaderFacts LoaderProps EncodeModel SystemModel SystemFacts SystemLoad SystemSpec SystemErrors SystemTrace SystemProps ViewSpec ViewFacts ViewProps SameSpec SameProps AnnotSpec AnnotFacts.
Local Open Scope nat_scope.

(** * C104 *)

(** Ledgers which are the same but for the places at which their directives and postings
    stand in the files have the same outcome: the same is booked, with the same
    warnings, or the same errors are found. *)
Theorem C104_places {P} (L : booking_lib P) ord opt ds ds' : lib_blind L →
  unplaced <$> ds = unplaced <$> ds' → book L ord opt ds = book L ord opt ds'.
Proof. intros HL H. rewrite <- (unplaced_book L HL ord opt ds), H. by apply unplaced_book. Qed.
Print Assumptions C104_places.

(** Ledgers which are the same also but for flags, payees, narrations, tags, links and
    metadata, and the contents of directives which do not move or check anything: the
    same is booked but for these, or the same errors are found but for the descriptions
    in their tables. *)
Theorem C104_annotations {P} (L : booking_lib P) ord opt ds ds' : lib_blind L →
  bare <$> ds = bare <$> ds' → bare_result (book L ord opt ds) = bare_result (book L ord opt ds').
Proof. intros HL H. by apply bare_book. Qed.
Print Assumptions C104_annotations.

(** ** The reports *)
(** A filter which does not ask for the payee or the narration. *)
Definition plain_filter (f : citem → bool) : Prop :=
  ∀ i i', it_date i = it_date i' → it_acc i = it_acc i' → it_cur i = it_cur i' → f i = f i'.
Definition like_entry (e e' : citem * posting) : Prop :=
  it_date e.1 = it_date e'.1 ∧ it_acc e.1 = it_acc e'.1 ∧ it_cur e.1 = it_cur e'.1 ∧ bare_booked_posting e.2 = bare_booked_posting e'.2.
Lemma like_postings dt p n p' n' l l' : bare_booked_posting <$> l = bare_booked_posting <$> l' →
  Forall2 like_entry ((λ q, (CItem (Some dt) (Some (p_acc q)) (Some (p_cur q)) p n, q)) <$> l)
    ((λ q, (CItem (Some dt) (Some (p_acc q)) (Some (p_cur q)) p' n', q)) <$> l').
Proof.
  revert l'. induction l as [|q l IH]; intros [|q' l'] H; try done; [constructor|].
  rewrite !fmap_cons in H. apply cons_eq_inv in H as [Hq H]. rewrite !fmap_cons. constructor; [|by apply IH].
  pose proof Hq as [= _ Ha _ Hc _ _]. unfold like_entry. cbn. by rewrite Ha, Hc.
Qed.
Lemma like_entries bs bs' : bare_booked <$> bs = bare_booked <$> bs' → Forall2 like_entry (booked_entries bs) (booked_entries bs').
Proof.
  revert bs'. induction bs as [|b bs IH]; intros [|b' bs'] H; try done; [constructor|].
  rewrite !fmap_cons in H. apply cons_eq_inv in H as [Hb H]. unfold booked_entries. rewrite !bind_cons. apply Forall2_app; [|by apply IH].
  apply bare_variant in Hb as (Hv&_&Hd). destruct (b_variant b), (b_variant b'); try done; try constructor. rewrite Hd. by apply like_postings.
Qed.
Lemma like_selected filters bs bs' : Forall plain_filter filters → bare_booked <$> bs = bare_booked <$> bs' →
  Forall2 like_entry (entries_selected filters bs) (entries_selected filters bs').
Proof.
  intros Hf H. unfold entries_selected. apply like_entries in H. induction H as [|e e' es es' He _ IH]; [constructor|].
  assert (Forall (λ f, f e.1 = true) filters ↔ Forall (λ f, f e'.1 = true) filters) as Hi.
  { rewrite !Forall_forall. rewrite Forall_forall in Hf. destruct He as (?&?&?&_). split; intros Ht f Hin; specialize (Ht f Hin); specialize (Hf f Hin); cbn in *.
    - rewrite <- Ht. symmetry. by apply Hf.
    - rewrite <- Ht. by apply Hf. }
  rewrite !filter_cons. case_decide as H1; case_decide as H2; try tauto. by constructor.
Qed.
Lemma like_units cur es es' : Forall2 like_entry es es' → (entry_units cur es == entry_units cur es')%Q.
Proof.
  unfold entry_units. induction 1 as [|e e' es es' He _ IH]; [done|]. destruct He as (_&_&_&He). injection He as _ _ Hu Hc _ _.
  rewrite !filter_cons, Hc. case_decide; [|done]. cbn. rewrite Hu. by rewrite IH.
Qed.
Lemma like_account acc es es' : Forall2 like_entry es es' → Forall2 like_entry (to_account acc es) (to_account acc es').
Proof.
  unfold to_account. induction 1 as [|e e' es es' He _ IH]; [constructor|]. pose proof He as (_&_&_&[= _ Ha _ _ _ _]).
  rewrite !filter_cons, Ha. case_decide; [|done]. by constructor.
Qed.

(** Two ledgers which differ in annotations only, both booked: with any filters on
    dates, accounts and currencies the user sees in each account as much of each
    currency, and the journal has the same rows but for payee and narration, with the
    same balances. *)
Theorem C104_reports {P} (L : booking_lib P) ord opt ds ds' bs ws bs' ws' cs cs' co co' o o' filters :
  lib_blind L → (∀ l, co_lots co l ≡ₚ l) → (∀ l, co_lots co' l ≡ₚ l) →
  bare <$> ds = bare <$> ds' → book L ord opt ds = BookSuccess bs ws → book L ord opt ds' = BookSuccess bs' ws' →
  Forall plain_filter filters → Forall2 directive_seen cs bs → Forall2 directive_seen cs' bs' →
  (∀ inv inv', inventory co (Beans cs o) filters = Some inv → inventory co' (Beans cs' o') filters = Some inv' →
     ∀ acc cur, (held cur (holding inv acc) == held cur (holding inv' acc))%Q) ∧
  (∀ l l', journal co (Beans cs o) filters = Some l → journal co' (Beans cs' o') filters = Some l' →
     length l = length l' ∧
     ∀ n row bal, l !! n = Some (row, bal) → ∃ row' bal', l' !! n = Some (row', bal') ∧
       cp_date row = cp_date row' ∧ cp_acc row = cp_acc row' ∧ cp_cur row = cp_cur row' ∧ (cn_value (cp_units row) == cn_value (cp_units row'))%Q ∧
       ∀ cur, (held cur bal == held cur bal')%Q).
Proof.
  intros HL Hco Hco' Hds Hb Hb' Hf Hs Hs'. pose proof (C104_annotations L ord opt ds ds' HL Hds) as HR. rewrite Hb, Hb' in HR. cbn in HR.
  assert (bare_booked <$> bs = bare_booked <$> bs') as Hbs by congruence. pose proof (like_selected filters bs bs' Hf Hbs) as He.
  split.
  - intros inv inv' Hi Hi' acc cur. destruct (C87_inventory _ _ _ _ _ _ Hco Hs Hi) as [H1 _], (C87_inventory _ _ _ _ _ _ Hco' Hs' Hi') as [H2 _].
    rewrite H1, H2. by apply like_units, like_account.
  - intros l l' Hj Hj'. destruct (C87_journal _ _ _ _ _ _ Hco Hs Hj) as [Hl1 H1], (C87_journal _ _ _ _ _ _ Hco' Hs' Hj') as [Hl2 H2].
    split; [rewrite Hl1, Hl2; by eapply Forall2_length|]. intros n row bal Hr.
    destruct (lookup_lt_is_Some_2 (entries_selected filters bs) n) as [e En]; [rewrite <- Hl1; by eapply lookup_lt_Some|].
    destruct (Forall2_lookup_l _ _ _ _ _ He En) as (e'&En'&(X1&X2&X3&X4)).
    destruct (H1 n e En) as (row0&bal0&Hr0&I1&[U1 _]&B1). rewrite Hr in Hr0. injection Hr0 as <- <-.
    destruct (H2 n e' En') as (row'&bal'&Hr'&I2&[U2 _]&B2). exists row', bal'. split; [done|].
    rewrite <- I1, <- I2 in X1, X2, X3. unfold item_of_posting in X1, X2, X3. cbn in X1, X2, X3.
    injection X4 as _ _ Hu _ _ _. split_and!; [congruence..| |].
    + rewrite U1, U2, Hu. reflexivity.
    + intros cur. rewrite B1, B2. apply like_units. by apply Forall2_take.
Qed.
Print Assumptions C104_reports.

(** The filters of the client on dates, accounts and currencies are such, and all which
    are put together from such. *)
Theorem C104_filters :
  (∀ D, plain_filter (date_lt D) ∧ plain_filter (date_le D) ∧ plain_filter (date_gt D) ∧ plain_filter (date_ge D)) ∧
  (∀ D E, plain_filter (date_between D E)) ∧ (∀ l, plain_filter (f_acc l)) ∧ (∀ l, plain_filter (f_sub_acc l)) ∧ (∀ c, plain_filter (f_cur c)) ∧
  (∀ fs, Forall plain_filter fs → plain_filter (every_f fs) ∧ plain_filter (some_f fs) ∧ plain_filter (none_f fs)).
Proof.
  assert (∀ t D, plain_filter (on_date t D)) as Hon by (intros t D i i' H _ _; unfold on_date; by rewrite H).
  split_and!; try (intros; split_and!; apply Hon).
  - intros D E i i' H1 H2 H3. unfold date_between, date_ge, date_lt. by rewrite (Hon _ D i i'), (Hon _ E i i').
  - intros l i i' _ H _. unfold f_acc. by rewrite H.
  - intros l i i' _ H _. unfold f_sub_acc. by rewrite H.
  - intros l i i' _ _ H. unfold f_cur. by rewrite H.
  - intros fs Hfs. assert (∀ i i', it_date i = it_date i' → it_acc i = it_acc i' → it_cur i = it_cur i' →
      forallb (λ f, f i) fs = forallb (λ f, f i') fs ∧ existsb (λ f, f i) fs = existsb (λ f, f i') fs) as H.
    { intros i i' H1 H2 H3. induction Hfs as [|f fs Hf _ [IH1 IH2]]; [done|]. cbn. by rewrite (Hf i i' H1 H2 H3), IH1, IH2. }
    split_and!; intros i i' H1 H2 H3; unfold every_f, some_f, none_f; destruct (H i i' H1 H2 H3) as [E1 E2]; by rewrite ?E1, ?E2.
Qed.
Print Assumptions C104_filters.

Lemma sample_blind : lib_blind sample_lib.
Proof.
  intros dt ps ps' inv bk H. cbn [lib_book sample_lib]. unfold sample_book.
  assert (∀ i, SampleLib.sample_postings dt i ps = SampleLib.sample_postings dt i ps') as Hp.
  { clear inv bk. revert ps' H. induction ps as [|x ps IH]; intros [|x' ps'] H i; try done. rewrite !fmap_cons in H. apply cons_eq_inv in H as [Hx H].
    injection Hx as _ Hu Hc Hco _. cbn. rewrite Hu, Hc, Hco, (IH ps' H). done. }
  assert (ps_acc <$> ps = ps_acc <$> ps') as Ha.
  { clear -H. revert ps' H. induction ps as [|x ps IH]; intros [|x' ps'] H; try done. rewrite !fmap_cons in H. apply cons_eq_inv in H as [[= Hx _ _ _ _] H].
    cbn. rewrite Hx. f_equal. by apply IH. }
  assert (∀ n ips h, sample_apply n (zip ips ps) h = sample_apply n (zip ips ps') h) as Hz.
  { clear -Ha. revert ps' Ha. induction ps as [|x ps IH]; intros [|x' ps'] H n [|ip ips] h; try done. cbn in H. injection H as Hx H. cbn. rewrite Hx. by apply IH. }
  rewrite Hp, Ha. destruct ps, ps'; try done. destruct (SampleLib.sample_postings dt 0 (_ :: ps')); [done|].
  f_equal. apply list_fmap_ext. intros i n _. cbn beta. by rewrite Hz.
Qed.

(** Other annotations, at another place, and an event for each note. *)
Definition rewritten (d : directive) : directive :=
  Directive (Some (Span 1 20 30)) (d_date d) (Some {["other"]}) None (Some {["key" := MVBool false]})
    match d_variant d with
    | DTransaction t => DTransaction (Transaction "P" None (Some "other things") ((λ ps,
        PostingSpec (Some (Span 1 21 22)) (Some "!") (ps_acc ps) (ps_units ps) (ps_cur ps) (ps_cost ps) (ps_price ps) None (Some {["link"]}) None) <$> tx_postings t))
    | DNote a b => DEvent a b
    | v => v
    end.
Definition moved (d : directive) : directive := Directive (Some (Span 1 20 30)) (d_date d) (d_tags d) (d_links d) (d_metadata d) (d_variant d).
Lemma rewritten_bare (ds : list directive) : bare <$> ds = bare <$> (rewritten <$> ds).
Proof.
  rewrite <- list_fmap_compose. apply list_fmap_ext. intros _ d _. cbn. unfold bare, rewritten. cbn. destruct (d_variant d); cbn; try done.
  do 3 f_equal. by rewrite <- list_fmap_compose.
Qed.
Lemma success_inj bs ws bs' ws' : BookSuccess bs ws = BookSuccess bs' ws' → bs = bs' ∧ ws = ws'.
Proof. by intros [= -> ->]. Qed.
(** The ledgers of [SampleLedgers.v] and [ReportSamples.v]: one which is booked, and one
    with a balance which is out, and what is found in them. *)
Example C104_example :
  lib_blind sample_lib ∧
  bare <$> ledger1 = bare <$> (rewritten <$> ledger1) ∧ unplaced <$> ledger1 = unplaced <$> (moved <$> ledger1) ∧
  sample_run (moved <$> ledger1) = BookSuccess booked1 [] ∧
  (∃ bs, sample_run (rewritten <$> ledger1) = BookSuccess bs [] ∧ bare_booked <$> bs = bare_booked <$> booked1 ∧
    (λ b, match b_variant b with BVTransaction t => bt_narration t | _ => None end) <$> bs !! 6 = Some (Some "other things") ∧
    (λ b, match b_variant b with BVTransaction t => bt_narration t | _ => None end) <$> booked1 !! 6 = Some None) ∧
  (∃ r r', sample_run ledger_off = BookFailure [r] ∧ sample_run (rewritten <$> ledger_off) = BookFailure [r'] ∧ bare_report r = bare_report r' ∧
    map dr_description <$> r_annotation r = Some [Some "Shop"] ∧ map dr_description <$> r_annotation r' = Some [Some "other things"]).
Proof.
  split; [exact sample_blind|]. split; [apply rewritten_bare|].
  assert (unplaced <$> ledger1 = unplaced <$> (moved <$> ledger1)) as Hm by (rewrite <- list_fmap_compose; by apply list_fmap_ext).
  split; [done|]. split. { unfold sample_run. rewrite <- (C104_places sample_lib sample_ord None _ _ sample_blind Hm). apply ledger1_books. }
  split.
  - pose proof (C104_annotations sample_lib sample_ord None _ _ sample_blind (rewritten_bare ledger1)) as H. fold sample_run in H. rewrite ledger1_books in H.
    destruct (sample_run (rewritten <$> ledger1)) as [bs ws|es|w] eqn:E; [|discriminate H|discriminate H]. cbn [bare_result] in H.
    apply success_inj in H as [H1 H2]. symmetry in H2. apply fmap_nil_inv in H2 as ->.
    assert (bs = booked_or_nil (sample_run (rewritten <$> ledger1))) as Hbs by by rewrite E.
    exists bs. split; [done|]. split; [by symmetry|]. rewrite Hbs. split; vm_compute; reflexivity.
  - eexists _, _. split; [by vm_compute|]. split; [by vm_compute|]. split; [by vm_compute|]. split; by vm_compute.
Qed.
