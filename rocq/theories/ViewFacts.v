(** Facts about what the user's reports show of the booked ledger. *)
From Coq Require Import Ascii QArith Qabs Sorted.
From stdpp Require Import prelude gmap strings.
From Verif Require Import DecModel LedgerTypes IsoModel JsonModel WireModel BookModel BookSpec CljModel InventoryModel InventorySpec InventoryFacts OrderFacts InventoryMain InventoryTotal
  RollupFacts ServerModel ParserModel ClientModel ClientSpec ClientDecode ClientFacts ClientMain FormatModel PluginModel LoaderModel SystemSpec ViewSpec.
Local Open Scope nat_scope.

Definition entry_seen (p : cposting) (e : citem * posting) : Prop := item_of_posting p = e.1 ∧ posting_seen p e.2.

Lemma xf_entries ds bs : Forall2 directive_seen ds bs → Forall2 entry_seen (xf_postings ds) (booked_entries bs).
Proof.
  induction 1 as [|d b ds bs H HF IH]; [constructor|].
  change (d :: ds) with ([d] ++ ds). rewrite xf_postings_app, xf_postings_one.
  unfold booked_entries. cbn [mbind list_bind]. apply Forall2_app; [|exact IH]. clear IH HF.
  unfold directive_seen in H. destruct H as [Hd H].
  destruct (b_variant b) as [t| | | | | | | | | | |]; cbn in H.
  1: { destruct H as ((Hk&_&_&Hp&Hn&_)&HF). rewrite decide_True by done.
       induction HF as [|x p xs ps Hx HF IH]; [constructor|]. cbn [fmap list_fmap]. constructor; [|exact IH].
       destruct Hx as (Ha&Hc&Hx). split; [|exact (conj Ha (conj Hc Hx))]. unfold item_of_posting, dated. cbn. by rewrite Hd, Hp, Hn, Ha, Hc. }
  all: destruct H as (Hps&Hk&_); rewrite decide_False by (rewrite Hk; discriminate); constructor.
Qed.

Lemma Forall2_filter {A B} (R : A → B → Prop) (P : A → Prop) (Q : B → Prop) `{!∀ x, Decision (P x)} `{!∀ x, Decision (Q x)} (l : list A) (k : list B) :
  (∀ x y, R x y → P x ↔ Q y) → Forall2 R l k → Forall2 R (filter P l) (filter Q k).
Proof.
  intros HPQ. induction 1 as [|x y l k Hx HF IH]; [constructor|]. rewrite !filter_cons.
  destruct (decide (P x)) as [p|p], (decide (Q y)) as [q|q]; [by constructor|by apply HPQ in Hx; tauto..|done].
Qed.
Lemma forallb_Forall {A} (f : A → bool) l : forallb f l = true ↔ Forall (λ x, f x = true) l.
Proof. induction l as [|x l IH]; [by split|]. cbn. by rewrite andb_true_iff, Forall_cons, IH. Qed.
Lemma selected_entries ds o bs filters :
  Forall2 directive_seen ds bs → Forall2 entry_seen (selected (Beans ds o) filters) (entries_selected filters bs).
Proof.
  intros H%xf_entries. unfold selected, entries_selected. cbn [be_directives]. eapply Forall2_filter; [|exact H].
  intros p e [Hi _]. by rewrite forallb_Forall, Hi.
Qed.
Lemma qsum_seen ps es : Forall2 entry_seen ps es →
  (qsum ((λ p, cn_value (cp_units p)) <$> ps) == qsum ((λ e, dec_value (p_units e.2)) <$> es))%Q.
Proof.
  induction 1 as [|p e ps es [_ (_&_&Hu&_)] HF IH]; [reflexivity|]. cbn [fmap list_fmap qsum]. by rewrite (proj1 Hu), IH.
Qed.
Lemma filter_filter' {A} (P Q R : A → Prop) `{!∀ x, Decision (P x)} `{!∀ x, Decision (Q x)} `{!∀ x, Decision (R x)} (l : list A) :
  (∀ x, R x ↔ P x ∧ Q x) → filter P (filter Q l) = filter R l.
Proof.
  intros HR. induction l as [|x l IH]; [done|]. rewrite !filter_cons.
  destruct (decide (Q x)) as [q|q], (decide (R x)) as [r|r]; rewrite ?filter_cons.
  - rewrite decide_True by (by apply HR). by rewrite IH.
  - rewrite decide_False by (intros ?; apply r, HR; tauto). done.
  - apply HR in r. tauto.
  - done.
Qed.
Lemma posted_entries acc cur ps es : Forall2 entry_seen ps es →
  (posted acc cur ps == entry_units cur (to_account acc es))%Q.
Proof.
  intros H. unfold posted, entry_units, to_account.
  rewrite (filter_filter' _ _ (λ e, p_acc e.2 = acc ∧ p_cur e.2 = cur)) by tauto.
  apply qsum_seen. eapply Forall2_filter; [|exact H]. intros p e [_ (Ha&Hc&_)]. by rewrite Ha, Hc.
Qed.
Lemma running_entries cur ps es : Forall2 entry_seen ps es → (running cur ps == entry_units cur es)%Q.
Proof.
  intros H. unfold running, entry_units. apply qsum_seen. eapply Forall2_filter; [|exact H].
  intros p e [_ (_&Hc&_)]. by rewrite Hc.
Qed.

(** ** Sums over all accounts *)
Lemma qsum_group {A} (f : A → Q) (key : A → string) K l : NoDup K → (∀ x, x ∈ l → key x ∈ K) →
  (qsum ((λ k, qsum (f <$> filter (λ x, key x = k) l)) <$> K) == qsum (f <$> l))%Q.
Proof.
  intros HK. induction l as [|x l IH]; intros Hl.
  - apply qsum_zero. intros k _. reflexivity.
  - cbn [fmap list_fmap qsum]. rewrite <- IH by (intros y Hy; apply Hl; by right).
    assert (Hx : key x ∈ K) by (apply Hl; by left).
    transitivity (qsum ((λ k, (if decide (key x = k) then f x else 0) + qsum (f <$> filter (λ y, key y = k) l)) <$> K))%Q.
    { apply qsum_ext. intros k _. rewrite filter_cons. destruct (decide (key x = k)); [reflexivity|ring]. }
    rewrite qsum_plus, qsum_if by done. by rewrite decide_True.
Qed.
Lemma held_in_all_posted ho booking ps inv cur :
  (∀ l, ho l ≡ₚ l) → inventory_build ho ps booking = Some inv → (held_in_all cur inv == running cur ps)%Q.
Proof.
  intros Hho Hb. set (K := (map_to_list inv).*1). set (L := filter (λ p, cp_cur p = cur) ps).
  set (K2 := filter (λ k, k ∉ K) (remove_dups (cp_acc <$> L))).
  assert (HK : NoDup K) by apply NoDup_fst_map_to_list.
  assert (HP : ∀ acc, (held cur (holding inv acc) == qsum ((λ p, cn_value (cp_units p)) <$> filter (λ p, cp_acc p = acc) L))%Q).
  { intros acc. rewrite (held_is_posted ho Hho booking ps inv Hb acc cur). unfold posted, L.
    by rewrite (filter_filter' _ _ (λ p, cp_acc p = acc ∧ cp_cur p = cur)) by tauto. }
  unfold running. fold L. rewrite <- (qsum_group _ cp_acc (K ++ K2) L).
  - rewrite fmap_app, qsum_app.
    assert (qsum ((λ k, qsum ((λ p, cn_value (cp_units p)) <$> filter (λ p, cp_acc p = k) L)) <$> K2) == 0)%Q as ->.
    { apply qsum_zero. intros k [Hk _]%elem_of_list_filter. rewrite <- HP. unfold holding.
      destruct (inv !! k) as [l|] eqn:E; [|reflexivity]. destruct Hk. apply elem_of_list_fmap. exists (k, l). split; [done|]. by apply elem_of_map_to_list. }
    rewrite Qplus_0_r. unfold held_in_all, K. rewrite <- list_fmap_compose. apply qsum_ext.
    intros [k l] H%elem_of_map_to_list. cbn. rewrite <- HP. unfold holding. by rewrite H.
  - apply NoDup_app. split_and!; [done| |by apply NoDup_filter, NoDup_remove_dups].
    intros k H1 [H2 _]%elem_of_list_filter. done.
  - intros p Hp. apply elem_of_app. destruct (decide (cp_acc p ∈ K)) as [H|H]; [by left|right].
    apply elem_of_list_filter. split; [done|]. by apply elem_of_remove_dups, elem_of_list_fmap_1.
Qed.

(** ** Before a day *)
Lemma booked_entries_app a b : booked_entries (a ++ b) = booked_entries a ++ booked_entries b.
Proof. unfold booked_entries. by rewrite bind_app. Qed.
Lemma entry_in bs e : e ∈ booked_entries bs → ∃ j b t, bs !! j = Some b ∧ b_variant b = BVTransaction t ∧
  p_acc e.2 = default "" (it_acc e.1) ∧ it_acc e.1 = Some (p_acc e.2) ∧ it_date e.1 = Some (b_date b).
Proof.
  unfold booked_entries. intros (b&He&Hb)%elem_of_list_bind. apply elem_of_list_lookup in Hb as [j Hj].
  destruct (b_variant b) as [t| | | | | | | | | | |] eqn:Ev; try by apply elem_of_nil in He.
  apply elem_of_list_fmap in He as (p&->&Hp). exists j, b, t. cbn. done.
Qed.
Lemma filter_none {A} (P : A → Prop) `{!∀ x, Decision (P x)} (l : list A) : (∀ x, x ∈ l → ¬ P x) → filter P l = [].
Proof.
  induction l as [|x l IH]; intros HP; [done|]. rewrite filter_cons, decide_False by (apply HP; by left).
  apply IH. intros y Hy. apply HP. by right.
Qed.
Lemma filter_ext' {A} (P Q : A → Prop) `{!∀ x, Decision (P x)} `{!∀ x, Decision (Q x)} (l : list A) :
  (∀ x, x ∈ l → P x ↔ Q x) → filter P l = filter Q l.
Proof.
  induction l as [|x l IH]; intros HP; [done|]. rewrite !filter_cons, IH by (intros y Hy; apply HP; by right).
  destruct (HP x ltac:(by left)). destruct (decide (P x)), (decide (Q x)); tauto || done.
Qed.

Lemma sub_acc_under t x a : it_acc x = Some a → f_sub_acc [Some t] x = BookSpec.under t a.
Proof. unfold f_sub_acc, BookSpec.under. intros ->. cbn. by rewrite orb_false_r. Qed.
Lemma date_lt_earlier D x d : it_date x = Some d → date_lt D x = true ↔ earlier d D.
Proof.
  intros Hd. unfold date_lt. rewrite on_date_true. rewrite <- date_compare_lt. split.
  - intros (d'&Hd'&H). rewrite Hd in Hd'. injection Hd' as <-. by destruct (date_compare d D).
  - intros H. exists d. split; [done|]. by rewrite H.
Qed.
Lemma qsum_foldr l : qsum l = foldr Qplus 0%Q l.
Proof. by induction l as [|x l IH]; cbn; [|rewrite IH]. Qed.
Lemma entries_postings bs : (booked_entries bs).*2 = mbind postings_of bs.
Proof.
  unfold booked_entries. induction bs as [|b bs IH]; [done|]. cbn [mbind list_bind]. rewrite fmap_app, IH. f_equal.
  unfold postings_of. destruct (b_variant b); try done. rewrite <- list_fmap_compose. unfold compose. cbn. by rewrite list_fmap_id.
Qed.
Lemma filter_fmap' {A B} (f : A → B) (P : B → Prop) `{!∀ x, Decision (P x)} (l : list A) : filter P (f <$> l) = f <$> filter (λ x, P (f x)) l.
Proof. induction l as [|x l IH]; [done|]. cbn [fmap list_fmap]. rewrite !filter_cons. destruct (decide _); cbn [fmap list_fmap]; by rewrite <- IH. Qed.

(** Filtering by an account and a day selects what comes before the position. *)
Lemma before_day D n acc cur bs : divided_by D n bs →
  entry_units cur (entries_selected [f_sub_acc [Some acc]; date_lt D] bs) = BookSpec.posted (in_subtree acc cur) (take n bs).
Proof.
  intros Hd. unfold BookSpec.posted, entry_units, entries_selected, Qsum. rewrite qsum_foldr, <- entries_postings, filter_fmap', <- list_fmap_compose.
  f_equal. unfold compose. f_equal.
  rewrite (filter_filter' _ _ (λ e, p_cur e.2 = cur ∧ Forall (λ f, f e.1 = true) [f_sub_acc [Some acc]; date_lt D])) by tauto.
  rewrite <- (take_drop n bs) at 1. rewrite booked_entries_app, filter_app.
  rewrite (filter_none _ (booked_entries (drop n bs))), app_nil_r.
  - apply filter_ext'. intros e He. apply entry_in in He as (j&b&t&Hj&Hv&_&Ha&Hdt).
    apply lookup_take_Some in Hj as [Hj Hn]. destruct (Hd j b t Hj Hv) as [H _]. specialize (H Hn).
    rewrite !Forall_cons, Forall_nil, (sub_acc_under _ _ _ Ha), (date_lt_earlier _ _ _ Hdt).
    unfold in_subtree. rewrite andb_true_iff, String.eqb_eq. tauto.
  - intros e He [_ H]. apply entry_in in He as (j&b&t&Hj&Hv&_&Ha&Hdt).
    rewrite lookup_drop in Hj. rewrite !Forall_cons, (date_lt_earlier _ _ _ Hdt) in H.
    destruct H as (_&H&_). destruct (Hd _ _ _ Hj Hv) as [_ H']. apply H' in H. lia.
Qed.
Lemma visible_all bs n : n <= length bs → (∀ j, j < n → unconsumed bs n j = false) → visible bs n = take n bs.
Proof.
  intros Hn H. unfold visible.
  assert (∀ k s, s + k <= n → omap (λ j, if unconsumed bs n j then None else bs !! j) (seq s k) = take k (drop s bs)) as G.
  { intros k. induction k as [|k IH]; intros s Hs; [done|]. cbn [seq omap list_omap].
    rewrite H by lia. destruct (lookup_lt_is_Some_2 bs s) as [b Hb]; [lia|]. rewrite Hb, IH by lia.
    rewrite (drop_S bs b s Hb). done. }
  rewrite G by lia. by rewrite drop_0.
Qed.

(** ** What the client reads of a booked directive with spans *)
Lemma view_posting_ext v w : (∀ k, k ∈ ["flag"; "acc"; "units"; "cur"; "cost"] → vget k v = vget k w) → view_posting v = view_posting w.
Proof.
  intros H. unfold view_posting, view_opt, view_req.
  rewrite (H "flag"), (H "acc"), (H "units"), (H "cur"), (H "cost") by set_solver. done.
Qed.
Definition with_postings (d : cdirective) (ps : list cposting) : cdirective :=
  CDirective (cd_dct d) (cd_date d) (cd_acc d) (cd_cur d) (cd_payee d) (cd_narration d) (cd_booking d) ps.
Lemma view_directive_ext v w d ps :
  (∀ k, k ∈ ["dct"; "date"; "acc"; "cur"; "payee"; "narration"; "booking"] → vget k v = vget k w) →
  view_directive w = Some d → view_opt (view_list view_posting) "postings" v = Some ps →
  view_directive v = Some (with_postings d (default [] ps)).
Proof.
  intros H Hw Hp. unfold view_directive. rewrite Hp. unfold view_directive in Hw.
  assert (∀ {A} (f : cval → option A) k, k ∈ ["dct"; "date"; "acc"; "cur"; "payee"; "narration"; "booking"] →
     view_opt f k v = view_opt f k w ∧ view_req f k v = view_req f k w) as E.
  { intros A f k Hk. unfold view_opt, view_req. by rewrite (H k Hk). }
  rewrite (proj2 (E _ _ "dct" ltac:(set_solver))), (proj1 (E _ _ "date" ltac:(set_solver))), (proj1 (E _ _ "acc" ltac:(set_solver))),
    (proj1 (E _ _ "cur" ltac:(set_solver))), (proj1 (E _ _ "payee" ltac:(set_solver))), (proj1 (E _ _ "narration" ltac:(set_solver))),
    (proj1 (E _ _ "booking" ltac:(set_solver))).
  repeat match type of Hw with (?x ≫= _) = Some _ => destruct x; cbn [mbind option_bind] in Hw |- *; [|discriminate] end.
  by injection Hw as <-.
Qed.

Section View.
Context (ord : hash_order).
Lemma view_like b v (like : posting → cval → Prop) :
  dates_valid b →
  (∀ k, k ∈ ["dct"; "date"; "acc"; "cur"; "payee"; "narration"; "booking"] → vget k v = vget k (decode None (put_bdirective ord b))) →
  (∀ q w, like q w → ∀ k, k ∈ ["flag"; "acc"; "units"; "cur"; "cost"] → vget k w = vget k (decode None (put_posting ord q))) →
  match b_variant b with
  | BVTransaction t => ∃ ws, vget "postings" v = Some (VVec ws) ∧ Forall2 like (bt_postings t) ws
  | _ => vget "postings" v = None
  end → view_directive v = Some (seen_directive b).
Proof.
  intros Hd Hk Hl Hp.
  destruct (b_variant b) as [t| | | | | | | | | | |] eqn:Ev.
  1: { destruct Hp as (ws&Hp&HF). rewrite (view_directive_ext v _ _ (Some (seen_posting <$> bt_postings t)) Hk (view_directive_put ord b Hd)).
    - f_equal. unfold seen_directive. by rewrite Ev.
    - unfold view_opt. rewrite Hp. unfold view_list.
      assert (mapM view_posting ws = Some (seen_posting <$> bt_postings t)) as ->; [|done].
      destruct Hd as [_ Hd]. rewrite Ev in Hd. clear Hp Ev.
      induction HF as [|q w ps ws Hq HF IH]; [done|]. apply Forall_cons in Hd as [Hc Hd]. cbn [mapM fmap list_fmap].
      rewrite (view_posting_ext w _ (Hl q w Hq)), (view_posting_put ord None q Hc). cbn [mbind option_bind].
      rewrite (IH Hd). done. }
  all: rewrite (view_directive_ext v _ _ None Hk (view_directive_put ord b Hd)); [|by unfold view_opt; rewrite Hp];
    f_equal; unfold seen_directive; by rewrite Ev.
Qed.
Lemma traced_view src b v : dates_valid b → traced_to ord src b v → view_directive v = Some (seen_directive b).
Proof.
  intros Hd (d&_&(_&_&_&Hk)&Hp). eapply view_like; [done| | |exact Hp].
  - intros k H. apply Hk; set_solver.
  - intros q w (_&_&_&Hq) k H. cbn beta. apply Hq; set_solver.
Qed.
Lemma taken_view src b v : dates_valid b → taken_from ord src b v → view_directive v = Some (seen_directive b).
Proof.
  intros Hd (d&_&(_&Hk)&Hp). eapply view_like; [done| | |exact Hp].
  - intros k H. apply Hk; set_solver.
  - intros q w (_&Hq) k H. cbn beta. apply Hq; set_solver.
Qed.
Lemma views (R : bdirective → cval → Prop) bs vs : (∀ b v, dates_valid b → R b v → view_directive v = Some (seen_directive b)) →
  Forall dates_valid bs → Forall2 R bs vs → mapM view_directive vs = Some (seen_directive <$> bs).
Proof.
  intros HR Hd HF. induction HF as [|b v bs vs H HF IH]; [done|]. apply Forall_cons in Hd as [Hb Hd]. cbn [mapM fmap list_fmap].
  rewrite (HR b v Hb H). cbn [mbind option_bind]. by rewrite (IH Hd).
Qed.
Lemma seen_all bs : Forall2 directive_seen (seen_directive <$> bs) bs.
Proof. induction bs as [|b bs IH]; constructor; [apply seen_directive_ok|exact IH]. Qed.
End View.

(** ** The order of the booked ledger *)
Definition bmoves (b : bdirective) : Prop := match b_variant b with BVTransaction _ | BVPad _ => True | _ => False end.
Definition basserts (b : bdirective) : Prop := match b_variant b with BVBalance _ => True | _ => False end.
Definition bprecede (b b' : bdirective) : Prop :=
  ¬ earlier (b_date b') (b_date b) ∧ (basserts b' → bmoves b → earlier (b_date b) (b_date b')).
Definition alike (d : directive) (b : bdirective) : Prop :=
  b_date b = d_date d ∧ (bmoves b → moves d) ∧ (basserts b → asserts d).
Lemma earlier_irrefl a : ¬ earlier a a.
Proof. unfold earlier. lia. Qed.
Lemma content_alike i d b : same_header i d b → same_content (d_variant d) (b_variant b) → alike d b.
Proof. intros (_&Hd&_) H. unfold alike, bmoves, basserts, moves, asserts. split; [done|]. by destruct H. Qed.
Lemma pad_alike i d b : is_pad d → pad_transaction i d b → alike d b.
Proof.
  intros [p Hp] ((_&Hd&_)&l&Hv). unfold alike, bmoves, basserts, moves, asserts. rewrite Hp, Hv. split_and!; done.
Qed.
Lemma precede_alike d b d' b' : may_precede d d' → alike d b → alike d' b' → bprecede b b'.
Proof.
  intros [H1 H2] (E&M&_) (E'&_&A). unfold bprecede. rewrite E, E'. split; [done|]. intros X Y. by apply H2; [apply A|apply M].
Qed.
Lemma mirrors_all d b i ds bs : mirrors i ds bs → Forall (may_precede d) ds → alike d b → Forall (bprecede b) bs.
Proof.
  intros H HF Ha. induction H as [i|i d0 ds b0 bs Hp Hh Hc H IH|i d0 ds b0 b1 bs Hp Hh Hc Hpt H IH]; [constructor|..];
    apply Forall_cons in HF as [Hd HF]; rewrite ?Forall_cons; split_and?; try by apply IH.
  1,2: eapply precede_alike; [done..|by eapply content_alike].
  eapply precede_alike; [done..|by eapply pad_alike].
Qed.
Lemma mirrors_sorted i ds bs : mirrors i ds bs → in_ledger_order ds → StronglySorted bprecede bs.
Proof.
  unfold in_ledger_order.
  induction 1 as [i|i d0 ds b0 bs Hp Hh Hc H IH|i d0 ds b0 b1 bs Hp Hh Hc Hpt H IH]; intros HS; [constructor|..];
    apply StronglySorted_inv in HS as [HS HF].
  - constructor; [by apply IH|]. eapply mirrors_all; [done..|by eapply content_alike].
  - constructor; [constructor; [by apply IH|]|].
    + eapply mirrors_all; [done..|by eapply pad_alike].
    + constructor.
      * destruct Hh as (_&Hd&_), Hpt as ((_&Hd'&_)&l&Hv). split; [rewrite Hd, Hd'; apply earlier_irrefl|].
        unfold basserts. by rewrite Hv.
      * eapply mirrors_all; [done..|by eapply content_alike].
Qed.
Lemma sorted_lookup {A} (R : A → A → Prop) l i j x y : StronglySorted R l → i < j → l !! i = Some x → l !! j = Some y → R x y.
Proof.
  intros HS. revert i j. induction HS as [|a l HS IH HF]; intros i j Hij Hi Hj; [done|].
  destruct j as [|j]; [lia|]. destruct i as [|i].
  - injection Hi as ->. rewrite Forall_forall in HF. apply HF. by eapply elem_of_list_lookup_2.
  - apply (IH i j); [lia|done..].
Qed.
Lemma order_divides ds bs n b bb : mirrors 0 ds bs → in_ledger_order ds → bs !! n = Some b → b_variant b = BVBalance bb →
  divided_by (b_date b) n bs.
Proof.
  intros Hm Ho%(mirrors_sorted _ _ _ Hm) Hb Hv j b' t Hj Hvj. split.
  - intros Hlt. destruct (sorted_lookup _ _ _ _ _ _ Ho Hlt Hj Hb) as [_ H]. apply H; [by unfold basserts; rewrite Hv|by unfold bmoves; rewrite Hvj].
  - intros He. destruct (lt_eq_lt_dec j n) as [[H|H]|H]; [done|subst; congruence|].
    destruct (sorted_lookup _ _ _ _ _ _ Ho H Hb Hj) as [H' _]. done.
Qed.
