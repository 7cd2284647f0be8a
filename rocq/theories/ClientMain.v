(** The theorems about the client's reports. *)
From Coq Require Import Ascii QArith Sorted.
From stdpp Require Import prelude gmap strings.
From Verif Require Import DecModel LedgerTypes IsoModel JsonModel WireModel WireSpec WireFacts ParserModel
  ServerModel OutputSpec OutputFacts BookModel CljModel InventoryModel InventorySpec OrderFacts InventoryMain InventoryTotal InventoryKinds
  ClientModel ClientSpec ClientDecode ClientFacts.
Local Open Scope nat_scope.

(** ** Options on the client *)
Section Options.
Context {P : Type} (h : orders P).
Lemma option_text k (f : poptions → string) o :
  (k, f o) ∈ [("name-assets", po_name_assets o); ("name-liabilities", po_name_liabilities o);
              ("name-equity", po_name_equity o); ("name-income", po_name_income o); ("name-expenses", po_name_expenses o)] →
  (vget k (decode None (put_options h (from_options o))) ≫= view_str) = Some (f o).
Proof.
  intros Hin. unfold put_options. rewrite vget_decode.
  assert (∃ i, [("name-assets", po_name_assets o); ("name-liabilities", po_name_liabilities o);
              ("name-equity", po_name_equity o); ("name-income", po_name_income o); ("name-expenses", po_name_expenses o)] !! i = Some (k, f o)) as [i Hi]
    by by apply elem_of_list_lookup_1.
  destruct i as [|[|[|[|[|i]]]]]; cbn in Hi; try discriminate Hi; injection Hi as <- Hf.
  all: rewrite !entries_app, !entries_put_ne by done; repeat (rewrite entries_cons_ne by done); rewrite entries_cons_eq;
    repeat (rewrite entries_cons_ne by done); rewrite entries_nil; cbn; by rewrite Hf.
Qed.
Lemma no_booking_option o : vget "booking" (decode None (put_options h (from_options o))) = None.
Proof.
  unfold put_options. rewrite vget_decode.
  rewrite !entries_app, !entries_put_ne by done. repeat (rewrite entries_cons_ne by done). done.
Qed.
Lemma default_is_strict o : default_booking (decode None (put_options h (from_options o))) = Some BStrict.
Proof. unfold default_booking. by rewrite no_booking_option. Qed.
End Options.

(** ** The same inventory under methods with the same rule *)
Lemma build_same_rule ho ps (b1 b2 : string → booking) :
  (∀ a, booking_rule (b1 a) = booking_rule (b2 a)) → inventory_build ho ps b1 = inventory_build ho ps b2.
Proof.
  intros Hb. unfold inventory_build. f_equal. generalize (∅ : gmap string inv_acc).
  induction ps as [|p ps IH]; intros m; [done|]. cbn [fold_opt].
  assert (build_step b1 m p = build_step b2 m p) as ->.
  { unfold build_step, accumulator. rewrite Hb. done. }
  destruct (build_step b2 m p); [apply IH|done].
Qed.
Lemma merging_rule m : merges m = true → booking_rule m = Some RMerge.
Proof. by destruct m. Qed.

Lemma inventory_strict {P} (h : orders P) co ds o filters :
  inventory co (Beans ds (decode None (put_options h (from_options o)))) filters =
  inventory_build (co_lots co) (selected (Beans ds (decode None (put_options h (from_options o)))) filters)
    (λ a, default BStrict (last (opened_with ds a))).
Proof.
  unfold inventory. cbn [be_options be_directives]. rewrite default_is_strict.
  apply build_same_rule. intros a. by rewrite registry_booking.
Qed.
Lemma inventory_as_intended {P} (h : orders P) co ds o filters :
  (∀ m, po_booking_method o = Some m → merges m = true) →
  inventory co (Beans ds (decode None (put_options h (from_options o)))) filters =
  inventory_build (co_lots co) (selected (Beans ds (decode None (put_options h (from_options o)))) filters)
    (λ a, default (default BStrict (po_booking_method o)) (last (opened_with ds a))).
Proof.
  intros Hm. rewrite inventory_strict. apply build_same_rule. intros a.
  destruct (last (opened_with ds a)); [done|]. cbn. destruct (po_booking_method o) as [m|]; [|done].
  cbn. by rewrite (merging_rule m) by auto.
Qed.

(** ** Selecting postings *)
Definition dated (d : cdirective) (p : cposting) : cposting :=
  CPosting (cd_date d) (cd_payee d) (cd_narration d) (cp_flag p) (cp_acc p) (cp_units p) (cp_cur p) (cp_cost p).
Lemma xf_postings_app a b : xf_postings (a ++ b) = xf_postings a ++ xf_postings b.
Proof. unfold xf_postings. rewrite filter_app. apply bind_app. Qed.
Lemma xf_postings_one d : xf_postings [d] = if decide (cd_dct d = "txn") then dated d <$> cd_postings d else [].
Proof. unfold xf_postings. rewrite filter_cons. destruct (decide _); cbn; [apply app_nil_r|done]. Qed.
Lemma all_postings_app a b : all_postings (a ++ b) = all_postings a ++ all_postings b.
Proof. unfold all_postings. by rewrite filter_app, fmap_app, concat_app. Qed.
Lemma all_postings_one d : all_postings [d] = if decide (cd_dct d = "txn") then cd_postings d else [].
Proof. unfold all_postings. rewrite filter_cons. destruct (decide _); cbn; [apply app_nil_r|done]. Qed.
Lemma xf_forall2 ds : Forall2 (λ p q, ∃ d, d ∈ ds ∧ p = dated d q) (xf_postings ds) (all_postings ds).
Proof.
  induction ds as [|d ds IH] using rev_ind; [constructor|].
  rewrite xf_postings_app, all_postings_app. apply Forall2_app.
  - eapply Forall2_impl; [exact IH|]. intros p q (d'&Hd&->). exists d'. split; [|done]. apply elem_of_app. by left.
  - rewrite xf_postings_one, all_postings_one. destruct (decide _); [|constructor].
    apply Forall2_fmap_l, Forall_Forall2_diag, Forall_forall. intros p _. exists d. split; [|done].
    apply elem_of_app. right. by apply elem_of_list_singleton.
Qed.
Lemma selected_app bs fs gs :
  selected bs (fs ++ gs) = filter (λ p, forallb (λ f, f (item_of_posting p)) gs = true) (selected bs fs).
Proof.
  unfold selected. rewrite (filter_and _ _ (λ p, forallb (λ f, f (item_of_posting p)) (fs ++ gs) = true)); [done|].
  intros p. by rewrite forallb_app, andb_true_iff.
Qed.
Lemma elem_of_selected bs fs p :
  p ∈ selected bs fs ↔ p ∈ xf_postings (be_directives bs) ∧ ∀ f, f ∈ fs → f (item_of_posting p) = true.
Proof.
  unfold selected. rewrite elem_of_list_filter, forallb_forall. setoid_rewrite <- elem_of_list_In. tauto.
Qed.

(** Dropping postings keeps sums in range. *)
Lemma in_range_filter P `{!∀ p, Decision (P p)} acc cur (ps : list cposting) : in_range acc cur ps → in_range acc cur (filter P ps).
Proof.
  unfold in_range. assert (∀ l : list cposting, (zsum ((λ p, whole (cp_units p)) <$> filter (λ p, cp_acc p = acc ∧ cp_cur p = cur) (filter P l)) <=
    zsum ((λ p, whole (cp_units p)) <$> filter (λ p, cp_acc p = acc ∧ cp_cur p = cur) l))%Z) as Hl.
  { induction l as [|p l IH]; [done|]. rewrite (filter_cons P). pose proof (whole_nonneg (cp_units p)).
    destruct (decide (P p)); rewrite !filter_cons; destruct (decide (cp_acc p = acc ∧ cp_cur p = cur)); cbn [fmap list_fmap zsum]; lia. }
  specialize (Hl ps). lia.
Qed.
Lemma in_range_xf acc cur ds : in_range acc cur (all_postings ds) → in_range acc cur (xf_postings ds).
Proof.
  unfold in_range. intros H. eapply Z.le_lt_trans; [|exact H]. clear H.
  induction (xf_forall2 ds) as [|p q ps qs (d&Hd&->) _ IH]; [done|].
  rewrite !filter_cons. cbn [cp_acc cp_cur dated].
  destruct (decide (cp_acc q = acc ∧ cp_cur q = cur)); cbn [fmap list_fmap zsum cp_units dated]; lia.
Qed.

Lemma inventory_exists co bs filters dflt :
  default_booking (be_options bs) = Some dflt → dflt ≠ BAverage →
  (∀ acc, last (opened_with (be_directives bs) acc) ≠ Some BAverage) →
  (∀ acc cur, in_range acc cur (all_postings (be_directives bs))) →
  is_Some (inventory co bs filters).
Proof.
  intros Hd Hn Ha Hr. unfold inventory. rewrite Hd. apply build_exists.
  - intros p _. rewrite registry_booking. specialize (Ha (cp_acc p)).
    destruct (last (opened_with (be_directives bs) (cp_acc p))) as [m|]; cbn; congruence.
  - intros acc cur. apply in_range_filter, in_range_xf, Hr.
Qed.

(** ** Balance sheet and income statement *)
Lemma build_keys booking ps m acc :
  fold_opt (build_step booking) ∅ ps = Some m → is_Some (m !! acc) → ∃ p, p ∈ ps ∧ cp_acc p = acc.
Proof.
  assert (∀ ps m0, fold_opt (build_step booking) m0 ps = Some m → is_Some (m !! acc) →
    is_Some (m0 !! acc) ∨ ∃ p, p ∈ ps ∧ cp_acc p = acc) as Hg.
  { clear ps. induction ps as [|p ps IH]; cbn; intros m0; [intros [= ->]; by left|].
    unfold build_step at 1.
    destruct (match m0 !! cp_acc p with Some i => Some i | None => accumulator (booking (cp_acc p)) end) as [i|]; [|done].
    cbn. destruct (accumulate i (to_position p)) as [i'|]; [|done]. cbn. intros Hf Hm.
    destruct (IH _ Hf Hm) as [H|(q&Hq&Ha)].
    - destruct (decide (cp_acc p = acc)) as [Hp|Hp].
      + right. exists p. split; [by left|done].
      + left. by rewrite lookup_insert_ne in H.
    - right. exists q. split; [by right|done]. }
  intros Hf Hm. destruct (Hg ps ∅ Hf Hm) as [[x H]|H]; [|done]. by rewrite lookup_empty in H.
Qed.
Lemma inventory_keys ho booking ps inv acc :
  inventory_build ho ps booking = Some inv → is_Some (inv !! acc) → ∃ p, p ∈ ps ∧ cp_acc p = acc.
Proof.
  unfold inventory_build. destruct (fold_opt _ ∅ ps) as [m|] eqn:E; [|done]. intros [= <-] [x Hx].
  rewrite lookup_omap in Hx. destruct (m !! acc) as [i|] eqn:Em; [|done].
  eapply build_keys; [exact E|]. rewrite Em. by eexists.
Qed.
Lemma posted_filter acc cur P `{!∀ p, Decision (P p)} (ps : list cposting) :
  (∀ p, p ∈ ps → cp_acc p = acc → P p) → posted acc cur (filter P ps) = posted acc cur ps.
Proof.
  intros HP. unfold posted. f_equal. f_equal. induction ps as [|p ps IH]; [done|].
  rewrite (filter_cons P). destruct (decide (P p)) as [Hp|Hp].
  - rewrite !(filter_cons (λ p, cp_acc p = acc ∧ cp_cur p = cur)). rewrite IH; [done|]. intros q Hq. apply HP. by right.
  - rewrite (filter_cons (λ p, cp_acc p = acc ∧ cp_cur p = cur)). rewrite decide_False.
    + apply IH. intros q Hq. apply HP. by right.
    + intros [Ha _]. apply Hp, HP; [by left|done].
Qed.

Lemma statement co bs filters (Hco : ∀ l, co_lots co l ≡ₚ l) (a b : string) inv :
  inventory co bs (filters ++ [f_sub_acc [Some a; Some b]]) = Some inv →
  (∀ acc, under a acc ∨ under b acc → ∀ cur, (held cur (holding inv acc) == posted acc cur (selected bs filters))%Q) ∧
  (∀ acc, is_Some (inv !! acc) → under a acc ∨ under b acc).
Proof.
  unfold inventory. destruct (default_booking (be_options bs)) as [dflt|]; [|done]. intros Hb. split.
  - intros acc Hu cur. rewrite (held_is_posted _ Hco _ _ _ Hb acc cur). rewrite selected_app.
    rewrite posted_filter; [reflexivity|]. intros p _ <-. cbn [forallb]. rewrite andb_true_r.
    apply (f_sub_acc_spec [a; b]). exists (cp_acc p). split; [done|].
    destruct Hu; [exists a|exists b]; (split; [set_solver|done]).
  - intros acc Hs. destruct (inventory_keys _ _ _ _ _ Hb Hs) as (p&Hp&<-).
    rewrite selected_app in Hp. apply elem_of_list_filter in Hp as [Hf _]. cbn [forallb] in Hf.
    rewrite andb_true_r in Hf. apply (f_sub_acc_spec [a; b]) in Hf as (x&[= <-]&t&Ht&Hu).
    apply elem_of_cons in Ht as [->|Ht]; [by left|]. apply elem_of_list_singleton in Ht as ->. by right.
Qed.
Lemma no_posting_in_both a b c d acc :
  Forall (λ s, has_colon s = false) [a; b; c; d] → NoDup [a; b; c; d] →
  (under a acc ∨ under b acc) → ¬ (under c acc ∨ under d acc).
Proof.
  intros Hc Hn H1 H2. rewrite !Forall_cons in Hc. destruct Hc as (Ha&Hb&Hc&Hd&_).
  rewrite !NoDup_cons, !not_elem_of_cons in Hn. destruct Hn as ((?&?&?&_)&(?&?&_)&_).
  destruct H1 as [H1|H1], H2 as [H2|H2];
    [pose proof (under_unique a c acc Ha Hc H1 H2)|pose proof (under_unique a d acc Ha Hd H1 H2)
    |pose proof (under_unique b c acc Hb Hc H1 H2)|pose proof (under_unique b d acc Hb Hd H1 H2)]; done.
Qed.

(** ** Splitting at a date *)
Lemma filter_split {A} (f g : A → bool) (l : list A) :
  (∀ x, x ∈ l → g x = negb (f x)) → l ≡ₚ filter (λ x, f x = true) l ++ filter (λ x, g x = true) l.
Proof.
  induction l as [|x l IH]; intros H; [done|]. rewrite !filter_cons.
  rewrite (H x) by by left. specialize (IH (λ y Hy, H y (elem_of_list_further _ _ _ Hy))).
  destruct (f x); cbn [negb].
  - rewrite decide_True, decide_False by done. cbn [app]. by apply Permutation_skip.
  - rewrite decide_False, decide_True by done. etransitivity; [by apply Permutation_skip|]. apply Permutation_middle.
Qed.
Lemma bind_two {A B C} (x : option A) (y : option B) (f : A → B → C) r :
  (b ← x; e ← y; Some (f b e)) = Some r → ∃ b e, x = Some b ∧ y = Some e ∧ r = f b e.
Proof. destruct x as [b|], y as [e|]; cbn; try done. intros [= <-]. eauto. Qed.
