(** Facts about periods and reports of them. *)
From Coq Require Import Ascii QArith Sorted.
From stdpp Require Import prelude gmap strings.
From Verif Require Import DecModel LedgerTypes IsoModel BookModel BookSpec CljModel InventoryModel InventorySpec InventoryFacts OrderFacts InventoryMain RollupFacts
  ClientModel ClientSpec ClientFacts ClientMain ViewSpec ViewFacts PeriodModel PeriodSpec.
Local Open Scope nat_scope.

(** ** Parts *)
(** Every item which passes [f] passes exactly one of [fs], and no other item passes
    any. *)
Definition ones (x : citem) (fs : list (citem → bool)) : Q := qsum ((λ f : citem → bool, if f x then 1 else 0)%Q <$> fs).
Definition parts (f : citem → bool) (fs : list (citem → bool)) : Prop := ∀ x, (ones x fs == if f x then 1 else 0)%Q.

Lemma parts_sum (f : citem → bool) fs (w : cposting → Q) (sel : cposting → Prop) `{!∀ p, Decision (sel p)} pre post ps :
  parts f fs →
  let of (g : citem → bool) := qsum (w <$> filter sel (filter (λ p, forallb (λ f, f (item_of_posting p)) (pre ++ g :: post) = true) ps)) in
  (of f == qsum (of <$> fs))%Q.
Proof.
  intros Hp. cbv zeta. induction ps as [|p ps IH].
  { cbn. symmetry. apply qsum_zero. intros g _. reflexivity. }
  set (of := λ (l : list cposting) (g : citem → bool), qsum (w <$> filter sel (filter (λ p, forallb (λ f, f (item_of_posting p)) (pre ++ g :: post) = true) l))).
  change (of ps f == qsum (of ps <$> fs))%Q in IH. change (of (p :: ps) f == qsum (of (p :: ps) <$> fs))%Q.
  set (k := (if forallb (λ f, f (item_of_posting p)) (pre ++ post) then if decide (sel p) then w p else 0 else 0)%Q).
  assert (∀ g : citem → bool, (of (p :: ps) g == k * (if g (item_of_posting p) then 1 else 0) + of ps g)%Q) as E.
  { intros g. unfold of, k. rewrite filter_cons. rewrite !forallb_app. cbn [forallb].
    destruct (forallb _ pre), (g (item_of_posting p)), (forallb _ post); cbn [andb];
      try (rewrite decide_False by discriminate; ring).
    rewrite decide_True by done. rewrite filter_cons. destruct (decide (sel p)); cbn [fmap list_fmap qsum]; ring. }
  rewrite E, IH. rewrite (qsum_ext _ _ _ (λ g _, E g)), qsum_plus. apply Qplus_comp; [|reflexivity].
  rewrite <- (Hp (item_of_posting p)). unfold ones. clear -k. induction fs as [|g fs IH]; cbn [fmap list_fmap qsum]; [ring|].
  rewrite <- IH. ring.
Qed.

Lemma posted_parts f fs acc cur pre post bs :
  parts f fs → (posted acc cur (selected bs (pre ++ f :: post)) == qsum ((λ g, posted acc cur (selected bs (pre ++ g :: post))) <$> fs))%Q.
Proof. intros H. exact (parts_sum f fs _ _ pre post _ H). Qed.
Lemma running_parts f fs cur pre post bs :
  parts f fs → (running cur (selected bs (pre ++ f :: post)) == qsum ((λ g, running cur (selected bs (pre ++ g :: post))) <$> fs))%Q.
Proof. intros H. exact (parts_sum f fs _ _ pre post _ H). Qed.

Lemma qsum_Forall2 {A B} (R : A → B → Prop) (f : A → Q) (g : B → Q) l k :
  Forall2 R l k → (∀ x y, R x y → (f x == g y)%Q) → (qsum (f <$> l) == qsum (g <$> k))%Q.
Proof. induction 1 as [|x y l k H HF IH]; intros HR; [reflexivity|]. cbn [fmap list_fmap qsum]. rewrite (HR x y H). by rewrite IH. Qed.

Lemma inventory_built co bs fs inv : inventory co bs fs = Some inv → ∃ m, inventory_build (co_lots co) (selected bs fs) m = Some inv.
Proof. unfold inventory. destruct (default_booking _); [eauto|discriminate]. Qed.

Lemma report_post co bs r : is_report co bs r → ∃ post, ∀ fs, r fs = inventory co bs (fs ++ post).
Proof.
  intros [->|[->| ->]]; [exists []|eexists; intros; reflexivity..]. intros fs. by rewrite app_nil_r.
Qed.

Lemma report_parts co bs r f fs pre post inv invs :
  (∀ l, co_lots co l ≡ₚ l) → is_report co bs r → parts f fs →
  r (pre ++ f :: post) = Some inv → Forall2 (λ g i, r (pre ++ g :: post) = Some i) fs invs →
  (∀ acc cur, held cur (holding inv acc) == qsum ((λ i, held cur (holding i acc)) <$> invs))%Q ∧
  (∀ cur, held_in_all cur inv == qsum (held_in_all cur <$> invs))%Q.
Proof.
  intros Hco [post' Hr]%report_post Hp Hi HF. rewrite Hr in Hi. rewrite <- app_assoc in Hi. cbn [app] in Hi.
  apply inventory_built in Hi as [m Hi]. split.
  - intros acc cur. rewrite (held_is_posted _ Hco _ _ _ Hi acc cur), (posted_parts _ _ _ _ _ _ _ Hp).
    eapply qsum_Forall2; [exact HF|]. intros g i Hg. cbn beta in Hg. rewrite Hr, <- app_assoc in Hg. cbn [app] in Hg.
    apply inventory_built in Hg as [m' Hg]. by rewrite (held_is_posted _ Hco _ _ _ Hg acc cur).
  - intros cur. rewrite (held_in_all_posted _ _ _ _ cur Hco Hi), (running_parts _ _ _ _ _ _ Hp).
    eapply qsum_Forall2; [exact HF|]. intros g i Hg. cbn beta in Hg. rewrite Hr, <- app_assoc in Hg. cbn [app] in Hg.
    apply inventory_built in Hg as [m' Hg]. by rewrite (held_in_all_posted _ _ _ _ cur Hco Hg).
Qed.

(** ** Periods *)
Definition between (p : date * date) : citem → bool := date_between p.1 p.2.
Lemma not_later_trans a b c : not_later a b → not_later b c → not_later a c.
Proof. unfold not_later, earlier. lia. Qed.
Lemma lt_cases d x : date_lt d x = true ∨ date_lt d x = false. Proof. destruct (date_lt d x); auto. Qed.

(** What is before [e] is before [b] or between. *)
Lemma between_bit b e x : not_later b e → ((if date_lt b x then 1 else 0) + (if date_between b e x then 1 else 0) == if date_lt e x then 1 else 0)%Q.
Proof.
  intros H. unfold date_between. destruct (it_date x) as [d|] eqn:E.
  2: { unfold date_lt, date_ge, on_date. rewrite E. reflexivity. }
  rewrite (date_ge_not_lt b x d E).
  destruct (date_lt b x) eqn:Eb, (date_lt e x) eqn:Ee; cbn [negb andb]; try reflexivity.
  apply date_lt_earlier with (1 := E) in Eb. exfalso.
  assert (¬ earlier d e) as N. { intros N. apply (date_lt_earlier e x d E) in N. congruence. }
  unfold not_later, earlier in *. lia.
Qed.
Lemma days_bit b ends x : StronglySorted not_later (b :: ends) →
  ((if date_lt b x then 1 else 0) + ones x (between <$> periods b ends) == if date_lt (default b (last ends)) x then 1 else 0)%Q.
Proof.
  revert b. induction ends as [|e ends IH]; intros b H.
  { cbn. unfold ones. cbn. ring. }
  apply StronglySorted_inv in H as [Hs Hb]. apply Forall_cons in Hb as [Hbe Hb].
  cbn [periods fmap list_fmap]. unfold ones. cbn [fmap list_fmap qsum]. rewrite Qplus_assoc.
  unfold between at 1. cbn [fst snd]. rewrite (between_bit b e x Hbe).
  change (qsum _) with (ones x (between <$> periods e ends)). rewrite (IH e Hs).
  rewrite last_cons. by destruct (last ends).
Qed.
Lemma last_not_later b ends : StronglySorted not_later (b :: ends) → not_later b (default b (last ends)).
Proof.
  intros [_ Hb]%StronglySorted_inv. destruct (last ends) as [e|] eqn:E; cbn.
  - apply last_Some_elem_of in E. by rewrite Forall_forall in Hb; apply Hb.
  - unfold not_later, earlier. lia.
Qed.
Lemma parts_between b ends : StronglySorted not_later (b :: ends) →
  parts (date_between b (default b (last ends))) (between <$> periods b ends).
Proof.
  intros H x. pose proof (days_bit b ends x H) as D. rewrite <- (between_bit b _ x (last_not_later b ends H)) in D.
  exact (proj1 (Qplus_inj_l _ _ _) D).
Qed.
Lemma parts_before b ends : StronglySorted not_later (b :: ends) →
  parts (date_lt (default b (last ends))) (date_lt b :: (between <$> periods b ends)).
Proof. intros H x. rewrite <- (days_bit b ends x H). reflexivity. Qed.

(** ** Journals *)
Lemma journal_from_prefix ho st ps qs l : journal_from ho st (ps ++ qs) = Some l →
  ∃ k, journal_from ho st ps = Some k ∧ k `prefix_of` l.
Proof.
  revert st l. induction ps as [|p ps IH]; intros st l H.
  { exists []. split; [done|]. apply prefix_nil. }
  cbn [app journal_from] in H |- *. destruct (accumulate _ _) as [st'|]; [|discriminate]. cbn [mbind option_bind] in H |- *.
  destruct (journal_from _ _ (ps ++ qs)) as [r|] eqn:E; [|discriminate]. cbn [mbind option_bind] in H. injection H as <-.
  destruct (IH _ _ E) as (k&->&Hk). cbn [mbind option_bind]. eexists. split; [done|]. by apply prefix_cons.
Qed.
Lemma journal_build_prefix ho ps qs l : journal_build ho (ps ++ qs) = Some l →
  ∃ k, journal_build ho ps = Some k ∧ k `prefix_of` l.
Proof. unfold journal_build. destruct (accumulator BNone); [|discriminate]. cbn [mbind option_bind]. apply journal_from_prefix. Qed.

(** Of postings in order of their dates, those before a day come first. *)
Definition posted_in_order (ps : list cposting) : Prop :=
  ∀ i j p q a b, (i < j)%nat → ps !! i = Some p → ps !! j = Some q → cp_date p = Some a → cp_date q = Some b → not_later a b.
Lemma posted_in_order_app ps qs : posted_in_order ps → posted_in_order qs →
  (∀ p q a b, p ∈ ps → q ∈ qs → cp_date p = Some a → cp_date q = Some b → not_later a b) → posted_in_order (ps ++ qs).
Proof.
  intros Hp Hq Hpq i j p q a b Hij Hi Hj.
  apply lookup_app_Some in Hi as [Hi|[Hi1 Hi]], Hj as [Hj|[Hj1 Hj]].
  - by eapply Hp.
  - intros. eapply Hpq; [by eapply elem_of_list_lookup_2|by eapply elem_of_list_lookup_2|done..].
  - apply lookup_lt_Some in Hj. lia.
  - by eapply Hq; [|exact Hi|exact Hj]; lia.
Qed.
Lemma xf_posting_in ds p : p ∈ xf_postings ds → ∃ d, d ∈ ds ∧ cd_dct d = "txn" ∧ cp_date p = cd_date d.
Proof.
  unfold xf_postings. intros (d&Hp&[Ht Hd]%elem_of_list_filter)%elem_of_list_bind. exists d. split_and!; [done..|].
  by apply elem_of_list_fmap in Hp as (q&->&_).
Qed.
Lemma xf_in_order ds : in_date_order ds → posted_in_order (xf_postings ds).
Proof.
  induction ds as [|d ds IH]; intros H; [intros i j p q a b _ Hi; by destruct i|].
  change (d :: ds) with ([d] ++ ds). rewrite xf_postings_app. apply posted_in_order_app.
  - intros i j p q a b _ Hi Hj Ha Hb. apply elem_of_list_lookup_2, xf_posting_in in Hi as (x&Hx&_&Ex), Hj as (y&Hy&_&Ey).
    apply elem_of_list_singleton in Hx, Hy. subst x y. rewrite Ha in Ex. rewrite Hb in Ey. rewrite <- Ex in Ey. injection Ey as ->.
    unfold not_later, earlier. lia.
  - apply IH. intros i j x y a b Hij Hi Hj. exact (H (S i) (S j) x y a b ltac:(lia) Hi Hj).
  - intros p q a b (x&Hx&Tx&Ex)%xf_posting_in (y&Hy&Ty&Ey)%xf_posting_in Ha Hb. apply elem_of_list_singleton in Hx. subst x.
    apply elem_of_list_lookup in Hy as [j Hj]. eapply (H 0 (S j) d y); [lia|done..|congruence|congruence].
Qed.
Lemma before_prefix pre post d1 d2 ps : not_later d1 d2 → posted_in_order ps →
  let of d := filter (λ p, forallb (λ f, f (item_of_posting p)) (pre ++ date_lt d :: post) = true) ps in
  of d1 `prefix_of` of d2.
Proof.
  intros Hd. cbv zeta. induction ps as [|p ps IH]; intros Ho; [done|].
  assert (posted_in_order ps) as Ho'. { intros i j x y a b Hij Hi Hj. exact (Ho (S i) (S j) x y a b ltac:(lia) Hi Hj). }
  rewrite !filter_cons, !forallb_app. cbn [forallb].
  destruct (forallb _ pre) eqn:E1, (forallb _ post) eqn:E2; cbn [andb]; rewrite ?andb_false_r, ?andb_true_r;
    try (rewrite !decide_False by discriminate; by apply IH).
  destruct (date_lt d1 (item_of_posting p)) eqn:D1.
  - assert (date_lt d2 (item_of_posting p) = true) as ->.
    { apply date_lt_spec in D1 as (x&Hx&Hl). apply (date_lt_spec d2). exists x. split; [done|]. unfold not_later, earlier in *. lia. }
    rewrite !decide_True by done. by apply prefix_cons, IH.
  - rewrite decide_False by discriminate. destruct (cp_date p) as [x|] eqn:Ex.
    2: { rewrite decide_False; [by apply IH|]. unfold date_lt, on_date, item_of_posting. cbn. by rewrite Ex. }
    rewrite (filter_none _ ps); [apply prefix_nil|]. intros q Hq. rewrite forallb_app. cbn [forallb]. rewrite !andb_true_iff.
    intros (_&Hl&_). apply date_lt_spec in Hl as (y&Hy&Hl). cbn in Hy. apply elem_of_list_lookup in Hq as [j Hj].
    pose proof (Ho 0 (S j) p q x y ltac:(lia) eq_refl Hj Ex Hy) as N.
    assert (¬ earlier x d1) as M. { intros M. assert (date_lt d1 (item_of_posting p) = true) as T; [|congruence]. apply date_lt_spec. exists x. by split. }
    unfold not_later, earlier in *. lia.
Qed.
