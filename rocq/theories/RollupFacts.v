From Coq Require Import Ascii QArith Sorted.
From stdpp Require Import prelude gmap strings.
From Verif Require Import DecModel DecProofs LedgerTypes CljModel InventoryModel InventorySpec OrderFacts InventoryFacts
  InventoryMain ClientSpec RollupModel RollupSpec.
Local Open Scope nat_scope.

(** ** Accounts *)

Lemma append_cons c a b : String c a +:+ b = String c (a +:+ b).
Proof. reflexivity. Qed.
Lemma append_nil_l b : "" +:+ b = b.
Proof. reflexivity. Qed.
Lemma append_nil_r a : a +:+ "" = a.
Proof. induction a as [|c a IH]; [done|]. by rewrite append_cons, IH. Qed.
Lemma append_assoc a b c : (a +:+ b) +:+ c = a +:+ (b +:+ c).
Proof. induction a as [|x a IH]; [done|]. by rewrite !append_cons, IH. Qed.

Lemma starts_with_spec p s : starts_with p s = true ↔ ∃ r, s = p +:+ r.
Proof.
  revert s. induction p as [|a p IH]; intros s.
  - split; [|done]. intros _. by exists s.
  - destruct s as [|b s]; [split; [done|intros [r Hr]; rewrite append_cons in Hr; done]|].
    cbn [starts_with]. rewrite andb_true_iff, Ascii.eqb_eq, IH. split.
    + intros [-> [r ->]]. by exists r.
    + intros [r Hr]. rewrite append_cons in Hr. injection Hr as -> ->. split; [done|by exists r].
Qed.
Lemma is_under_spec base name : is_under base name = true ↔ under base name.
Proof.
  unfold is_under, under. rewrite orb_true_iff, String.eqb_eq, starts_with_spec. setoid_rewrite append_assoc. done.
Qed.
Lemma under_refl a : under a a.
Proof. by left. Qed.

Lemma under_nil base : under base "" ↔ base = "".
Proof.
  split; [|intros ->; by left]. intros [H|[r H]]; [done|]. destruct base; [done|]. rewrite append_cons in H. done.
Qed.
Lemma under_nil_cons c s : under "" (String c s) ↔ c = ":"%char.
Proof.
  split.
  - intros [H|[r H]]; [done|]. rewrite append_nil_l, append_cons in H. by injection H.
  - intros ->. right. by exists s.
Qed.
Lemma under_cons c b d s : under (String c b) (String d s) ↔ c = d ∧ under b s.
Proof.
  unfold under. split.
  - intros [H|[r H]]; [injection H as -> ->; auto|]. rewrite append_cons in H. injection H as -> ->. split; [done|]. right. by exists r.
  - intros [-> [->|[r ->]]]; [by left|]. right. by exists r.
Qed.

(** The accounts above, by the characters of the name. *)
Fixpoint above (s : string) : list string :=
  match s with
  | EmptyString => [""]
  | String c s' => (if Ascii.eqb c ":" then [""] else []) ++ (String c <$> above s')
  end.
Lemma above_spec s base : base ∈ above s ↔ under base s.
Proof.
  revert base. induction s as [|c s IH]; intros base.
  - rewrite under_nil. cbn. by rewrite elem_of_list_singleton.
  - cbn [above]. rewrite elem_of_app, elem_of_list_fmap. setoid_rewrite IH.
    destruct base as [|d b].
    + rewrite under_nil_cons. destruct (Ascii.eqb_spec c ":") as [->|Hc].
      * split; [done|]. intros _. left. by apply elem_of_list_singleton.
      * split; [|done]. intros [H|(?&?&?)]; [by apply elem_of_nil in H|done].
    + rewrite under_cons. split.
      * intros [H|(b'&[= -> ->]&H)]; [|done].
        destruct (Ascii.eqb c ":"); [apply elem_of_list_singleton in H; done|by apply elem_of_nil in H].
      * intros [-> H]. right. by exists b.
Qed.
Lemma above_nodup s : NoDup (above s).
Proof.
  induction s as [|c s IH]; [apply NoDup_singleton|]. cbn [above]. apply NoDup_app. split_and!.
  - destruct (Ascii.eqb c ":"); [apply NoDup_singleton|apply NoDup_nil; done].
  - intros x Hx Hy. apply elem_of_list_fmap in Hy as (y&->&_).
    destruct (Ascii.eqb c ":"); [apply elem_of_list_singleton in Hx; done|by apply elem_of_nil in Hx].
  - apply NoDup_fmap_2; [|done]. intros x y H. by injection H.
Qed.

Fixpoint joins (comb : string) (ps : list string) : list string :=
  match ps with [] => [] | p :: ps' => (comb +:+ ":" +:+ p) :: joins (comb +:+ ":" +:+ p) ps' end.
Lemma joins_cons c comb ps : joins (String c comb) ps = String c <$> joins comb ps.
Proof. revert comb. induction ps as [|p ps IH]; intros comb; [done|]. cbn [joins]. rewrite append_cons, IH. done. Qed.
Lemma ancestors_fold ps l comb : l ≠ [] → (fold_left ancestors_step ps (l, comb)).1 = l ++ joins comb ps.
Proof.
  revert l comb. induction ps as [|p ps IH]; intros l comb Hl; [cbn; by rewrite app_nil_r|].
  cbn [fold_left joins]. unfold ancestors_step at 2. cbn [fst snd]. destruct l as [|x l]; [done|].
  rewrite IH by done. by rewrite <- app_assoc.
Qed.
Lemma parts_nonempty s : ∃ p ps, parts s = p :: ps.
Proof. destruct s as [|c s]; cbn; [eauto|]. destruct (Ascii.eqb c ":"); [eauto|]. destruct (parts s); eauto. Qed.
Lemma above_parts s : above s = match parts s with p :: ps => p :: joins p ps | [] => [] end.
Proof.
  induction s as [|c s IH]; [done|]. cbn [above parts]. destruct (parts_nonempty s) as (p&ps&E). rewrite E in *.
  destruct (Ascii.eqb_spec c ":") as [->|Hc]; rewrite IH; cbn [app fmap list_fmap joins].
  - rewrite append_nil_l. change (":" +:+ p) with (String ":" p). rewrite joins_cons. done.
  - rewrite joins_cons. done.
Qed.

Lemma drop_trailing_snoc l x : x ≠ "" → drop_trailing_empty (l ++ [x]) = l ++ [x].
Proof.
  intros Hx. induction l as [|y l IH]; cbn [app drop_trailing_empty].
  - by destruct (String.eqb_spec x "").
  - rewrite IH. by destruct l.
Qed.
Lemma parts_last s : s ≠ "" → ¬ ends_with_colon s → ∃ l x, parts s = l ++ [x] ∧ x ≠ "".
Proof.
  induction s as [|c s IH]; [done|]. intros _ He. cbn [parts].
  destruct (decide (s = "")) as [->|Hs].
  - destruct (Ascii.eqb_spec c ":") as [->|Hc]; [exfalso; apply He; by exists ""|]. cbn. by exists [], (String c "").
  - destruct IH as (l&x&E&Hx); [done|intros [p ->]; apply He; by exists (String c p)|].
    destruct (Ascii.eqb c ":"); [exists ("" :: l), x; by rewrite E|].
    rewrite E. destruct l as [|p l]; cbn [app]; [exists [], (String c x); done|]. by exists (String c p :: l), x.
Qed.
Lemma split_parts s : ¬ ends_with_colon s → split_colon s = parts s.
Proof.
  intros He. unfold split_colon. destruct (decide (s = "")) as [->|Hs]; [done|].
  destruct (parts_last s Hs He) as (l&x&E&Hx). rewrite E. destruct l as [|y l]; [done|]. cbn [app].
  destruct (l ++ [x]) eqn:El; [by destruct l|]. rewrite <- El. change (y :: l ++ [x]) with ((y :: l) ++ [x]). by apply drop_trailing_snoc.
Qed.
Lemma ancestors_above s : ¬ ends_with_colon s → account_and_ancestors s = above s.
Proof.
  intros He. unfold account_and_ancestors. rewrite split_parts by done. rewrite above_parts.
  destruct (parts_nonempty s) as (p&ps&->). cbn [fold_left]. unfold ancestors_step at 2. cbn [fst].
  rewrite ancestors_fold by done. done.
Qed.
Lemma depth_colons s : account_depth s = colons s.
Proof. induction s as [|c s IH]; [done|]. cbn. rewrite IH. by destruct (Ascii.eqb c ":"). Qed.
Lemma under_colons a b : under a b → a ≠ b → colons a < colons b.
Proof.
  intros [->|[r ->]] Hne; [done|]. clear Hne. induction a as [|c a IH].
  - rewrite append_nil_l, append_cons. cbn. lia.
  - rewrite append_cons. cbn [colons]. destruct (Ascii.eqb c ":"); lia.
Qed.

(** ** Units by currency *)

Lemma add_fold {K} `{Countable K} (l : list (K * dec)) k :
  let r := fold_left (λ (r : gmap K dec) e, <[e.1 := dec_add e.2 (default dec_zero (r !! e.1))]> r) l ∅ in
  match r !! k with
  | Some v => (∃ e, e ∈ l ∧ e.1 = k) ∧ (dec_value v == qsum ((λ e, dec_value e.2) <$> filter (λ e, e.1 = k) l))%Q
  | None => ∀ e, e ∈ l → e.1 ≠ k
  end.
Proof.
  cbn zeta. induction l as [|e l IH] using rev_ind; [cbn [fold_left]; rewrite lookup_empty; intros e He; by apply elem_of_nil in He|].
  rewrite fold_left_app. cbn [fold_left]. set (r := fold_left _ l ∅) in *. clearbody r.
  rewrite filter_app, filter_cons, filter_nil, fmap_app.
  destruct (decide (e.1 = k)) as [<-|Hne].
  - rewrite lookup_insert. split; [exists e; split; [apply elem_of_app; right; by apply elem_of_list_singleton|done]|].
    rewrite dec_add_value, qsum_app. cbn. destruct (r !! e.1) as [v|]; cbn [default].
    + destruct IH as [_ ->]. ring.
    + replace (filter (λ e', e'.1 = e.1) l) with (@nil (K * dec)); [cbn; unfold dec_zero, dec_value; cbn; field|].
      symmetry. clear -IH. induction l as [|x l IHl]; [done|]. rewrite filter_cons, decide_False by (apply IH; by left).
      apply IHl. intros y Hy. apply IH. by right.
  - rewrite lookup_insert_ne by done. destruct (r !! k) as [v|].
    + destruct IH as [(e'&He&Hk) ->]. split; [exists e'; split; [apply elem_of_app; by left|done]|]. rewrite qsum_app. cbn. ring.
    + intros e' He'. apply elem_of_app in He' as [He'|He']; [by apply IH|]. apply elem_of_list_singleton in He' as ->. done.
Qed.

Lemma units_by_currency_fold ps :
  units_by_currency ps =
  fold_left (λ (r : gmap string dec) e, <[e.1 := dec_add e.2 (default dec_zero (r !! e.1))]> r)
    ((λ p, (pos_cur p, cn_dec (pos_units p))) <$> ps) ∅.
Proof.
  unfold units_by_currency. generalize (∅ : gmap string dec). induction ps as [|p ps IH]; intros r; [done|].
  cbn [fold_left fmap list_fmap fst snd]. rewrite IH. unfold num_add_dec. by rewrite dec_add_comm.
Qed.
Lemma units_by_currency_spec ps cur :
  match units_by_currency ps !! cur with
  | Some v => (∃ p, p ∈ ps ∧ pos_cur p = cur) ∧ (dec_value v == held cur ps)%Q
  | None => ∀ p, p ∈ ps → pos_cur p ≠ cur
  end.
Proof.
  rewrite units_by_currency_fold. pose proof (add_fold ((λ p, (pos_cur p, cn_dec (pos_units p))) <$> ps) cur) as H.
  cbn zeta in H. destruct (fold_left _ _ _ !! cur) as [v|].
  - destruct H as [(e&He&Hk) Hv]. apply elem_of_list_fmap in He as (p&->&Hp). split; [by exists p|].
    rewrite Hv. unfold held. clear. induction ps as [|p ps IH]; [done|]. cbn [fmap list_fmap]. rewrite !filter_cons. cbn [fst].
    destruct (decide (pos_cur p = cur)); cbn [fmap list_fmap qsum snd]; rewrite IH; done.
  - intros p Hp. apply (H (pos_cur p, cn_dec (pos_units p))). apply elem_of_list_fmap. by exists p.
Qed.
Lemma held_none cur ps : (∀ p, p ∈ ps → pos_cur p ≠ cur) → held cur ps = 0%Q.
Proof.
  intros H. unfold held. induction ps as [|p ps IH]; [done|]. rewrite filter_cons, decide_False by (apply H; by left).
  apply IH. intros q Hq. apply H. by right.
Qed.
Lemma units_of_value ps cur : (dec_value (units_of ps cur) == held cur ps)%Q.
Proof.
  unfold units_of. pose proof (units_by_currency_spec ps cur) as H. destruct (units_by_currency ps !! cur) as [v|]; cbn [default].
  - apply H.
  - by rewrite held_none.
Qed.
Lemma mant_zero (d : dec) : (dec_mant d =? 0)%Z = true ↔ (dec_value d == 0)%Q.
Proof. exact (cn_is_zero_value (CDec d)). Qed.

Lemma item_units_spec inv cur acc :
  match item_units inv cur !! acc with
  | Some u => is_Some (inv !! acc) ∧ (dec_value u == own inv cur acc)%Q ∧ ¬ (own inv cur acc == 0)%Q
  | None => (own inv cur acc == 0)%Q
  end.
Proof.
  unfold item_units. rewrite lookup_omap. unfold own, holding. destruct (inv !! acc) as [ps|]; cbn -[dec_value held Qeq]; [|reflexivity].
  pose proof (units_of_value ps cur) as Hu. pose proof (mant_zero (units_of ps cur)) as Hz.
  destruct (dec_mant (units_of ps cur) =? 0)%Z.
  - rewrite <- Hu. by apply Hz.
  - split; [by eexists|]. split; [done|]. rewrite <- Hu. intros H. apply Hz in H. done.
Qed.

(** ** Sums over accounts *)

Lemma qsum_zero {A} (f : A → Q) l : (∀ x, x ∈ l → (f x == 0)%Q) → (qsum (f <$> l) == 0)%Q.
Proof.
  induction l as [|x l IH]; intros H; [done|]. cbn. rewrite (H x) by by left. rewrite IH; [ring|]. intros y Hy. apply H. by right.
Qed.
Lemma qsum_ext {A} (f g : A → Q) l : (∀ x, x ∈ l → (f x == g x)%Q) → (qsum (f <$> l) == qsum (g <$> l))%Q.
Proof.
  induction l as [|x l IH]; intros H; [done|]. cbn. rewrite (H x) by by left. rewrite IH; [done|]. intros y Hy. apply H. by right.
Qed.
Lemma qsum_filter {A} (f : A → Q) (P : A → Prop) `{!∀ x, Decision (P x)} l :
  (qsum (f <$> l) == qsum (f <$> filter P l) + qsum (f <$> filter (λ x, ¬ P x) l))%Q.
Proof.
  induction l as [|x l IH]; [cbn; ring|]. rewrite !filter_cons. destruct (decide (P x)), (decide (¬ P x)); try done; cbn; rewrite IH; ring.
Qed.
(** Lists which differ in accounts of no consequence have the same sum. *)
Lemma qsum_same (f : string → Q) K K' :
  NoDup K → NoDup K' →
  (∀ x, x ∈ K → x ∉ K' → (f x == 0)%Q) → (∀ x, x ∈ K' → x ∉ K → (f x == 0)%Q) →
  (qsum (f <$> K) == qsum (f <$> K'))%Q.
Proof.
  intros H1 H2 H3 H4. rewrite (qsum_filter f (λ x, x ∈ K') K), (qsum_filter f (λ x, x ∈ K) K').
  rewrite (qsum_zero f (filter (λ x, x ∉ K') K)), (qsum_zero f (filter (λ x, x ∉ K) K')).
  - rewrite (qsum_perm (f <$> filter (λ x, x ∈ K') K) (f <$> filter (λ x, x ∈ K) K')); [done|].
    apply fmap_Permutation. apply NoDup_Permutation; [by apply NoDup_filter..|]. intros x. rewrite !elem_of_list_filter. tauto.
  - intros x Hx. apply elem_of_list_filter in Hx as [? ?]. by apply H4.
  - intros x Hx. apply elem_of_list_filter in Hx as [? ?]. by apply H3.
Qed.
Lemma qsum_bind {A} (f : A → list (string * dec)) (l : list A) k :
  (qsum ((λ e : string * dec, dec_value e.2) <$> filter (λ e, e.1 = k) (x ← l; f x)) ==
   qsum ((λ x, qsum ((λ e : string * dec, dec_value e.2) <$> filter (λ e, e.1 = k) (f x))) <$> l))%Q.
Proof.
  induction l as [|x l IH]; [done|]. cbn [mbind list_bind fmap list_fmap qsum]. rewrite filter_app, fmap_app, qsum_app.
  rewrite <- IH. done.
Qed.
Lemma qsum_one (a : string) (u : dec) l : NoDup l →
  (qsum ((λ e : string * dec, dec_value e.2) <$> filter (λ e, e.1 = a) ((λ x, (x, u)) <$> l)) ==
   if decide (a ∈ l) then dec_value u else 0)%Q.
Proof.
  induction 1 as [|x l Hx _ IH]; [done|]. cbn [fmap list_fmap]. rewrite filter_cons. cbn [fst].
  destruct (decide (x = a)) as [->|Hne].
  - cbn [fmap list_fmap qsum snd]. rewrite IH. rewrite decide_False by done. rewrite decide_True by by left. ring.
  - rewrite IH. destruct (decide (a ∈ l)) as [H|H]; [rewrite decide_True by (by right); done|].
    destruct (decide (a ∈ x :: l)) as [H'|H']; [|done]. apply elem_of_cons in H' as [->|?]; done.
Qed.

(** ** The roll-up *)

Section Rollup.
Context (ho : list (string * dec) → list (string * dec)) (Hho : ∀ l, ho l ≡ₚ l).
Context (inv : gmap string (list position)) (cur : string) (Hwn : well_named inv).
Notation items := (item_units inv cur).
Notation totals := (total_units ho items).

Lemma item_well_named e : e ∈ map_to_list items → account_and_ancestors e.1 = above e.1.
Proof using Hwn.
  intros He. destruct e as [a u]. apply elem_of_map_to_list in He. pose proof (item_units_spec inv cur a) as H. rewrite He in H.
  destruct H as [H _]. apply ancestors_above. by apply Hwn.
Qed.
Lemma ho_in e : e ∈ ho (map_to_list items) ↔ items !! e.1 = Some e.2.
Proof using Hho. rewrite (Hho _). destruct e. apply elem_of_map_to_list. Qed.

Lemma NoDup_fst_filter {A} (P : string * A → Prop) `{!∀ x, Decision (P x)} (m : gmap string A) :
  NoDup ((λ e : string * A, e.1) <$> filter P (map_to_list m)).
Proof.
  pose proof (NoDup_fst_map_to_list m) as Hnd. revert Hnd. induction (map_to_list m) as [|e l IH]; [done|].
  cbn [fmap list_fmap]. rewrite NoDup_cons. intros [H1 H2]. rewrite filter_cons. destruct (decide (P e)); [|by apply IH].
  cbn [fmap list_fmap]. apply NoDup_cons. split; [|by apply IH]. intros Hin. apply H1.
  apply elem_of_list_fmap in Hin as (x&E&Hx). apply elem_of_list_filter in Hx as [_ Hx]. apply elem_of_list_fmap. by exists x.
Qed.
Lemma together_any acc K :
  NoDup K → (∀ x, x ∈ K → under acc x) → (∀ x, under acc x → ¬ (own inv cur x == 0)%Q → x ∈ K) →
  (together inv cur acc == qsum (own inv cur <$> K))%Q.
Proof.
  intros Hnd H1 H2. unfold together.
  set (K0 := (λ e : string * list position, e.1) <$> filter (λ e, is_under acc e.1 = true) (map_to_list inv)).
  assert (qsum ((λ e : string * list position, held cur e.2) <$> filter (λ e, is_under acc e.1 = true) (map_to_list inv)) ==
          qsum (own inv cur <$> K0))%Q as ->.
  { unfold K0. rewrite <- list_fmap_compose. apply qsum_ext. intros [a l] H. apply elem_of_list_filter in H as [_ H].
    apply elem_of_map_to_list in H. cbn. unfold own, holding. by rewrite H. }
  assert (∀ x, x ∈ K0 ↔ is_under acc x = true ∧ is_Some (inv !! x)) as HK.
  { intros x. unfold K0. rewrite elem_of_list_fmap. split.
    - intros ([a l]&->&H). apply elem_of_list_filter in H as [Hu H]. apply elem_of_map_to_list in H. split; [done|]. cbn. by rewrite H.
    - intros [Hu [l Hl]]. exists (x, l). split; [done|]. apply elem_of_list_filter. split; [done|]. by apply elem_of_map_to_list. }
  apply qsum_same; [apply NoDup_fst_filter|done| |].
  - intros x Hx Hx'. apply HK in Hx as [Hu _]. destruct (Qeq_dec (own inv cur x) 0) as [E|E]; [done|].
    destruct Hx'. apply H2; [by apply is_under_spec|done].
  - intros x Hx Hx'. destruct (inv !! x) as [l|] eqn:E; [|unfold own, holding; by rewrite E].
    destruct Hx'. apply HK. split; [by apply is_under_spec, H1|by eexists].
Qed.
Lemma together_items acc :
  (together inv cur acc == qsum ((λ e : string * dec, dec_value e.2) <$> filter (λ e, is_under acc e.1 = true) (map_to_list items)))%Q.
Proof.
  set (K' := (λ e : string * dec, e.1) <$> filter (λ e, is_under acc e.1 = true) (map_to_list items)).
  assert (∀ x, x ∈ K' ↔ is_under acc x = true ∧ is_Some (items !! x)) as HK'.
  { intros x. unfold K'. rewrite elem_of_list_fmap. split.
    - intros ([a l]&->&H). apply elem_of_list_filter in H as [H1 H2]. apply elem_of_map_to_list in H2. split; [done|]. cbn. by rewrite H2.
    - intros [H1 [l Hl]]. exists (x, l). split; [done|]. apply elem_of_list_filter. split; [done|]. by apply elem_of_map_to_list. }
  assert (qsum ((λ e : string * dec, dec_value e.2) <$> filter (λ e, is_under acc e.1 = true) (map_to_list items)) ==
          qsum (own inv cur <$> K'))%Q as ->.
  { unfold K'. rewrite <- list_fmap_compose. apply qsum_ext. intros [a u] H. apply elem_of_list_filter in H as [_ H].
    apply elem_of_map_to_list in H. cbn -[dec_value Qeq]. pose proof (item_units_spec inv cur a) as Hs. rewrite H in Hs. apply Hs. }
  apply together_any.
  - unfold K'. apply NoDup_fst_filter.
  - intros x Hx. apply HK' in Hx as [Hx _]. by apply is_under_spec.
  - intros x Hu Hx. apply HK'. split; [by apply is_under_spec|]. pose proof (item_units_spec inv cur x) as Hs.
    destruct (items !! x); [by eexists|done].
Qed.

Lemma totals_spec acc :
  match totals !! acc with
  | Some u => (∃ a, is_Some (items !! a) ∧ under acc a) ∧ (dec_value u == together inv cur acc)%Q
  | None => ∀ a, is_Some (items !! a) → ¬ under acc a
  end.
Proof using Hho Hwn.
  unfold total_units. set (L := e ← _; _). pose proof (add_fold L acc) as H. cbn zeta in H.
  destruct (fold_left _ L ∅ !! acc) as [u|].
  - destruct H as [(e&He&Hk) Hv]. split.
    + unfold L in He. apply elem_of_list_bind in He as (x&He&Hx). rewrite (Hho _) in Hx.
      rewrite (item_well_named x Hx) in He. apply elem_of_list_fmap in He as (b&->&Hb). cbn in Hk. subst b.
      apply above_spec in Hb. destruct x as [a u']. apply elem_of_map_to_list in Hx. exists a. split; [by eexists|done].
    + rewrite Hv, together_items. unfold L. rewrite qsum_bind.
      rewrite (qsum_perm _ _ (fmap_Permutation _ _ _ (Hho (map_to_list items)))).
      rewrite (qsum_filter _ (λ e : string * dec, is_under acc e.1 = true) (map_to_list items)).
      rewrite (qsum_zero _ (filter (λ e : string * dec, ¬ is_under acc e.1 = true) _)).
      * rewrite Qplus_0_r. apply qsum_ext. intros x Hx. apply elem_of_list_filter in Hx as [Hu Hx].
        rewrite (item_well_named x Hx), qsum_one by apply above_nodup. rewrite decide_True; [done|]. by apply above_spec, is_under_spec.
      * intros x Hx. apply elem_of_list_filter in Hx as [Hu Hx].
        rewrite (item_well_named x Hx), qsum_one by apply above_nodup.
        destruct (decide (acc ∈ above x.1)) as [Hin|]; [|done]. destruct Hu. by apply is_under_spec, above_spec.
  - intros a [u Hu] Hun. apply (H (acc, u)); [|done]. unfold L. apply elem_of_list_bind. exists (a, u).
    assert ((a, u) ∈ map_to_list items) as Hin by by apply elem_of_map_to_list.
    split; [|by rewrite (Hho _)]. rewrite (item_well_named _ Hin). cbn. apply elem_of_list_fmap. exists acc. split; [done|]. by apply above_spec.
Qed.

Lemma insert_fold {A} (f : string → A) l (acc : string) :
  fold_left (λ (r : gmap string A) a, <[a := f a]> r) l ∅ !! acc = if decide (acc ∈ l) then Some (f acc) else None.
Proof.
  induction l as [|x l IH] using rev_ind; [by rewrite decide_False by apply not_elem_of_nil|].
  rewrite fold_left_app. cbn [fold_left]. destruct (decide (x = acc)) as [->|Hne].
  - rewrite lookup_insert, decide_True; [done|]. apply elem_of_app. right. by apply elem_of_list_singleton.
  - rewrite lookup_insert_ne, IH by done. destruct (decide (acc ∈ l)) as [H|H].
    + rewrite decide_True; [done|]. apply elem_of_app. by left.
    + rewrite decide_False; [done|]. rewrite elem_of_app, elem_of_list_singleton. intros [?|?]; congruence.
Qed.
Lemma max_depth_spec :
  (∀ a, is_Some (items !! a) → colons a ≤ max_depth ho items) ∧
  ((∀ a, items !! a = None) ∧ max_depth ho items = 0 ∨ ∃ a, is_Some (items !! a) ∧ max_depth ho items = colons a).
Proof using Hho.
  unfold max_depth. set (l := _ <$> _).
  assert (∀ n, n ∈ l ↔ ∃ a, is_Some (items !! a) ∧ n = colons a) as Hl.
  { intros n. unfold l. rewrite elem_of_list_fmap. split.
    - intros (e&->&He). apply ho_in in He. exists e.1. rewrite He. split; [by eexists|apply depth_colons].
    - intros (a&[u Hu]&->). exists (a, u). split; [by rewrite depth_colons|]. by apply ho_in. }
  assert (∀ l n, (∀ x, x ∈ l → x ≤ fold_left Nat.max l n) ∧ n ≤ fold_left Nat.max l n ∧ (fold_left Nat.max l n = n ∨ fold_left Nat.max l n ∈ l)) as Hm.
  { clear. induction l as [|y l IH]; intros n; cbn [fold_left].
    - split_and!; [intros x Hx; by apply elem_of_nil in Hx|lia|by left].
    - destruct (IH (Nat.max n y)) as (H1&H2&H3). split_and!.
      + intros x Hx. apply elem_of_cons in Hx as [->|Hx]; [lia|by apply H1].
      + lia.
      + destruct H3 as [H3|H3]; [|right; by right]. destruct (Nat.max_spec n y) as [[? E]|[? E]]; rewrite E in H3 |- *; [right; rewrite H3; by left|by left]. }
  destruct (Hm l 0) as (H1&H2&H3). split.
  - intros a Ha. apply H1, Hl. eauto.
  - destruct l as [|y l'] eqn:El.
    + left. split; [|done]. intros a. destruct (items !! a) as [u|] eqn:E; [|done]. exfalso.
      assert (colons a ∈ @nil nat) as Hx by (apply Hl; exists a; split; [by rewrite E|done]). by apply elem_of_nil in Hx.
    + right. destruct H3 as [H3|H3]; [|by apply Hl].
      rewrite H3. assert (y ∈ y :: l') as Hy by by left. pose proof (H1 y Hy) as Hy'. rewrite H3 in Hy'.
      apply Hl in Hy as (a&Ha&E). exists a. split; [done|lia].
Qed.

Lemma rollup_lookup acc :
  rollup_build ho inv cur !! acc =
  match totals !! acc with
  | Some u => Some (Entry ((λ u, (u, max_depth ho items)) <$> items !! acc)
                (if same_units (items !! acc) (Some u) then None else Some (u, account_depth acc)))
  | None => None
  end.
Proof using Hho Hwn.
  unfold rollup_build. cbn zeta. rewrite (insert_fold (λ acc, Entry _ _)).
  assert (acc ∈ ((λ e : string * dec, e.1) <$> ho (map_to_list items)) ++ ((λ e : string * dec, e.1) <$> ho (map_to_list totals)) ↔ is_Some (totals !! acc)) as Hin.
  { rewrite elem_of_app, !elem_of_list_fmap. split.
    - intros [(e&->&He)|(e&->&He)].
      + apply ho_in in He. pose proof (totals_spec e.1) as Ht. destruct (totals !! e.1); [by eexists|].
        destruct (Ht e.1); [by rewrite He|apply under_refl].
      + rewrite (Hho _) in He. destruct e. apply elem_of_map_to_list in He. by eexists.
    - intros [u Hu]. right. exists (acc, u). split; [done|]. rewrite (Hho _). by apply elem_of_map_to_list. }
  destruct (totals !! acc) as [u|] eqn:E.
  - rewrite decide_True by (apply Hin; by eexists). done.
  - rewrite decide_False by (intros H; apply Hin in H as [? ?]; done). done.
Qed.

(** An account without holdings below it needs no total. *)
Lemma same_total acc : (∀ a, under acc a → ¬ (own inv cur a == 0)%Q → a = acc) → (together inv cur acc == own inv cur acc)%Q.
Proof.
  intros H. rewrite (together_any acc [acc]).
  - cbn. ring.
  - apply NoDup_singleton.
  - intros x Hx. apply elem_of_list_singleton in Hx as ->. apply under_refl.
  - intros x Hx Hz. apply elem_of_list_singleton. by apply H.
Qed.
Lemma items_own a : is_Some (items !! a) ↔ ¬ (own inv cur a == 0)%Q.
Proof.
  pose proof (item_units_spec inv cur a) as H. destruct (items !! a).
  - split; [intros _; apply H|by eexists].
  - split; [by intros [? ?]|done].
Qed.
Lemma same_units_spec a u :
  totals !! a = Some u →
  if same_units (items !! a) (Some u) then (¬ own inv cur a == 0 ∧ together inv cur a == own inv cur a)%Q
  else (own inv cur a == 0 ∨ ¬ together inv cur a == own inv cur a)%Q.
Proof using Hho Hwn.
  intros Hu. pose proof (totals_spec a) as Ht. rewrite Hu in Ht. destruct Ht as [_ Ht].
  pose proof (item_units_spec inv cur a) as Hi. destruct (items !! a) as [v|]; cbn [same_units].
  - destruct Hi as (_&Hv&Hz). rewrite dec_compare_value.
    destruct (Qcompare_spec (dec_value v) (dec_value u)) as [E|E|E]; rewrite Hv, Ht in E.
    + split; [done|]. by rewrite E.
    + right. intros E'. rewrite E' in E. by apply Qlt_irrefl in E.
    + right. intros E'. rewrite E' in E. by apply Qlt_irrefl in E.
  - by left.
Qed.
Lemma total_column a u :
  totals !! a = Some u → same_units (items !! a) (Some u) = false →
  colons a < max_depth ho items ∨ (∃ b, under a b ∧ ¬ (own inv cur b == 0)%Q ∧ b ≠ a).
Proof using Hho Hwn.
  intros Hu Hs. pose proof (totals_spec a) as Ht. rewrite Hu in Ht. destruct Ht as [(b&Hb&Hub) Ht].
  destruct (decide (b = a)) as [->|Hne]; [|right; exists b; split; [done|]; split; [by apply items_own|done]].
  pose proof (same_units_spec a u Hu) as H. rewrite Hs in H. apply items_own in Hb. destruct H as [H|H]; [done|]. left.
  assert (¬ ∀ x, x ∈ map_to_list items → under a x.1 → x.1 = a) as Hn.
  { intros Hall. apply H, same_total. intros x Hx Hz. apply items_own in Hz as [v Hv]. apply (Hall (x, v)); [by apply elem_of_map_to_list|done]. }
  assert (∃ x, x ∈ map_to_list items ∧ is_under a x.1 = true ∧ x.1 ≠ a) as (x&Hx&Hxu&Hxa).
  { destruct (decide (Exists (λ x : string * dec, is_under a x.1 = true ∧ x.1 ≠ a) (map_to_list items))) as [He|He].
    - apply Exists_exists in He as (x&?&?&?). eauto.
    - exfalso. apply Hn. intros x Hx Hxu. destruct (decide (x.1 = a)); [done|]. destruct He. apply Exists_exists. exists x.
      split; [done|]. split; [by apply is_under_spec|done]. }
  destruct x as [x v]. apply elem_of_map_to_list in Hx. apply is_under_spec in Hxu. cbn in *.
  pose proof (under_colons a x Hxu (not_eq_sym Hxa)). destruct max_depth_spec as [Hd _]. specialize (Hd x). rewrite Hx in Hd. specialize (Hd ltac:(by eexists)). lia.
Qed.
End Rollup.

(** ** Roll-ups of ledgers *)

Lemma qsum_if (a : string) (v : Q) K : NoDup K → (qsum ((λ x, if decide (a = x) then v else 0) <$> K) == if decide (a ∈ K) then v else 0)%Q.
Proof.
  induction 1 as [|x K Hx _ IH]; [done|]. cbn [fmap list_fmap qsum]. rewrite IH. destruct (decide (a = x)) as [->|Hne].
  - rewrite decide_False by done. rewrite decide_True by (by left). ring.
  - destruct (decide (a ∈ K)), (decide (a ∈ x :: K)) as [Hin|Hin]; try ring.
    + destruct Hin. by right.
    + apply elem_of_cons in Hin as [?|?]; done.
Qed.
Lemma qsum_plus {A} (f g : A → Q) l : (qsum ((λ x, f x + g x) <$> l) == qsum (f <$> l) + qsum (g <$> l))%Q.
Proof. induction l as [|x l IH]; [cbn; ring|]. cbn [fmap list_fmap qsum]. rewrite IH. ring. Qed.
Lemma posted_sum cur ps K : NoDup K →
  (qsum ((λ a, posted a cur ps) <$> K) == qsum ((λ p, cn_value (cp_units p)) <$> filter (λ p, cp_acc p ∈ K ∧ cp_cur p = cur) ps))%Q.
Proof.
  intros HK. induction ps as [|p ps IH]; [apply qsum_zero; done|].
  rewrite (qsum_ext _ (λ a, (if decide (cp_acc p = a) then (if decide (cp_cur p = cur) then cn_value (cp_units p) else 0) else 0) + posted a cur ps)%Q).
  - rewrite qsum_plus, IH, qsum_if by done. rewrite filter_cons.
    destruct (decide (cp_acc p ∈ K ∧ cp_cur p = cur)) as [[H1 H2]|H].
    + rewrite !decide_True by done. cbn. done.
    + destruct (decide (cp_acc p ∈ K)); [|ring]. rewrite decide_False by tauto. ring.
  - intros a _. unfold posted. rewrite filter_cons. destruct (decide (cp_acc p = a ∧ cp_cur p = cur)) as [[H1 H2]|H].
    + rewrite !decide_True by done. cbn. done.
    + destruct (decide (cp_acc p = a)); [|ring]. rewrite decide_False by tauto. ring.
Qed.
Lemma list_filter_iff' {A} (P Q : A → Prop) `{!∀ x, Decision (P x), !∀ x, Decision (Q x)} (l : list A) :
  (∀ x, x ∈ l → (P x ↔ Q x)) → filter P l = filter Q l.
Proof.
  induction l as [|x l IH]; intros Hx; [done|]. rewrite !filter_cons, IH by (intros y Hy; apply Hx; by right).
  pose proof (Hx x ltac:(by left)). destruct (decide (P x)), (decide (Q x)); tauto.
Qed.
Lemma together_posted ho (Hho : ∀ l, ho l ≡ₚ l) booking ps inv acc cur :
  inventory_build ho ps booking = Some inv → (together inv cur acc == posted_under acc cur ps)%Q.
Proof.
  intros Hb. pose proof (held_is_posted ho Hho booking ps inv Hb) as Hp.
  set (K := remove_dups (cp_acc <$> filter (λ p, is_under acc (cp_acc p) = true) ps)).
  assert (∀ x, x ∈ K ↔ under acc x ∧ ∃ p, p ∈ ps ∧ cp_acc p = x) as HK.
  { intros x. unfold K. rewrite elem_of_remove_dups, elem_of_list_fmap. split.
    - intros (p&->&H). apply elem_of_list_filter in H as [H1 H2]. split; [by apply is_under_spec|eauto].
    - intros (H1&p&H2&<-). exists p. split; [done|]. apply elem_of_list_filter. split; [by apply is_under_spec|done]. }
  rewrite (together_any inv cur acc K).
  - rewrite (qsum_ext _ (λ a, posted a cur ps)) by (intros x _; apply Hp).
    rewrite posted_sum by apply NoDup_remove_dups. unfold posted_under.
    rewrite (list_filter_iff' (λ p, cp_acc p ∈ K ∧ cp_cur p = cur) (λ p, is_under acc (cp_acc p) = true ∧ cp_cur p = cur)); [done|].
    intros p Hin. rewrite HK, is_under_spec. split; [tauto|]. intros [? ?]. split_and!; eauto.
  - apply NoDup_remove_dups.
  - intros x Hx. apply HK in Hx. tauto.
  - intros x Hu Hz. apply HK. split; [done|]. unfold own in Hz. rewrite Hp in Hz. unfold posted in Hz.
    destruct (filter (λ p, cp_acc p = x ∧ cp_cur p = cur) ps) as [|p l] eqn:E; [done|].
    assert (p ∈ filter (λ p, cp_acc p = x ∧ cp_cur p = cur) ps) as Hin by (rewrite E; by left).
    apply elem_of_list_filter in Hin as [[? ?] ?]. eauto.
Qed.

(** ** The primary currency *)

Lemma currencies_of_spec ps cur : cur ∈ currencies_of ps ↔ Exists (λ p, pos_cur p = cur) ps.
Proof.
  unfold currencies_of. rewrite sort_strings_perm, elem_of_list_fmap, Exists_exists. split.
  - intros ([c v]&->&H). apply elem_of_map_to_list in H. pose proof (units_by_currency_spec ps c) as Hs. rewrite H in Hs.
    destruct Hs as [(p&?&?) _]. exists p. split; [by apply elem_of_list_In, elem_of_list_In|done].
  - intros (p&Hp&Hc). pose proof (units_by_currency_spec ps cur) as Hs. destruct (units_by_currency ps !! cur) as [v|] eqn:E.
    + exists (cur, v). split; [done|]. by apply elem_of_map_to_list.
    + destruct (Hs p); [|done]. done.
Qed.
Lemma currencies_of_nodup ps : NoDup (currencies_of ps).
Proof. unfold currencies_of. rewrite sort_strings_perm. apply NoDup_fst_map_to_list. Qed.

