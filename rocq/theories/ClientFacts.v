(** The registry, the filters and the reports of [limabean.clj]. *)
From Coq Require Import Ascii QArith Sorted.
From stdpp Require Import prelude gmap strings.
From Verif Require Import DecModel LedgerTypes IsoModel JsonModel WireModel WireSpec WireFacts IsoFacts ParserModel
  ServerModel OutputSpec OutputFacts CljModel InventoryModel InventorySpec OrderFacts InventoryMain InventoryTotal
  ClientModel ClientSpec ClientDecode.
Local Open Scope nat_scope.

(** ** Metadata *)

Lemma meta_decoded key m v : meta_date_valid m → exact_meta v m → meta_seen (decode key v) m.
Proof.
  destruct m; cbn -[fmt_date valid_date num_seen cn_of_dec]; intros Hv ->; cbn -[parse_date fmt_date cn_of_dec num_seen]; try done.
  - eexists. split; [done|]. apply cn_of_dec_seen.
  - unfold convert_map, vfield. cbn -[parse_date fmt_date]. by rewrite (parse_fmt_date _ Hv).
  - eexists. split; [done|]. apply cn_of_dec_seen.
Qed.
Lemma metadata_seen key j m k :
  exact_map exact_meta j m → k ≠ "dct" → k ≠ "booking" → (∀ v, m !! k = Some v → meta_date_valid v) →
  match m !! k with
  | Some v => ∃ x, vget k (decode key j) = Some x ∧ meta_seen x v
  | None => vget k (decode key j) = None
  end.
Proof.
  intros (fs&->&Hs) Hd Hb Hv. rewrite vget_decode. specialize (Hs k). specialize (Hv) as Hv'.
  unfold shown in Hs. destruct (m !! k) as [v|].
  - destruct Hs as (w&Hw&Hm). rewrite Hw. cbn. eexists. split; [reflexivity|].
    apply String.eqb_neq in Hd, Hb. unfold converted. rewrite Hd, Hb. cbn [orb].
    pose proof (meta_decoded (Some k) v w (Hv' v eq_refl) Hm) as H.
    destruct (String.eqb_spec k "date") as [->|]; [|done].
    destruct v; cbn in H; try (destruct H as (?&->&?); cbn; eauto; done); rewrite H; done.
  - by rewrite Hs.
Qed.

(** ** Registry *)

Lemma filter_snoc {A} (P : A → Prop) `{!∀ x, Decision (P x)} (l : list A) x :
  filter P (l ++ [x]) = filter P l ++ (if decide (P x) then [x] else []).
Proof. by rewrite filter_app, filter_cons. Qed.

Lemma registry_booking ds acc : registry_acc_booking ds !! acc = last (opened_with ds acc).
Proof.
  induction ds as [|d ds IH] using rev_ind; [done|].
  unfold registry_acc_booking, opened_with in *. rewrite fold_left_app, filter_snoc, omap_app. cbn [fold_left].
  destruct (String.eqb_spec (cd_dct d) "open") as [Ho|Ho].
  - destruct (cd_acc d) as [a|] eqn:Ea.
    + destruct (decide (a = acc)) as [->|Hne].
      * rewrite decide_True by done. cbn.
        destruct (cd_booking d); [|rewrite app_nil_r; exact IH]. rewrite lookup_insert, last_snoc. done.
      * rewrite decide_False by (intros [_ H]; congruence). cbn. rewrite app_nil_r.
        destruct (cd_booking d); [|exact IH]. rewrite lookup_insert_ne by done. exact IH.
    + rewrite decide_False by (intros [_ H]; congruence). cbn. rewrite app_nil_r.
      destruct (cd_booking d); exact IH.
  - rewrite decide_False by (intros [H _]; done). cbn. rewrite app_nil_r. exact IH.
Qed.

Definition count (c : string) (l : list string) : nat := length (filter (λ x, x = c) l).
Lemma freq_fold l c :
  fold_left (λ (m : gmap string nat) c, <[c := S (default 0 (m !! c))]> m) l ∅ !! c =
  if decide (count c l = 0) then None else Some (count c l).
Proof.
  induction l as [|x l IH] using rev_ind; [done|]. rewrite fold_left_app. cbn [fold_left].
  unfold count in *. rewrite filter_snoc, app_length. destruct (decide (x = c)) as [->|Hne].
  - rewrite lookup_insert, IH. cbn [length]. destruct (decide (length (filter (λ x, x = c) l) = 0)) as [E|E].
    + rewrite E. done.
    + cbn. rewrite decide_False by lia. f_equal. lia.
  - rewrite lookup_insert_ne by done. rewrite IH. cbn [length]. by rewrite Nat.add_0_r.
Qed.
Lemma posting_curs_all ds : posting_curs ds = cp_cur <$> all_postings ds.
Proof.
  unfold posting_curs, all_postings. induction (filter _ ds) as [|d l IH]; [done|].
  cbn. rewrite fmap_app. f_equal. exact IH.
Qed.
Lemma count_uses ds c : count c (posting_curs ds) = uses ds c.
Proof.
  rewrite posting_curs_all. unfold count, uses. induction (all_postings ds) as [|p l IH]; [done|].
  cbn [fmap list_fmap]. rewrite !filter_cons. destruct (decide (cp_cur p = c)); cbn; by rewrite IH.
Qed.
Lemma registry_freq ds c : registry_cur_freq ds !! c = if decide (uses ds c = 0) then None else Some (uses ds c).
Proof. unfold registry_cur_freq. rewrite freq_fold, count_uses. done. Qed.

Lemma good_desc : good_cmp nat_compare_desc.
Proof.
  split; intros; unfold nat_compare_desc in *.
  - apply Nat.compare_antisym.
  - rewrite Nat.compare_le_iff in *. lia.
Qed.
Lemma StronglySorted_fmap {A B} (f : A → B) (R : B → B → Prop) (l : list A) :
  StronglySorted (λ x y, R (f x) (f y)) l → StronglySorted R (f <$> l).
Proof.
  induction 1 as [|x l H IH Hf]; [constructor|]. cbn. constructor; [exact IH|].
  apply List.Forall_map. exact Hf.
Qed.
Lemma StronglySorted_impl {A} (R S : A → A → Prop) (l : list A) :
  (∀ x y, x ∈ l → y ∈ l → R x y → S x y) → StronglySorted R l → StronglySorted S l.
Proof.
  intros HRS. induction 1 as [|x l H IH Hf]; [constructor|]. constructor.
  - apply IH. intros; apply HRS; by try right.
  - apply Forall_forall. intros y Hy. rewrite Forall_forall in Hf. apply HRS; [by left|by right|by apply Hf].
Qed.

Section Reg.
Context (ho : list (string * nat) → list (string * nat)) (Hho : ∀ l, ho l ≡ₚ l).
Lemma registry_curs_perm ds :
  sort_by nat_compare_desc (ho (map_to_list (registry_cur_freq ds))) ≡ₚ map_to_list (registry_cur_freq ds).
Proof using Hho. by rewrite sort_by_perm, Hho. Qed.
Lemma registry_curs_nodup ds : NoDup (registry_curs ho ds).
Proof using Hho. unfold registry_curs. rewrite registry_curs_perm. apply NoDup_fst_map_to_list. Qed.
Lemma registry_curs_in ds c : c ∈ registry_curs ho ds ↔ ∃ p, p ∈ all_postings ds ∧ cp_cur p = c.
Proof using Hho.
  unfold registry_curs. rewrite registry_curs_perm, elem_of_list_fmap.
  transitivity (uses ds c ≠ 0).
  - split.
    + intros ([c' n]&->&H). apply elem_of_map_to_list in H. cbn in *. rewrite registry_freq in H.
      destruct (decide _); [done|]. done.
    + intros H. exists (c, uses ds c). split; [done|]. apply elem_of_map_to_list. rewrite registry_freq.
      by rewrite decide_False.
  - unfold uses. split.
    + intros H. destruct (filter (λ p, cp_cur p = c) (all_postings ds)) as [|p l] eqn:E; [done|].
      exists p. assert (p ∈ p :: l) as Hp by by left. rewrite <- E in Hp. apply elem_of_list_filter in Hp. tauto.
    + intros (p&Hp&Hc) H. apply nil_length_inv in H.
      assert (p ∈ filter (λ p, cp_cur p = c) (all_postings ds)) as Hin by by apply elem_of_list_filter.
      rewrite H in Hin. inversion Hin.
Qed.
Lemma registry_curs_sorted ds : StronglySorted (λ a b, uses ds b <= uses ds a) (registry_curs ho ds).
Proof using Hho.
  unfold registry_curs. apply StronglySorted_fmap.
  eapply StronglySorted_impl; [|apply (sort_by_sorted nat_compare_desc good_desc)].
  intros [a n] [b m] Ha Hb. cbn.
  rewrite registry_curs_perm in Ha, Hb. apply elem_of_map_to_list in Ha, Hb. rewrite registry_freq in Ha, Hb.
  destruct (decide _) in Ha; [done|]. destruct (decide _) in Hb; [done|].
  injection Ha as <-. injection Hb as <-. unfold nat_compare_desc. cbn. rewrite Nat.compare_le_iff. done.
Qed.
End Reg.

(** ** Filters *)

Lemma on_date_true test d x : on_date test d x = true ↔ ∃ dx, it_date x = Some dx ∧ test (date_compare dx d) = true.
Proof. unfold on_date. destruct (it_date x); naive_solver. Qed.
Lemma date_compare_gt a b : date_compare a b = Gt ↔ earlier b a.
Proof. rewrite <- date_compare_lt. rewrite (gc_sym _ good_date a b). by destruct (date_compare a b). Qed.
Lemma date_lt_spec d x : date_lt d x = true ↔ ∃ dx, it_date x = Some dx ∧ earlier dx d.
Proof.
  unfold date_lt. rewrite on_date_true. split; intros (dx&H1&H2); exists dx; (split; [done|]).
  - apply date_compare_lt. by destruct (date_compare dx d).
  - apply date_compare_lt in H2. by rewrite H2.
Qed.
Lemma date_gt_spec d x : date_gt d x = true ↔ ∃ dx, it_date x = Some dx ∧ earlier d dx.
Proof.
  unfold date_gt. rewrite on_date_true. split; intros (dx&H1&H2); exists dx; (split; [done|]).
  - apply date_compare_gt. by destruct (date_compare dx d).
  - apply date_compare_gt in H2. by rewrite H2.
Qed.
Lemma date_le_spec d x : date_le d x = true ↔ ∃ dx, it_date x = Some dx ∧ (earlier dx d ∨ dx = d).
Proof.
  unfold date_le. rewrite on_date_true. split; intros (dx&H1&H2); exists dx; (split; [done|]).
  - destruct (date_compare dx d) eqn:E; [right; by apply date_compare_eq|left; by apply date_compare_lt|done].
  - destruct H2 as [H2| ->]; [apply date_compare_lt in H2; by rewrite H2|by rewrite (gc_refl _ good_date)].
Qed.
Lemma date_ge_spec d x : date_ge d x = true ↔ ∃ dx, it_date x = Some dx ∧ (earlier d dx ∨ dx = d).
Proof.
  unfold date_ge. rewrite on_date_true. split; intros (dx&H1&H2); exists dx; (split; [done|]).
  - destruct (date_compare dx d) eqn:E; [right; by apply date_compare_eq|done|left; by apply date_compare_gt].
  - destruct H2 as [H2| ->]; [apply date_compare_gt in H2; by rewrite H2|by rewrite (gc_refl _ good_date)].
Qed.
Lemma date_between_spec b e x :
  date_between b e x = true ↔ ∃ dx, it_date x = Some dx ∧ (earlier b dx ∨ dx = b) ∧ earlier dx e.
Proof.
  unfold date_between. rewrite andb_true_iff, date_ge_spec, date_lt_spec. split.
  - intros [(d1&H1&H2) (d2&H3&H4)]. rewrite H1 in H3. injection H3 as ->. eauto.
  - intros (d1&H1&H2&H3). split; exists d1; auto.
Qed.
Lemma date_ge_not_lt d x dx : it_date x = Some dx → date_ge d x = negb (date_lt d x).
Proof. intros H. unfold date_ge, date_lt, on_date. rewrite H. by destruct (date_compare dx d). Qed.
Lemma date_gt_not_le d x dx : it_date x = Some dx → date_gt d x = negb (date_le d x).
Proof. intros H. unfold date_gt, date_le, on_date. rewrite H. by destruct (date_compare dx d). Qed.

(** ** Accounts *)

Lemma prefix_spec p s : String.prefix p s = true ↔ ∃ r, s = p +:+ r.
Proof.
  revert s. induction p as [|c p IH]; intros s; cbn.
  - split; [intros _; by exists s|by destruct s].
  - destruct s as [|c' s]; [split; [done|intros [r H]; discriminate]|].
    change (String.prefix (String c p) (String c' s)) with (if ascii_dec c c' then String.prefix p s else false).
    destruct (ascii_dec c c') as [->|Hne].
    + etransitivity; [apply IH|]. split; intros [r H]; exists r; [by rewrite H|]. change (String c' s = String c' (p +:+ r)) in H. congruence.
    + split; [done|]. intros [r H]. change (String c' s = String c (p +:+ r)) in H. congruence.
Qed.
Lemma append_assoc' (a b c : string) : (a +:+ b) +:+ c = a +:+ (b +:+ c).
Proof. induction a as [|x a IH]; [done|]. change (String x ((a +:+ b) +:+ c) = String x (a +:+ (b +:+ c))). by rewrite IH. Qed.
Lemma under_prefix base name : String.eqb name base || String.prefix (base +:+ ":") name = true ↔ under base name.
Proof.
  unfold under. rewrite orb_true_iff, String.eqb_eq, prefix_spec. setoid_rewrite append_assoc'. done.
Qed.
Lemma f_sub_acc_spec ts x :
  f_sub_acc (Some <$> ts) x = true ↔ ∃ a, it_acc x = Some a ∧ ∃ t, t ∈ ts ∧ under t a.
Proof.
  unfold f_sub_acc. destruct (it_acc x) as [a|]; [|naive_solver].
  rewrite existsb_exists. split.
  - intros (t&Ht&H). apply elem_of_list_In, elem_of_list_fmap in Ht as (t'&->&Ht).
    exists a. split; [done|]. exists t'. split; [done|by apply under_prefix].
  - intros (a'&[= <-]&t&Ht&H). exists (Some t). split; [|by apply under_prefix].
    apply elem_of_list_In, elem_of_list_fmap. eauto.
Qed.

(** Names without a colon: at most one is above an account. *)
Lemma append_colon_inj a b r s :
  has_colon a = false → has_colon b = false → a +:+ ":" +:+ r = b +:+ ":" +:+ s → a = b.
Proof.
  revert b. induction a as [|c a IH]; intros [|c' b] Ha Hb H; [done| | |].
  - change (String ":" r = String c' (b +:+ ":" +:+ s)) in H. injection H as <- _. cbn in Hb. discriminate.
  - change (String c (a +:+ ":" +:+ r) = String ":" s) in H. injection H as -> _. cbn in Ha. discriminate.
  - change (String c (a +:+ ":" +:+ r) = String c' (b +:+ ":" +:+ s)) in H. injection H as -> H. f_equal.
    cbn [has_colon] in Ha, Hb. destruct (String.eqb _ _); [done|]. by apply IH.
Qed.
Lemma has_colon_app a r : has_colon (a +:+ ":" +:+ r) = true.
Proof.
  induction a as [|c a IH]; [done|]. change (has_colon (String c (a +:+ ":" +:+ r)) = true). cbn [has_colon].
  by destruct (String.eqb _ _).
Qed.
Lemma under_unique a b name : has_colon a = false → has_colon b = false → under a name → under b name → a = b.
Proof.
  intros Ha Hb [Hn|[r Hn]] [Hm|[s Hm]]; rewrite Hn in Hm.
  - done.
  - rewrite Hm, has_colon_app in Ha. done.
  - rewrite <- Hm, has_colon_app in Hb. done.
  - eauto using append_colon_inj.
Qed.
