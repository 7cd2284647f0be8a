(** Lemmas for [AutoProps.v]. *)
From Coq Require Import Ascii QArith Sorted.
From stdpp Require Import prelude gmap strings.
From Verif Require Import DecModel LedgerTypes IsoModel JsonModel WireModel CljModel InventoryModel InventorySpec OrderFacts ClientModel FormatModel
  PluginModel PluginSpec AutoModel AutoSpec.
Local Open Scope nat_scope.

Lemma is_open_true d : is_open d = true ↔ vget "dct" d = Some (VKw "open").
Proof. unfold is_open. split; [|by intros ->]. by repeat case_match. Qed.
Lemma is_txn_true d : is_txn d = true ↔ vget "dct" d = Some (VKw "txn").
Proof. unfold is_txn. split; [|by intros ->]. by repeat case_match. Qed.
Lemma vpostings_elem d p : p ∈ vpostings d ↔ ∃ ps, vget "postings" d = Some (VVec ps) ∧ p ∈ ps.
Proof.
  unfold vpostings. split.
  - case_match eqn:E; [|by intros ?%elem_of_nil]. case_match; try (by intros ?%elem_of_nil). intros. eauto.
  - by intros (ps & -> & ?).
Qed.

(** ** The accounts of a transaction *)
Lemma acc_key_named ps :
  (∀ p, p ∈ ps → ∃ a, vget "acc" p = Some (VStr a)) →
  ∃ accs : list string, mapM acc_key ps = Some (Some <$> accs) ∧
    ∀ a, a ∈ accs ↔ ∃ p, p ∈ ps ∧ vget "acc" p = Some (VStr a).
Proof.
  induction ps as [|p ps IH]; intros H.
  - exists []. split; [done|]. intros a. rewrite elem_of_nil. split; [done|]. by intros (?&?%elem_of_nil&_).
  - destruct IH as (accs & E & Hin); [intros; apply H; by constructor|].
    destruct (H p) as [a Ha]; [by constructor|].
    exists (a :: accs). split.
    + assert (acc_key p = Some (Some a)) as Hk by (unfold acc_key; by rewrite Ha).
      cbn [mapM]. rewrite Hk. cbn [mbind option_bind]. by rewrite E.
    + intros b. rewrite elem_of_cons, Hin. split.
      * intros [->|(q & Hq & Hb)]; [exists p|exists q]; split; auto using elem_of_list_here, elem_of_list_further.
      * intros (q & Hq & Hb). apply elem_of_cons in Hq as [->|Hq]; [left; congruence|right; eauto].
Qed.
Lemma txn_accs_named d :
  accounts_named d → is_txn d = true →
  ∃ accs : list string, txn_accs d = Some (list_to_set (Some <$> accs)) ∧ ∀ a, a ∈ accs ↔ posts_to d a.
Proof.
  intros H Ht. apply is_txn_true in Ht.
  destruct (acc_key_named (vpostings d)) as (accs & E & Hin).
  { intros p Hp. apply vpostings_elem in Hp as (ps & Hps & Hp). eauto. }
  exists accs. split; [unfold txn_accs; by rewrite E|].
  intros a. rewrite Hin. unfold posts_to. split.
  - intros (p & Hp & Ha). apply vpostings_elem in Hp as (ps & Hps & Hp). eauto 10.
  - intros (_ & ps & p & Hps & Hp & Ha). exists p. split; [|done]. apply vpostings_elem. eauto.
Qed.

(** ** What has been opened *)
Lemma auto_opened_named op d :
  accounts_named d →
  ∃ op', auto_opened op d = Some op' ∧
    ∀ a, Some a ∈ op' ↔ Some a ∈ op ∨ opens d a ∨ posts_to d a.
Proof.
  intros Hn. unfold auto_opened. destruct (is_open d) eqn:Eo.
  - apply is_open_true in Eo. eexists. split; [done|].
    intros b. unfold opens, posts_to. rewrite Eo. unfold acc_key.
    destruct (vget "acc" d) as [[| | |a| | | | | |]|] eqn:Ha;
      rewrite ?elem_of_union, ?elem_of_singleton; naive_solver.
  - destruct (is_txn d) eqn:Et.
    + destruct (txn_accs_named d Hn Et) as (accs & -> & Hin). cbn [fmap option_fmap option_map].
      eexists. split; [done|].
      intros a. rewrite elem_of_union, elem_of_list_to_set, elem_of_list_fmap. split.
      * intros [(b & [= ->] & Hb)|?]; [|by left]. right; right. by apply Hin.
      * intros [?|[[E _]|H]]; [by right| |].
        -- apply is_open_true in E. congruence.
        -- left. exists a. split; [done|]. by apply Hin.
    + exists op. split; [done|]. intros a. split; [by left|].
      intros [?|[[E _]|[E _]]]; [done| |].
      * apply is_open_true in E. congruence.
      * apply is_txn_true in E. congruence.
Qed.
Lemma fold_opened_named h : ∀ op,
  Forall accounts_named h →
  ∃ op', fold_opt auto_opened op h = Some op' ∧
    ∀ a, Some a ∈ op' ↔ Some a ∈ op ∨ ∃ e, e ∈ h ∧ (opens e a ∨ posts_to e a).
Proof.
  induction h as [|d h IH]; intros op Hh.
  - exists op. split; [done|]. intros a. split; [by left|]. intros [?|(?&?%elem_of_nil&_)]; done.
  - apply Forall_cons in Hh as [Hd Hh].
    destruct (auto_opened_named op d Hd) as (op1 & E1 & H1).
    destruct (IH op1 Hh) as (op2 & E2 & H2).
    exists op2. cbn [fold_opt]. rewrite E1. split; [done|].
    intros a. rewrite H2, H1. split.
    + intros [[?|?]|(e & He & ?)]; [by left| |]; right; [exists d|exists e]; split; auto using elem_of_list_here, elem_of_list_further.
    + intros [?|(e & He & ?)]; [by left; left|]. apply elem_of_cons in He as [->|He]; [by left; right|right; eauto].
Qed.

(** ** New accounts *)
Lemma sort_some accs : sort_by (compare_nil_first str_compare) (Some <$> accs) = Some <$> sort_strings accs.
Proof.
  induction accs as [|a accs IH]; [done|]. rewrite fmap_cons. cbn [sort_by]. rewrite IH. unfold sort_strings. cbn [sort_by].
  fold (sort_strings accs). generalize (sort_strings accs) as l. clear.
  induction l as [|b l IH]; [done|]. rewrite fmap_cons. cbn [insert_by compare_nil_first].
  destruct (is_le (str_compare a b)); [done|]. by rewrite fmap_cons, <- IH.
Qed.
Lemma all_some (l : list (option string)) : None ∉ l → ∃ accs, l = Some <$> accs.
Proof.
  induction l as [|[a|] l IH]; intros H.
  - by exists [].
  - rewrite not_elem_of_cons in H. destruct IH as [accs ->]; [tauto|]. by exists (a :: accs).
  - rewrite not_elem_of_cons in H. naive_solver.
Qed.
Lemma auto_new_named op d :
  accounts_named d →
  ∃ accs, auto_new op d = Some (Some <$> accs) ∧ StronglySorted before accs ∧
    ∀ a, a ∈ accs ↔ posts_to d a ∧ Some a ∉ op.
Proof.
  intros Hn. unfold auto_new. destruct (is_open d) eqn:Eo.
  { exists []. split; [done|]. split; [constructor|]. intros a. rewrite elem_of_nil. split; [done|].
    intros [[E _] _]. apply is_open_true in Eo. congruence. }
  destruct (is_txn d) eqn:Et.
  - destruct (txn_accs_named d Hn Et) as (ps & -> & Hin). cbn [fmap option_fmap option_map].
    destruct (all_some (base.elements (list_to_set (Some <$> ps) ∖ op))) as [accs E].
    { rewrite elem_of_elements, elem_of_difference, elem_of_list_to_set, elem_of_list_fmap. intros [(?&?&_) _]. done. }
    exists (sort_strings accs). split; [by rewrite E, sort_some|].
    assert (NoDup accs) as Hd.
    { apply (NoDup_fmap_1 Some). rewrite <- E. apply NoDup_elements. }
    split; [by apply sort_strings_sorted|]. intros a. rewrite sort_strings_perm.
    assert (a ∈ accs ↔ Some a ∈ (Some <$> accs)) as ->.
    { rewrite elem_of_list_fmap. split; [eauto|]. by intros (? & [= ->] & ?). }
    rewrite <- E, elem_of_elements, elem_of_difference, elem_of_list_to_set, elem_of_list_fmap, <- Hin.
    split; [|by intros [? ?]; eauto]. intros [(? & [= ->] & ?) ?]. done.
  - exists []. split; [done|]. split; [constructor|]. intros a. rewrite elem_of_nil. split; [done|].
    intros [[E _] _]. apply is_txn_true in E. congruence.
Qed.

(** ** What the plugin makes *)
Lemma made_open spec name d a o : made spec name false (auto_open d (Some a)) = Some o → opened_for name d a o.
Proof.
  unfold made.
  assert (erroneous (auto_open d (Some a)) = false) as -> by done.
  set (v := VMap [("dct", VKw "open"); ("date", default VNil (vget "date" d)); ("acc", VStr a);
                  ("metadata", VMap [("auto", VNil)]); ("provenance", VVec [VStr name])]).
  assert (mark name false (auto_open d (Some a)) = Some v) as -> by done.
  intros H. assert (o = v) as ->. { destruct (spec v); congruence. }
  unfold opened_for, opens. subst v. split_and!; try done.
  intros k Hk. rewrite !not_elem_of_cons in Hk. destruct Hk as (?&?&?&?&?&_).
  cbn [vget]. unfold vfield, entries. rewrite !filter_cons_False by (cbn; congruence). done.
Qed.
Lemma leaves_auto spec name h d n accs out :
  h !! n = Some d →
  leaves spec name false h (Some (((λ a, Emit (auto_open d a)) <$> (Some <$> accs)) ++ [Pass n])) = Some out →
  ∃ os, out = os ++ [d] ∧ Forall2 (opened_for name d) accs os.
Proof.
  intros Hn. unfold leaves. revert out. induction accs as [|a accs IH]; intros out.
  - cbn [fmap list_fmap app mapM mbind option_bind]. rewrite Hn. intros [= <-]. exists []. by split.
  - rewrite !fmap_cons. cbn [app mapM mbind option_bind fmap option_fmap option_map].
    destruct (made spec name false (auto_open d (Some a))) as [o|] eqn:E; [|done]. cbn [option_map].
    set (F := mapM _ _) in *. destruct F as [outs|] eqn:EF; [|done]. cbn [option_map] in *. intros [= <-].
    destruct (IH _ eq_refl) as (os & Eo & Hos).
    exists (o :: os). split; [by rewrite Eo|]. constructor; [by eapply made_open|done].
Qed.
Lemma through_auto spec name ds out :
  Forall accounts_named ds → through spec false (name, auto_accounts) ds = Some out → with_opens name ds out.
Proof.
  intros Hds. unfold through. cbn [fst snd].
  destruct (mapM _ (beginnings ds)) as [outs|] eqn:E; [|done].
  cbn [auto_accounts px_done leaves mapM fmap option_fmap option_map mjoin list_join app]. intros [= <-].
  rewrite app_nil_r. apply mapM_Some in E. unfold beginnings in E. rewrite Forall2_fmap_l in E.
  assert (length outs = length ds) as Hl. { apply Forall2_length in E. by rewrite seq_length in E. }
  assert (∀ i d o, ds !! i = Some d → outs !! i = Some o → ∃ os, o = os ++ [d] ∧ opens_missing name ds i d os) as H.
  { intros i d o Hi Ho. pose proof (lookup_lt_Some _ _ _ Hi) as Hlt.
    eapply (Forall2_lookup_lr _ _ _ i) in E as E'; [|by apply lookup_seq|exact Ho]. rewrite Nat.add_0_l in E'.
    unfold auto_accounts, px_step, compose in E'.
    assert (length (take (S i) ds) = S i) as Hlen. { rewrite take_length. lia. }
    rewrite Hlen in E'. cbn [pred] in E'.
    assert (last (take (S i) ds) = Some d) as Hlast.
    { by rewrite (take_S_r _ _ _ Hi), last_snoc. }
    rewrite Hlast, take_take in E'. replace (i `min` S i) with i in E' by lia.
    destruct (fold_opened_named (take i ds) ∅) as (op & Eop & Hop); [by apply Forall_take|].
    rewrite Eop in E'. cbn [mbind option_bind] in E'.
    destruct (auto_new_named op d) as (accs & Ea & Hs & Hin).
    { rewrite Forall_forall in Hds. apply Hds. by eapply elem_of_list_lookup_2. }
    rewrite Ea in E'. cbn [mbind option_bind] in E'.
    eapply leaves_auto in E' as (os & -> & Hos); [|rewrite lookup_take by lia; exact Hi].
    exists os. split; [done|]. exists accs. split; [done|]. split; [done|].
    intros a. rewrite Hin, Hop. split.
    - intros [Hp Hno]. split; [done|]. intros j e Hj He.
      assert (e ∈ take i ds). { eapply elem_of_list_lookup_2. by rewrite lookup_take. }
      split; intros ?; apply Hno; right; eauto.
    - intros [Hp Hno]. split; [done|]. intros [He%elem_of_empty|(e & He & Hoe)]; [done|].
      apply elem_of_list_lookup in He as [j Hj]. apply lookup_take_Some in Hj as [Hj ?].
      destruct (Hno j e) as [? ?]; [done|done|]. by destruct Hoe. }
  exists ((λ o, take (pred (length o)) o) <$> outs).
  split; [by rewrite fmap_length|]. split.
  - f_equal. apply list_eq. intros i. rewrite lookup_zip_with, list_lookup_fmap.
    destruct (outs !! i) as [o|] eqn:Ho; [|done].
    destruct (lookup_lt_is_Some_2 ds i) as [d Hd]. { apply lookup_lt_Some in Ho. by rewrite Hl in Ho. }
    rewrite Hd. destruct (H i d o Hd Ho) as (os & -> & _). cbn. rewrite app_length, Nat.add_1_r. cbn [pred].
    by rewrite take_app.
  - intros i d os Hd Ho. apply list_lookup_fmap_Some in Ho as (o & Ho & ->).
    destruct (H i d o Hd Ho) as (os & -> & Hm). rewrite app_length, Nat.add_1_r. cbn [pred]. by rewrite take_app.
Qed.

(** ** Consequences *)
Lemma split_groups {A} (opened : list (list A)) ds pre t post :
  mjoin (zip_with (λ os d, os ++ [d]) opened ds) = pre ++ t :: post →
  ∃ n os (d : A), opened !! n = Some os ∧ ds !! n = Some d ∧
    let past := mjoin (zip_with (λ os d, os ++ [d]) (take n opened) (take n ds)) in
    (t = d ∧ pre = past ++ os) ∨ (∃ os1 os2, os = os1 ++ t :: os2 ∧ pre = past ++ os1).
Proof.
  revert ds pre. induction opened as [|os opened IH]; intros [|d ds] pre E.
  1-3: by destruct pre.
  cbn [zip_with mjoin list_join] in E. rewrite <- (assoc_L app) in E.
  apply app_eq_inv in E as [(k & E1 & E2)|(k & E1 & E2)].
  - destruct k as [|x k].
    + rewrite app_nil_r in E1. subst os. cbn in E2. injection E2 as E3 E4. subst.
      eexists 0, _, _. split; [done|]. split; [done|]. cbn. by left.
    + cbn in E2. injection E2 as <- E2. subst os. exists 0, (pre ++ t :: k), d. split; [done|]. split; [done|].
      cbn. right. eauto.
  - destruct k as [|x k].
    + rewrite app_nil_r in E1. subst pre. cbn in E2. injection E2 as E3 E4. subst.
      eexists 0, _, _. split; [done|]. split; [done|]. cbn. by left.
    + cbn in E2. injection E2 as <- E4. subst pre.
      destruct (IH ds k E4) as (n & os' & d' & Ho & Hd & H).
      exists (S n), os', d'. split; [done|]. split; [done|]. cbn in *.
      destruct H as [[-> ->]|(os1 & os2 & -> & ->)]; [left|right].
      * split; [done|]. by rewrite <- !(assoc_L app).
      * exists os1, os2. split; [done|]. by rewrite <- !(assoc_L app).
Qed.
Lemma group_in {A} (opened : list (list A)) ds n os (d : A) m x :
  opened !! n = Some os → ds !! n = Some d → n < m → x = d ∨ x ∈ os →
  x ∈ mjoin (zip_with (λ os d, os ++ [d]) (take m opened) (take m ds)).
Proof.
  intros Ho Hd Hm Hx. apply elem_of_list_join. exists (os ++ [d]). split.
  - rewrite elem_of_app, elem_of_list_singleton. tauto.
  - apply elem_of_list_lookup. exists n. rewrite lookup_zip_with, !lookup_take by lia. by rewrite Ho, Hd.
Qed.
Global Instance opens_dec d a : Decision (opens d a).
Proof.
  refine (cast_if (decide (is_open d = true ∧ match vget "acc" d with Some (VStr b) => b = a | _ => False end))).
  - destruct (vget "acc" d) as [[]|]; apply _.
  - destruct a0 as [E Ha]. split; [by apply is_open_true|]. by repeat case_match; subst.
  - intros [E Ha]. apply n. rewrite Ha. split; [by apply is_open_true|done].
Defined.
Global Instance posts_dec d a : Decision (posts_to d a).
Proof.
  refine (cast_if (decide (is_txn d = true ∧ Exists (λ p, match vget "acc" p with Some (VStr b) => b = a | _ => False end) (vpostings d)))).
  - apply and_dec; [apply _|]. apply Exists_dec. intros p. destruct (vget "acc" p) as [[]|]; apply _.
  - destruct a0 as [E Ha]. split; [by apply is_txn_true|]. apply Exists_exists in Ha as (p & Hp & Ha).
    apply vpostings_elem in Hp as (ps & Hps & Hp). exists ps, p. split; [done|]. split; [done|]. by repeat case_match; subst.
  - intros (E & ps & p & Hps & Hp & Ha). apply n. split; [by apply is_txn_true|]. apply Exists_exists. exists p.
    split; [apply vpostings_elem; eauto|]. by rewrite Ha.
Defined.

Lemma with_opens_before name ds opened a :
  length opened = length ds →
  (∀ i d os, ds !! i = Some d → opened !! i = Some os → opens_missing name ds i d os) →
  ∀ n os d, opened !! n = Some os → ds !! n = Some d → posts_to d a →
  ∃ o, opens o a ∧ o ∈ mjoin (zip_with (λ os d, os ++ [d]) (take n opened) (take n ds)) ++ os.
Proof.
  intros Hl H n. induction (lt_wf n) as [n _ IH]. intros os d Ho Hd Hp.
  destruct (H n d os Hd Ho) as (accs & Hf & _ & Hin).
  destruct (decide (a ∈ accs)) as [Ha|Ha].
  - apply elem_of_list_lookup in Ha as [k Hk]. eapply Forall2_lookup_l in Hf as (o & Hok & Hof); [|exact Hk].
    exists o. split; [apply Hof|]. apply elem_of_app. right. by eapply elem_of_list_lookup_2.
  - destruct (decide (Exists (λ e, opens e a ∨ posts_to e a) (take n ds))) as [He|He].
    + apply Exists_exists in He as (e & He & Hoe). apply elem_of_list_lookup in He as [j Hj].
      apply lookup_take_Some in Hj as [Hj Hjn].
      destruct (lookup_lt_is_Some_2 opened j) as [osj Hosj]. { rewrite Hl. by eapply lookup_lt_Some. }
      destruct Hoe as [Hoe|Hpe].
      * exists e. split; [done|]. apply elem_of_app. left. eapply group_in; eauto.
      * destruct (IH j Hjn osj e Hosj Hj Hpe) as (o & Hoa & Hin'). exists o. split; [done|]. apply elem_of_app. left.
        apply elem_of_app in Hin' as [Hin'|Hin'].
        -- apply elem_of_list_join in Hin' as (g & Hg & Hin'). apply elem_of_list_join. exists g. split; [done|].
           apply elem_of_list_lookup in Hin' as [i Hi]. apply lookup_zip_with_Some in Hi as (x & y & -> & Hx & Hy).
           apply lookup_take_Some in Hx as [Hx ?], Hy as [Hy ?].
           apply elem_of_list_lookup. exists i. rewrite lookup_zip_with, !lookup_take by lia. by rewrite Hx, Hy.
        -- eapply group_in; eauto.
    + destruct Ha. apply Hin. split; [done|]. intros j e Hj He'.
      assert (e ∈ take n ds). { eapply elem_of_list_lookup_2. by rewrite lookup_take. }
      split; intros ?; apply He, Exists_exists; eauto.
Qed.

(** ** The transducer *)
Section Reducing.
Context {R S : Type} (rf : R → cval → S → R * S).
Fixpoint emissions (ds : list cval) (opened : gset (option string)) : option (list cval) :=
  match ds with
  | [] => Some []
  | d :: ds' =>
      new ← auto_new opened d; opened' ← auto_opened opened d; rest ← emissions ds' opened';
      Some ((auto_open d <$> new) ++ d :: rest)
  end.
Definition all_results (r : R) (xs : list cval) (s : S) : R * S := fold_left (λ rs x, rf rs.1 x rs.2) xs (r, s).
Lemma all_results_app r xs ys s :
  all_results r (xs ++ ys) s = let rs := all_results r xs s in all_results rs.1 ys rs.2.
Proof. unfold all_results. rewrite fold_left_app. by destruct (fold_left _ xs _). Qed.
Lemma reduce_opens_all d accs r s : reduce_opens rf d accs r s = all_results r (auto_open d <$> accs) s.
Proof.
  unfold reduce_opens, all_results. generalize (r, s) as rs. induction accs as [|a accs IH]; intros rs; [done|].
  rewrite fmap_cons. cbn [fold_left]. by rewrite IH.
Qed.
Context (Hrf : ∀ r d s, (rf r d s).1 = r).
Lemma all_results_same r xs s : (all_results r xs s).1 = r.
Proof using Hrf.
  unfold all_results. revert s. induction xs as [|x xs IH]; intros s; [done|]. cbn [fold_left fst snd].
  pose proof (Hrf r x s). destruct (rf r x s) as [r' s']. cbn [fst] in *. subst. apply IH.
Qed.
Lemma auto_reduce_emissions ds : ∀ r s opened,
  auto_reduce rf r ds s opened = (λ xs, all_results r xs s) <$> emissions ds opened.
Proof using Hrf.
  induction ds as [|d ds IH]; intros r s opened; [done|]. cbn [auto_reduce emissions]. unfold auto_step.
  destruct (auto_new opened d) as [new|]; [|done]. cbn [mbind option_bind].
  destruct (auto_opened opened d) as [op'|]; [|done]. cbn [mbind option_bind].
  rewrite reduce_opens_all. set (s1 := (all_results r (auto_open d <$> new) s).2).
  pose proof (Hrf r d s1) as E. destruct (rf r d s1) as [r' s'] eqn:Erf. cbn [fst] in E. subst r'. rewrite IH.
  destruct (emissions ds op') as [rest|]; [|done]. cbn [mbind option_bind fmap option_fmap option_map]. f_equal.
  rewrite all_results_app. cbn zeta. rewrite all_results_same. fold s1.
  unfold all_results at 2. cbn [fold_left fst snd]. by rewrite Erf.
Qed.
End Reducing.
