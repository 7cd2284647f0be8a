(** No key is there twice in what the client has of a ledger, and hence golden tests find the
    same values equal. *)
From Coq Require Import Ascii QArith.
From stdpp Require Import prelude gmap strings.
From Verif Require Import DecModel LedgerTypes IsoModel JsonModel WireModel WireSpec WireFacts BookModel BookSpec SpanModel ParserModel JsonText TextFacts ServerModel
  CljModel InventoryModel ClientModel ClientDecode ShowFacts FormatModel PluginModel PluginSpec PluginMerge LoaderModel SystemTrace EdnModel EdnSpec EdnForms EdnProps GoldenModel GoldenSpec
  GoldenFacts GoldenProps EqualSpec EqualFacts.
Local Open Scope nat_scope.

(** * Text *)
Inductive jonce : json → Prop :=
| JO_leaf j : (match j with JArr _ | JObj _ => False | _ => True end) → jonce j
| JO_arr l : Forall jonce l → jonce (JArr l)
| JO_obj fs : NoDup fs.*1 → Forall jonce fs.*2 → jonce (JObj fs).
Lemma keys_vupdate k f fs : (vupdate k f fs).*1 = fs.*1.
Proof. unfold vupdate. rewrite <- list_fmap_compose. apply list_fmap_ext. intros ? [k' v] _. cbn. by destruct (String.eqb k' k). Qed.
Lemma keys_convert fs : (convert_map fs).*1 = fs.*1.
Proof. unfold convert_map. rewrite !keys_vupdate. destruct (vfield "date" fs) as [[]|]; by rewrite ?keys_vupdate. Qed.
Lemma keyword_once v : keys_once (to_keyword v).
Proof. destruct v; by constructor. Qed.
Lemma date_once v : keys_once v → keys_once (to_local_date v).
Proof. intros H. destruct v; try done. cbn. destruct (parse_date s); by constructor. Qed.
Lemma vupdate_once k f fs : (∀ v, keys_once v → keys_once (f v)) → Forall keys_once fs.*2 → Forall keys_once (vupdate k f fs).*2.
Proof. intros Hf H. induction fs as [|[k' v] fs IH]; [constructor|]. rewrite fmap_cons in H. apply Forall_cons in H as [? ?]. cbn. destruct (String.eqb k' k); (constructor; [by try apply Hf|by apply IH]). Qed.
Lemma convert_once fs : Forall keys_once fs.*2 → Forall keys_once (convert_map fs).*2.
Proof.
  intros H. unfold convert_map. do 2 (apply vupdate_once; [intros; apply keyword_once|]).
  destruct (vfield "date" fs) as [[]|]; try done. apply vupdate_once; [apply date_once|done].
Qed.
Lemma decode_once key j : jonce j → keys_once (decode key j).
Proof.
  revert key. induction j as [| | | |l IH|fs IH] using json_ind'; intros key H; try (by constructor); inversion H as [|? HF|? Hd HF]; subst; try done; cbn [decode].
  - destruct (is_set_key key); [by constructor|]. apply O_vec, Forall_forall. intros x (j&->&Hj)%elem_of_list_fmap.
    rewrite Forall_forall in HF. by apply IH, HF.
  - apply O_map.
    + rewrite keys_convert. change (map ?f fs) with (f <$> fs). rewrite <- list_fmap_compose. erewrite list_fmap_ext; [exact Hd|]. by intros ? [? ?] _.
    + apply convert_once. apply Forall_forall. intros x (kv&->&Hkv)%elem_of_list_fmap. apply elem_of_list_fmap in Hkv as ([k j]&->&Hj). cbn.
      rewrite Forall_forall in HF. apply (IH (k, j) Hj), HF. apply elem_of_list_fmap. by exists (k, j).
Qed.
(** Fields with some of the keys [ks], in this order. *)
Definition fonce (ks : list string) (fs : fields) : Prop := fs.*1 `sublist_of` ks ∧ Forall jonce fs.*2.
Lemma fonce_nil : fonce [] [].
Proof. split; constructor. Qed.
Lemma fonce_app ks ls fs gs : fonce ks fs → fonce ls gs → fonce (ks ++ ls) (fs ++ gs).
Proof. intros [A B] [C D]. split; [rewrite fmap_app; by apply sublist_app|]. rewrite fmap_app. by apply Forall_app. Qed.
Lemma fonce_cons k ks j fs : jonce j → fonce ks fs → fonce (k :: ks) ((k, j) :: fs).
Proof. intros H [A B]. split; [by apply sublist_skip|by constructor]. Qed.
Lemma fonce_opt {A} k (e : A → json) o : (∀ x, jonce (e x)) → fonce [k] (put_opt k e o).
Proof. intros H. destruct o; [apply fonce_cons; [done|apply fonce_nil]|]. split; [apply sublist_nil_l|constructor]. Qed.
Lemma fonce_if (b : bool) k j : jonce j → fonce [k] (if b then [(k, j)] else []).
Proof. intros H. destruct b; [apply fonce_cons; [done|apply fonce_nil]|]. split; [apply sublist_nil_l|constructor]. Qed.
Lemma fonce_obj ks fs : fonce ks fs → NoDup ks → jonce (JObj fs).
Proof. intros [A B] H. apply JO_obj; [by eapply sublist_nodup|done]. Qed.
Lemma list_once {A} (e : A → json) l : (∀ x, jonce (e x)) → jonce (JArr (e <$> l)).
Proof. intros H. apply JO_arr, Forall_forall. intros x (y&->&_)%elem_of_list_fmap. apply H. Qed.
Lemma str_once s : jonce (JStr s). Proof. by constructor. Qed.
Lemma num_once d : jonce (put_num d). Proof. by constructor. Qed.
Lemma nat_once n : jonce (of_nat n). Proof. by constructor. Qed.
Lemma span_once s : jonce (put_span s). Proof. apply JO_arr. repeat constructor. Qed.
Lemma date_text_once d : jonce (put_date d). Proof. by constructor. Qed.
Lemma booking_once b : jonce (put_booking b). Proof. by constructor. Qed.
Lemma bool_once b : jonce (JBool b). Proof. by constructor. Qed.
Create HintDb once.
#[local] Hint Resolve str_once num_once nat_once span_once date_text_once booking_once bool_once : once.
Ltac fonces := repeat first [apply fonce_nil|apply fonce_app|apply fonce_opt; intros ?|apply fonce_if|apply fonce_cons|solve [auto with once]].
Ltac object := eapply fonce_obj; [fonces|cbn [app]; apply (bool_decide_unpack _); by vm_compute].
Lemma put_meta_once v : jonce (put_meta v).
Proof. destruct v; cbn [put_meta]; first [by constructor|object]. Qed.
#[local] Hint Resolve put_meta_once : once.
Lemma cost_spec_once c : jonce (put_cost_spec c). Proof. unfold put_cost_spec. object. Qed.
Lemma price_spec_once c : jonce (put_price_spec c). Proof. unfold put_price_spec. object. Qed.
Lemma price_once c : jonce (put_price c). Proof. unfold put_price. object. Qed.
Lemma cost_once c : jonce (put_cost c). Proof. unfold put_cost. object. Qed.
#[local] Hint Resolve cost_spec_once price_spec_once price_once cost_once : once.
Section Order.
Context (ord : hash_order) (Hord : any_order ord).
Lemma put_set_once X : jonce (put_set ord X).
Proof. apply list_once. intros. by constructor. Qed.
Lemma put_metadata_once m : jonce (put_metadata ord m).
Proof using Hord.
  destruct Hord as [_ E]. apply JO_obj.
  - rewrite <- list_fmap_compose. change (NoDup (fst <$> map_order ord m)). rewrite (E m). apply NoDup_fst_map_to_list.
  - apply Forall_forall. intros x (kv&->&Hx)%elem_of_list_fmap. apply elem_of_list_fmap in Hx as (?&->&_). apply put_meta_once.
Qed.
#[local] Hint Resolve put_set_once put_metadata_once : once.
Lemma posting_spec_once p : jonce (put_posting_spec ord p).
Proof using Hord. unfold put_posting_spec. object. Qed.
Lemma posting_once p : jonce (put_posting ord p).
Proof using Hord. unfold put_posting. object. Qed.
#[local] Hint Resolve posting_spec_once posting_once : once.
Lemma postings_once ps : jonce (JArr (put_posting_spec ord <$> ps)).
Proof using Hord. apply list_once. auto with once. Qed.
Lemma bpostings_once ps : jonce (JArr (put_posting ord <$> ps)).
Proof using Hord. apply list_once. auto with once. Qed.
Lemma metas_once vs : jonce (JArr (put_meta <$> vs)).
Proof. apply list_once. auto with once. Qed.
#[local] Hint Resolve postings_once bpostings_once metas_once : once.
Lemma directive_once d : jonce (put_directive ord d).
Proof using Hord. unfold put_directive. destruct (d_variant d); cbn [put_variant]; unfold put_price_dct, put_balance, put_open, put_pad, put_custom; object. Qed.
Lemma bdirective_once d : jonce (put_bdirective ord d).
Proof using Hord. unfold put_bdirective. destruct (b_variant d); cbn [put_bvariant]; unfold put_price_dct, put_balance, put_open, put_pad, put_custom; object. Qed.
End Order.

(** * Values *)
Lemma once_get k v x : keys_once v → vget k v = Some x → keys_once x.
Proof.
  intros H Hx. destruct H as [v Hv| |fs Hd HF]; [by destruct v|done|]. apply vfield_elem in Hx. rewrite Forall_forall in HF. apply HF, elem_of_list_fmap. by exists (k, x).
Qed.
Lemma assoc_keys k v fs : ∀ k', k' ∈ (fields_assoc k v fs).*1 ↔ k' = k ∨ k' ∈ fs.*1.
Proof.
  induction fs as [|[k0 v0] fs IH]; intros k'; [set_solver|]. cbn [fields_assoc fst]. destruct (String.eqb_spec k0 k) as [->|Hk].
  - cbn. rewrite !elem_of_cons. split; [|intros [->|[->|H]]; [by left..|]].
    + intros [->|H]; [by left|]. apply elem_of_list_fmap in H as (e&->&He). apply elem_of_list_filter in He as [_ He]. right. right. by apply elem_of_list_fmap_1.
    + destruct (decide (k' = k)) as [->|Hn]; [by left|]. right. apply elem_of_list_fmap in H as (e&->&He). apply elem_of_list_fmap_1. by apply elem_of_list_filter.
  - rewrite !fmap_cons, !elem_of_cons, IH. cbn. tauto.
Qed.
Lemma assoc_once k v fs : NoDup fs.*1 → NoDup (fields_assoc k v fs).*1.
Proof.
  induction fs as [|[k0 v0] fs IH]; [intros _; by apply NoDup_singleton|]. intros [Hn Hd]%NoDup_cons. cbn [fields_assoc fst]. destruct (String.eqb_spec k0 k) as [->|Hk].
  - cbn. apply NoDup_cons. split.
    + intros (e&He&Hf)%elem_of_list_fmap. apply elem_of_list_filter in Hf as [Hf _]. done.
    + clear -Hd. induction fs as [|e fs IH]; [constructor|]. apply NoDup_cons in Hd as [H1 H2]. rewrite filter_cons. destruct (decide _); [|by apply IH].
      cbn. apply NoDup_cons. split; [|by apply IH]. intros (e'&He&Hf)%elem_of_list_fmap. apply H1. rewrite He. apply elem_of_list_filter in Hf as [_ Hf]. by apply elem_of_list_fmap_1.
  - rewrite fmap_cons. apply NoDup_cons. split; [|by apply IH]. rewrite assoc_keys. intros [E|E]; [done|]. by apply Hn.
Qed.
Lemma assoc_values k v fs x : x ∈ (fields_assoc k v fs).*2 → x = v ∨ x ∈ fs.*2.
Proof.
  induction fs as [|[k0 v0] fs IH]; [set_solver|]. cbn [fields_assoc fst]. destruct (String.eqb_spec k0 k) as [->|Hk]; rewrite !fmap_cons, !elem_of_cons; cbn [snd].
  - intros [->|H]; [by left|]. right. right. apply elem_of_list_fmap in H as (e&->&He). apply elem_of_list_filter in He as [_ He]. by apply elem_of_list_fmap_1.
  - intros [->|H]; [by right; left|]. destruct (IH H); [by left|by right; right].
Qed.
Lemma vassoc_once k v m x : keys_once v → keys_once m → vassoc k v m = Some x → keys_once x.
Proof.
  intros Hv Hm Hx. unfold vassoc in Hx. destruct m; try done; injection Hx as <-.
  - apply O_map; [by apply NoDup_singleton|by constructor].
  - inversion Hm as [? Hx|?|? Hd HF]; [done|]; subst. apply O_map; [by apply assoc_once|]. apply Forall_forall. intros x [->|Hx]%assoc_values; [done|]. rewrite Forall_forall in HF. by apply HF.
Qed.
Lemma merge_field_once k r b x : keys_once r → keys_once b → merge_field k r b = Some x → keys_once x.
Proof. intros Hr Hb. unfold merge_field. destruct (vget k r) eqn:E; intros Hx; [|congruence]. eapply vassoc_once, Hx; [|done]. by apply (once_get k r). Qed.
Lemma merge_once b r x : keys_once b → keys_once r → merge_span_and_provenance b r = Some x → keys_once x.
Proof.
  intros Hb Hr. unfold merge_span_and_provenance. intros (y&Hy&(z&Hz&Hx)%bind_Some)%bind_Some.
  eapply merge_field_once, Hx; [done|]. eapply merge_field_once, Hz; [done|]. by eapply merge_field_once, Hy.
Qed.
Lemma vnth_once l i x : Forall keys_once l → vnth l i = Some x → keys_once x.
Proof. intros Hl. unfold vnth. destruct i as [[| |[]| | | | | | |]|]; try done. destruct (0 <=? z)%Z; [|done]. intros Hx. by eapply Forall_lookup_1. Qed.
Lemma or_nil_once o : (∀ x, o = Some x → keys_once x) → keys_once (or_nil o).
Proof. intros H. destruct o; [by apply H|by constructor]. Qed.
Lemma vec_once v : keys_once v → ∀ l, v = VVec l → Forall keys_once l.
Proof. intros H l ->. by inversion H. Qed.
Lemma vpostings_once v : keys_once v → Forall keys_once (vpostings v).
Proof. intros H. unfold vpostings, vec. destruct (vget "postings" v) as [x|] eqn:E; [|constructor]. destruct x; try constructor. eapply vec_once; [by apply (once_get "postings" v)|done]. Qed.
Lemma resolve_once raw b x : Forall keys_once raw → keys_once b → resolve_directive raw b = Some x → keys_once x.
Proof.
  intros Hr Hb. unfold resolve_directive. intros (y&Hy&Hx)%bind_Some.
  assert (Hn : keys_once (or_nil (vnth raw (vget "idx" b)))) by (apply or_nil_once; intros; by eapply vnth_once).
  assert (keys_once y) by (by eapply merge_once, Hy).
  destruct (vget "postings" b) as [v|] eqn:E; [|congruence]. destruct v as [|[]| | | | | |ps| |]; try congruence.
  apply bind_Some in Hx as (qs&Hq&Hx). eapply vassoc_once, Hx; [|done]. apply O_vec. apply mapM_Some in Hq.
  assert (Hps : Forall keys_once ps) by (eapply vec_once; [by apply (once_get "postings" b)|done]). clear -Hq Hn Hps.
  induction Hq as [|p q ps qs Hp _ IH]; [constructor|]. inversion Hps; subst. constructor; [|by apply IH]. eapply merge_once, Hp; [done|].
  apply or_nil_once. intros w Hw. eapply vnth_once, Hw. by apply vpostings_once.
Qed.

(** * Equality *)
Lemma of_cval_plain v : without_regex (of_cval v).
Proof.
  induction v as [| | | | | | |l IH|l IH|fs IH] using cval_ind'; cbn; try done.
  - induction l as [|x l IHl]; [done|]. cbn. split; [apply IH; by left|]. apply IHl. intros; apply IH. by right.
  - induction l as [|x l IHl]; [done|]. cbn. split; [apply IH; by left|]. apply IHl. intros; apply IH. by right.
  - induction fs as [|x l IHl]; [done|]. cbn. split; [split; [done|]; apply IH; by left|]. apply IHl. intros; apply IH; by right.
Qed.
Lemma vfield_once k (v : cval) fs : NoDup fs.*1 → (k, v) ∈ fs → vfield k fs = Some v.
Proof.
  intros Hd Hv. unfold vfield. pose proof (entries_NoDup fs k Hd) as Hl. apply entries_spec in Hv. destruct (entries k fs) as [|x [|y l]]; [by apply elem_of_nil in Hv| |cbn in Hl; lia].
  apply elem_of_list_singleton in Hv as ->. done.
Qed.
Lemma same_equal v w : same_value v w → keys_once v → keys_once w → equal (of_cval v) (of_cval w).
Proof.
  revert w. induction v as [| | | | | | |l IH|l IH|fs IH] using cval_ind'; intros w H Hv Hw; inversion H as [| | | | | | |? l' HF|? l' HF|? gs HF]; subst; try (by constructor);
    try (apply equal_refl, of_cval_plain).
  - cbn [of_cval]. eapply Q_seq; [by right|by right|]. apply Forall2_fmap_2. pose proof (vec_once _ Hv _ eq_refl) as Ha. pose proof (vec_once _ Hw _ eq_refl) as Hl'. clear Hv Hw H.
    induction HF as [|x y l l' Hx _ IHl]; [constructor|]. inversion Ha; inversion Hl'; subst. constructor; [by apply IH; [left| | |]|].
    apply IHl; [|done..]. intros; apply IH; [by right|done..].
  - cbn [of_cval]. apply Q_set; [by rewrite !fmap_length, HF|]. apply Forall_forall. intros x (y&->&Hy)%elem_of_list_fmap. apply Exists_exists.
    exists (of_cval y). split; [apply elem_of_list_fmap; exists y; split; [done|by rewrite <- HF]|apply equal_refl, of_cval_plain].
  - cbn [of_cval]. inversion Hv as [? X|?|? Hd1 HF1]; [done|]; subst. inversion Hw as [? X|?|? Hd2 HF2]; [done|]; subst.
    assert (Hkeys : fs.*1 ≡ₚ gs.*1).
    { apply NoDup_Permutation; [done..|]. intros k. split; intros ([k' v]&->&Hk)%elem_of_list_fmap; cbn.
      - pose proof (vfield_once _ _ _ Hd1 Hk) as E. specialize (HF k'). rewrite E in HF. inversion HF as [? u _ E' E''|]. symmetry in E''. apply vfield_elem in E''.
        apply elem_of_list_fmap. by exists (k', u).
      - pose proof (vfield_once _ _ _ Hd2 Hk) as E. specialize (HF k'). rewrite E in HF. inversion HF as [u ? _ E' E''|]. symmetry in E'. apply vfield_elem in E'.
        apply elem_of_list_fmap. by exists (k', u). }
    apply Q_map.
    + apply Permutation_length in Hkeys. rewrite !fmap_length in *. done.
    + apply Forall_forall. intros x ([k v]&->&Hx)%elem_of_list_fmap. pose proof (vfield_once _ _ _ Hd1 Hx) as E. specialize (HF k). rewrite E in HF.
      inversion HF as [? u Hu E' E''|]; subst. symmetry in E''. apply vfield_elem in E''. apply Exists_exists. exists (EKw k, of_cval u). split; [apply elem_of_list_fmap; by exists (k, u)|].
      cbn. split; [constructor|]. apply (IH (k, v)); [done|done| |].
      * rewrite Forall_forall in HF1. apply HF1, elem_of_list_fmap. by exists (k, v).
      * rewrite Forall_forall in HF2. apply HF2, elem_of_list_fmap. by exists (k, u).
Qed.
