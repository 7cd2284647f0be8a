(** What the server sends of a ledger differs between runs only in the order of sets and
    of metadata, and the client reads the same values from it. *)
From Coq Require Import Ascii QArith.
From stdpp Require Import prelude gmap strings.
From Verif Require Import DecModel LedgerTypes IsoModel JsonModel WireModel WireSpec WireFacts BookModel BookSpec SpanModel ParserModel JsonText TextFacts ServerModel
  CljModel InventoryModel ClientModel ClientDecode ShowFacts FormatModel PluginModel PluginSpec PluginMerge LoaderModel SystemTrace EqualSpec.
Local Open Scope nat_scope.

(** * The same values *)
Lemma vfield_elem k fs (v : cval) : vfield k fs = Some v → (k, v) ∈ fs.
Proof. unfold vfield. intros H. apply last_Some in H as [l H]. apply entries_spec. rewrite H. apply elem_of_app. right. by left. Qed.
Lemma same_refl v : same_value v v.
Proof.
  induction v as [| | | | | | |l IH|l IH|fs IH] using cval_ind'; try constructor.
  - apply Forall_Forall2_diag, Forall_forall, IH.
  - done.
  - intros k. destruct (vfield k fs) as [v|] eqn:E; constructor. by apply (IH (k, v)), vfield_elem.
Qed.
Lemma same_get k a b : same_value a b → option_Forall2 same_value (vget k a) (vget k b).
Proof. intros H. destruct H; try constructor. apply H. Qed.
Lemma same_is_map a b : same_value a b → is_map a = is_map b.
Proof. by destruct 1. Qed.
Lemma same_map a b : is_map a = true → is_map b = true → (∀ k, option_Forall2 same_value (vget k a) (vget k b)) → same_value a b.
Proof. destruct a, b; try done. intros _ _ H. constructor. exact H. Qed.
Lemma same_or_nil a b : option_Forall2 same_value a b → same_value (or_nil a) (or_nil b).
Proof. destruct 1; [done|constructor]. Qed.

(** * The same text, but for the order of sets and metadata *)
Inductive jlike : option string → json → json → Prop :=
| Y_refl key j : jlike key j j
| Y_set key l l' : is_set_key key = true → l ≡ₚ l' → jlike key (JArr l) (JArr l')
| Y_arr key l l' : is_set_key key = false → Forall2 (jlike None) l l' → jlike key (JArr l) (JArr l')
| Y_obj key fs gs : Forall2 (λ a b, a.1 = b.1 ∧ jlike (Some a.1) a.2 b.2) fs gs → jlike key (JObj fs) (JObj gs)
| Y_meta key fs gs : NoDup fs.*1 → fs ≡ₚ gs → jlike key (JObj fs) (JObj gs).
Notation flike := (Forall2 (λ a b, a.1 = b.1 ∧ jlike (Some a.1) a.2 b.2)).
Lemma flike_entries k fs gs : flike fs gs → Forall2 (jlike (Some k)) (entries k fs) (entries k gs).
Proof.
  induction 1 as [|[k1 j1] [k2 j2] fs gs [E H] _ IH]; [constructor|]. cbn in E, H. subst k2. destruct (decide (k1 = k)) as [->|Hk].
  - rewrite !entries_cons_eq. by constructor.
  - by rewrite !entries_cons_ne.
Qed.
Lemma Forall2_last {A B} (R : A → B → Prop) l k : Forall2 R l k → option_Forall2 R (last l) (last k).
Proof. induction 1 as [|x y l k H HF IH]; [constructor|]. destruct HF; [by constructor|]. exact IH. Qed.
Lemma converted_same k a b : same_value a b → same_value (converted k a) (converted k b).
Proof.
  intros H. unfold converted. destruct (_ || _); [|destruct (String.eqb k "date")]; [| |done].
  - destruct H; cbn [to_keyword]; try constructor.
  - destruct H; cbn [to_local_date]; try (by constructor). apply same_refl.
Qed.
Lemma decode_same key j j' : jlike key j j' → same_value (decode key j) (decode key j').
Proof.
  revert key j'. induction j as [| | | |l IH|fs IH] using json_ind'; intros key j' H; inversion H as [|? ? ? Hk Hp|? ? ? Hk HF|? ? ? HF|? ? ? Hd Hp]; subst; try apply same_refl.
  - cbn [decode]. rewrite Hk. constructor. by rewrite Hp.
  - cbn [decode]. rewrite Hk. constructor. apply Forall2_fmap_2. clear H. induction HF as [|a b l l' Hab HF IHl]; [constructor|].
    constructor; [apply IH; [by left|done]|]. apply IHl. intros x Hx. apply IH. by right.
  - apply same_map; [done..|]. intros k. rewrite !vget_decode. pose proof (flike_entries k _ _ HF) as He. apply Forall2_last in He.
    assert (Hin : ∀ x, last (entries k fs) = Some x → (k, x) ∈ fs). { intros x Hx. apply last_Some in Hx as [l Hx]. apply entries_spec. rewrite Hx. apply elem_of_app. right. by left. }
    destruct He as [x y Hxy|]; [|constructor]. constructor. apply converted_same. apply (IH (k, x)); [by apply Hin|done].
  - apply same_map; [done..|]. intros k. rewrite !vget_decode.
    assert (Ee : entries k fs ≡ₚ entries k gs). { unfold entries. by rewrite Hp. }
    assert (last (entries k fs) = last (entries k gs)) as ->.
    { pose proof (entries_NoDup fs k Hd) as Hl. destruct (entries k fs) as [|x [|y l]]; [apply Permutation_nil in Ee; by rewrite Ee| |cbn in Hl; lia].
      symmetry in Ee. apply Permutation_singleton_r in Ee. by rewrite Ee. }
    destruct (last _); constructor. apply same_refl.
Qed.

(** * Writing in two orders *)
Lemma flike_refl fs : flike fs fs.
Proof. apply Forall_Forall2_diag, Forall_forall. intros x _. split; [done|constructor]. Qed.
Lemma flike_app fs gs fs' gs' : flike fs gs → flike fs' gs' → flike (fs ++ fs') (gs ++ gs').
Proof. apply Forall2_app. Qed.
Lemma flike_cons k j j' fs gs : jlike (Some k) j j' → flike fs gs → flike ((k, j) :: fs) ((k, j') :: gs).
Proof. intros H1 H2. constructor; [by split|done]. Qed.
Lemma flike_opt {A} k (e e' : A → json) o : (∀ x, jlike (Some k) (e x) (e' x)) → flike (put_opt k e o) (put_opt k e' o).
Proof. intros H. destruct o; [apply flike_cons; [done|]|]; constructor. Qed.

Section Orders.
Context (o1 o2 : hash_order) (H1 : any_order o1) (H2 : any_order o2).
Lemma set_like k X : is_set_key (Some k) = true → jlike (Some k) (put_set o1 X) (put_set o2 X).
Proof using H1 H2. intros Hk. apply Y_set; [done|]. destruct H1 as [E1 _], H2 as [E2 _]. by rewrite (E1 X), (E2 X). Qed.
Lemma metadata_like k m : jlike k (put_metadata o1 m) (put_metadata o2 m).
Proof using H1 H2.
  destruct H1 as [_ E1], H2 as [_ E2]. apply Y_meta; [|by rewrite (E1 m), (E2 m)].
  rewrite <- list_fmap_compose. change (NoDup (fst <$> map_order o1 m)). rewrite (E1 m). apply NoDup_fst_map_to_list.
Qed.
Ltac like := repeat first [apply flike_app|apply flike_cons|apply flike_opt; intros ?|apply flike_refl|by apply set_like|apply metadata_like|apply Y_refl].
Lemma posting_spec_like k p : jlike k (put_posting_spec o1 p) (put_posting_spec o2 p).
Proof using H1 H2. apply Y_obj. like. Qed.
Lemma posting_like k p : jlike k (put_posting o1 p) (put_posting o2 p).
Proof using H1 H2. apply Y_obj. like. Qed.
Lemma list_like {A} k (e e' : A → json) l : is_set_key k = false → (∀ x, jlike None (e x) (e' x)) → jlike k (JArr (e <$> l)) (JArr (e' <$> l)).
Proof. intros Hk H. apply Y_arr; [done|]. apply Forall2_fmap_2, Forall_Forall2_diag, Forall_forall. intros x _. apply H. Qed.
Lemma directive_like k d : jlike k (put_directive o1 d) (put_directive o2 d).
Proof using H1 H2.
  apply Y_obj. repeat (apply flike_app; [solve [like]|]). unfold put_variant. destruct (d_variant d); try apply flike_refl.
  - like. apply list_like; [done|]. intros q. apply posting_spec_like.
  - unfold put_open. like.
Qed.
Lemma bdirective_like k d : jlike k (put_bdirective o1 d) (put_bdirective o2 d).
Proof using H1 H2.
  apply Y_obj. repeat (apply flike_app; [solve [like]|]). unfold put_bvariant. destruct (b_variant d); try apply flike_refl.
  - like. apply list_like; [done|]. intros q. apply posting_like.
  - unfold put_open. like.
Qed.
End Orders.

(** * Finding the directive which was booked *)
Lemma vget_vassoc k v m x k' : vassoc k v m = Some x → vget k' x = if String.eqb k k' then Some v else vget k' m.
Proof.
  unfold vassoc. destruct m; try done; intros [= <-]; cbn [vget]; unfold vfield.
  - rewrite entries_cons. by destruct (String.eqb k k').
  - destruct (String.eqb_spec k k') as [<-|Hk]; [by rewrite entries_assoc_same|by rewrite entries_assoc_other].
Qed.
Lemma vassoc_same k v w m m' : same_value v w → same_value m m' → option_Forall2 same_value (vassoc k v m) (vassoc k w m').
Proof.
  intros Hv Hm. assert (Hx : ∀ x y, vassoc k v m = Some x → vassoc k w m' = Some y → same_value x y).
  { intros x y Ex Ey. apply same_map.
    - unfold vassoc in Ex. destruct m; try done; by injection Ex as <-.
    - unfold vassoc in Ey. destruct m'; try done; by injection Ey as <-.
    - intros k'. rewrite (vget_vassoc _ _ _ _ k' Ex), (vget_vassoc _ _ _ _ k' Ey). destruct (String.eqb k k'); [by constructor|by apply same_get]. }
  destruct Hm; cbn [vassoc] in *; try constructor; by apply Hx.
Qed.
Lemma bind_same (f g : cval → option cval) a b : option_Forall2 same_value a b → (∀ x y, same_value x y → option_Forall2 same_value (f x) (g y)) →
  option_Forall2 same_value (a ≫= f) (b ≫= g).
Proof. intros H Hf. destruct H; [by apply Hf|constructor]. Qed.
Lemma merge_field_same k r r' b b' : same_value r r' → same_value b b' → option_Forall2 same_value (merge_field k r b) (merge_field k r' b').
Proof. intros Hr Hb. unfold merge_field. destruct (same_get k _ _ Hr); [by apply vassoc_same|by constructor]. Qed.
Lemma merge_same b b' r r' : same_value b b' → same_value r r' → option_Forall2 same_value (merge_span_and_provenance b r) (merge_span_and_provenance b' r').
Proof. intros Hb Hr. unfold merge_span_and_provenance. repeat (eapply bind_same; [by apply merge_field_same|]; intros ? ? ?). by apply merge_field_same. Qed.
Lemma vnth_same l l' i i' : Forall2 same_value l l' → option_Forall2 same_value i i' → option_Forall2 same_value (vnth l i) (vnth l' i').
Proof.
  intros Hl Hi. unfold vnth. destruct Hi as [a b H|]; [|constructor]. destruct H; try constructor. destruct n; try constructor.
  destruct (0 <=? z)%Z; [|constructor]. by apply Forall2_lookup.
Qed.
Lemma vpostings_same a b : same_value a b → Forall2 same_value (vpostings a) (vpostings b).
Proof. intros H. unfold vpostings, vec. destruct (same_get "postings" _ _ H) as [x y Hx|]; [|constructor]. destruct Hx; try constructor. done. Qed.
Lemma mapM_same (f g : cval → option cval) l l' : Forall2 same_value l l' → (∀ x y, same_value x y → option_Forall2 same_value (f x) (g y)) →
  option_Forall2 (Forall2 same_value) (mapM f l) (mapM g l').
Proof.
  intros H Hf. induction H as [|x y l l' Hx _ IH]; [constructor; constructor|]. cbn [mapM mbind option_bind mret option_ret].
  destruct (Hf x y Hx); [|constructor]. destruct IH; [|constructor]. constructor. by constructor.
Qed.
Lemma resolve_same raw raw' b b' : Forall2 same_value raw raw' → same_value b b' → option_Forall2 same_value (resolve_directive raw b) (resolve_directive raw' b').
Proof.
  intros Hr Hb. unfold resolve_directive.
  assert (Hx : same_value (or_nil (vnth raw (vget "idx" b))) (or_nil (vnth raw' (vget "idx" b')))) by (by apply same_or_nil, vnth_same; [|apply same_get]).
  eapply bind_same; [by apply merge_same|]. intros x y Hxy.
  destruct (same_get "postings" _ _ Hb) as [p q Hp|]; [|by constructor].
  destruct Hp as [|bo| | | | | |ps qs Hps| |]; try (by constructor); [destruct bo; by constructor|].
  assert (HM : option_Forall2 (Forall2 same_value)
    (mapM (λ p, merge_span_and_provenance p (or_nil (vnth (vpostings (or_nil (vnth raw (vget "idx" b)))) (vget "idx" p)))) ps)
    (mapM (λ p, merge_span_and_provenance p (or_nil (vnth (vpostings (or_nil (vnth raw' (vget "idx" b')))) (vget "idx" p)))) qs)).
  { apply mapM_same; [done|]. intros u v Huv. apply merge_same; [done|]. apply same_or_nil, vnth_same; [by apply vpostings_same|by apply same_get]. }
  destruct HM; [|constructor]. cbn [mbind option_bind]. apply vassoc_same; [by constructor|done].
Qed.
