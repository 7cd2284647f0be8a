(** Comparisons and sorting. *)
From Coq Require Import Ascii QArith Sorted.
From stdpp Require Import prelude gmap strings.
From Verif Require Import DecModel LedgerTypes CljModel InventoryModel InventorySpec DecProofs.
Local Open Scope nat_scope.

(** A comparison which is a total preorder. *)
Record good_cmp {A} (cmp : A → A → comparison) : Prop := GoodCmp {
  gc_sym x y : cmp y x = CompOpp (cmp x y);
  gc_trans x y z : cmp x y ≠ Gt → cmp y z ≠ Gt → cmp x z ≠ Gt }.

Section Good.
Context {A : Type} (cmp : A → A → comparison) (G : good_cmp cmp).
Lemma gc_refl x : cmp x x = Eq.
Proof using G. pose proof (gc_sym _ G x x) as H. by destruct (cmp x x). Qed.
Lemma gc_total x y : cmp x y ≠ Gt ∨ cmp y x ≠ Gt.
Proof using G. rewrite (gc_sym _ G x y). destruct (cmp x y); naive_solver. Qed.
Lemma gc_eq_l x y z : cmp x y = Eq → cmp x z = cmp y z.
Proof using G.
  intros H. assert (cmp y x = Eq) as H' by (by rewrite (gc_sym _ G x y), H).
  pose proof (gc_trans _ G x y z). pose proof (gc_trans _ G y x z).
  pose proof (gc_trans _ G z x y). pose proof (gc_trans _ G z y x).
  rewrite H, H' in *. rewrite (gc_sym _ G x z) in *. rewrite (gc_sym _ G y z) in *.
  destruct (cmp x z), (cmp y z); cbn in *; naive_solver.
Qed.
Lemma gc_lt_trans x y z : cmp x y = Lt → cmp y z = Lt → cmp x z = Lt.
Proof using G.
  intros H1 H2. pose proof (gc_trans _ G x y z) as T. rewrite H1, H2 in T.
  destruct (cmp x z) eqn:E; [|done|naive_solver].
  pose proof (gc_eq_l x z y E) as H. rewrite H1 in H. rewrite (gc_sym _ G y z), H2 in H. done.
Qed.
End Good.

Lemma good_map {A B} (f : B → A) cmp : good_cmp cmp → good_cmp (λ x y, cmp (f x) (f y)).
Proof. intros [S T]. split; eauto. Qed.
Lemma good_lex {A} (f g : A → A → comparison) :
  good_cmp f → good_cmp g → good_cmp (λ x y, different_or (f x y) (g x y)).
Proof.
  intros F G. split.
  - intros x y. rewrite (gc_sym _ F x y), (gc_sym _ G x y). by destruct (f x y).
  - intros x y z H1 H2.
    destruct (f x y) eqn:E1; [| |by destruct H1].
    + rewrite (gc_eq_l _ F x y z E1). destruct (f y z); [|done|done]. cbn in *. eauto using gc_trans.
    + destruct (f y z) eqn:E2; [| |by destruct H2].
      * assert (f x z = Lt) as ->; [|done].
        assert (f z y = Eq) as E3 by by rewrite (gc_sym _ F y z), E2.
        pose proof (gc_eq_l _ F z y x E3) as E4.
        rewrite (gc_sym _ F x z), (gc_sym _ F x y), E1 in E4. by destruct (f x z).
      * by rewrite (gc_lt_trans _ F x y z).
Qed.
Lemma good_option {A} (f : A → A → comparison) : good_cmp f → good_cmp (compare_nil_first f).
Proof.
  intros F. split.
  - intros [x|] [y|]; cbn; try done. apply gc_sym, F.
  - intros [x|] [y|] [z|]; cbn; try done. apply gc_trans, F.
Qed.

Lemma good_Z : good_cmp Z.compare.
Proof. split; [apply Z.compare_antisym|]. intros x y z. rewrite !Z.compare_le_iff. lia. Qed.
Lemma good_N : good_cmp N.compare.
Proof. split; [intros; apply N.compare_antisym|]. intros x y z. rewrite !N.compare_le_iff. lia. Qed.
Lemma good_bool : good_cmp bool_compare.
Proof. split; [by intros [] []|by intros [] [] []]. Qed.
Lemma good_ascii : good_cmp ascii_compare.
Proof. apply (good_map N_of_ascii), good_N. Qed.

Lemma good_str : good_cmp str_compare.
Proof.
  assert (∀ x y, str_compare y x = CompOpp (str_compare x y)) as Hs.
  { induction x as [|a x IH]; intros [|b y]; cbn; try done.
    rewrite (gc_sym _ good_ascii a b). destruct (ascii_compare a b); cbn; auto. }
  split; [done|].
  induction x as [|a x IH]; intros [|b y] [|c z]; cbn; try done.
  intros H1 H2. destruct (ascii_compare a b) eqn:E1; [| |by destruct H1].
  - rewrite (gc_eq_l _ good_ascii a b c E1). destruct (ascii_compare b c); eauto.
  - destruct (ascii_compare b c) eqn:E2; [| |by destruct H2].
    + assert (ascii_compare a c = Lt) as ->; [|done].
      assert (ascii_compare c b = Eq) as E3 by by rewrite (gc_sym _ good_ascii b c), E2.
      pose proof (gc_eq_l _ good_ascii c b a E3) as E4.
      rewrite (gc_sym _ good_ascii a c), (gc_sym _ good_ascii a b), E1 in E4. by destruct (ascii_compare a c).
    + by rewrite (gc_lt_trans _ good_ascii a b c).
Qed.
Lemma ascii_compare_eq a b : ascii_compare a b = Eq ↔ a = b.
Proof.
  unfold ascii_compare. rewrite N.compare_eq_iff. split; [|by intros ->].
  intros H. by rewrite <- (ascii_N_embedding a), <- (ascii_N_embedding b), H.
Qed.
Lemma str_compare_eq a b : str_compare a b = Eq ↔ a = b.
Proof.
  revert b. induction a as [|x a IH]; intros [|y b]; cbn; try (split; congruence).
  destruct (ascii_compare x y) eqn:E.
  - apply ascii_compare_eq in E as ->. rewrite IH. split; [by intros ->|]. by intros [= ->].
  - split; [done|]. intros [= -> ->]. assert (ascii_compare y y = Eq) by by apply ascii_compare_eq. congruence.
  - split; [done|]. intros [= -> ->]. assert (ascii_compare y y = Eq) by by apply ascii_compare_eq. congruence.
Qed.
Lemma str_compare_lt a b : str_compare a b = Lt ↔ before a b.
Proof.
  revert b. induction a as [|x a IH]; intros [|y b]; cbn; try done.
  destruct (ascii_compare x y) eqn:E.
  - apply ascii_compare_eq in E as ->. rewrite IH. split; [tauto|]. intros [?|[_ ?]]; [lia|done].
  - split; [|done]. intros _. left. by apply N.compare_lt_iff.
  - split; [done|]. intros [H|[-> _]].
    + unfold ascii_compare in E. apply N.compare_gt_iff in E. lia.
    + assert (ascii_compare y y = Eq) by by apply ascii_compare_eq. congruence.
Qed.

Lemma date_compare_lex a b : date_compare a b =
  different_or (Z.compare (date_year a) (date_year b))
    (different_or (Z.compare (date_month a) (date_month b)) (Z.compare (date_day a) (date_day b))).
Proof. unfold date_compare. by repeat case_match. Qed.
Lemma good_date : good_cmp date_compare.
Proof.
  assert (good_cmp (λ a b, different_or (Z.compare (date_year a) (date_year b))
    (different_or (Z.compare (date_month a) (date_month b)) (Z.compare (date_day a) (date_day b))))) as [S T].
  { apply (good_lex (λ a b, Z.compare (date_year a) (date_year b))); [apply (good_map date_year), good_Z|].
    apply (good_lex (λ a b, Z.compare (date_month a) (date_month b)));
      [apply (good_map date_month), good_Z|apply (good_map date_day), good_Z]. }
  split; intros *; rewrite !date_compare_lex; eauto.
Qed.
Lemma date_compare_eq a b : date_compare a b = Eq ↔ a = b.
Proof.
  unfold date_compare. destruct a as [y m d], b as [y' m' d']; cbn. split.
  - destruct (y ?= y')%Z eqn:E1; [|done..]. destruct (m ?= m')%Z eqn:E2; [|done..]. intros E3.
    apply Z.compare_eq in E1, E2, E3. by subst.
  - intros [= -> -> ->]. by rewrite !Z.compare_refl.
Qed.
Lemma date_compare_lt a b : date_compare a b = Lt ↔ earlier a b.
Proof.
  unfold date_compare, earlier.
  destruct (Z.compare_spec (date_year a) (date_year b)); [|intuition lia|split; [done|lia]].
  destruct (Z.compare_spec (date_month a) (date_month b)); [|intuition lia|split; [done|lia]].
  destruct (Z.compare_spec (date_day a) (date_day b)); [split; [done|lia]|intuition lia|split; [done|lia]].
Qed.

Lemma dec_compare_value a b : dec_compare a b = Qcompare (dec_value a) (dec_value b).
Proof. unfold dec_compare, dec_value, Qcompare. cbn. done. Qed.
Lemma cn_compare_value a b : cn_compare a b = Qcompare (cn_value a) (cn_value b).
Proof. apply dec_compare_value. Qed.
Lemma good_num : good_cmp cn_compare.
Proof.
  split.
  - intros x y. rewrite !cn_compare_value. symmetry. apply Qcompare_antisym.
  - intros x y z. rewrite !cn_compare_value. rewrite <- !Qle_alt. apply Qle_trans.
Qed.
Lemma cn_equiv_spec a b : cn_equiv a b = true ↔ same_number a b.
Proof.
  unfold cn_equiv, same_number. rewrite andb_true_iff, Bool.eqb_true_iff, cn_compare_value, Qeq_alt.
  destruct (Qcompare _ _); naive_solver.
Qed.

(** Cost keys. *)
Definition key5 : Type := date * string * cnum * option string * option bool.
Definition cmp5 (a b : key5) : comparison :=
  let '(d1, c1, u1, l1, m1) := a in
  let '(d2, c2, u2, l2, m2) := b in
  different_or (date_compare d1 d2)
    (different_or (str_compare c1 c2)
      (different_or (cn_compare u1 u2)
        (different_or (compare_nil_first str_compare l1 l2) (compare_nil_first bool_compare m1 m2)))).
Lemma good_cmp5 : good_cmp cmp5.
Proof.
  set (k1 := λ a : key5, a.1.1.1.1). set (k2 := λ a : key5, a.1.1.1.2). set (k3 := λ a : key5, a.1.1.2).
  set (k4 := λ a : key5, a.1.2). set (k5 := λ a : key5, a.2).
  assert (good_cmp (λ a b, different_or (date_compare (k1 a) (k1 b))
    (different_or (str_compare (k2 a) (k2 b))
      (different_or (cn_compare (k3 a) (k3 b))
        (different_or (compare_nil_first str_compare (k4 a) (k4 b)) (compare_nil_first bool_compare (k5 a) (k5 b))))))) as [S T].
  { apply (good_lex (λ a b, date_compare (k1 a) (k1 b))); [apply (good_map k1), good_date|].
    apply (good_lex (λ a b, str_compare (k2 a) (k2 b))); [apply (good_map k2), good_str|].
    apply (good_lex (λ a b, cn_compare (k3 a) (k3 b))); [apply (good_map k3), good_num|].
    apply (good_lex (λ a b, compare_nil_first str_compare (k4 a) (k4 b)));
      [apply (good_map k4), good_option, good_str|apply (good_map k5), good_option, good_bool]. }
  split.
  - intros [[[[? ?] ?] ?] ?] [[[[? ?] ?] ?] ?]. apply (S (_,_,_,_,_) (_,_,_,_,_)).
  - intros [[[[? ?] ?] ?] ?] [[[[? ?] ?] ?] ?] [[[[? ?] ?] ?] ?]. apply (T (_,_,_,_,_) (_,_,_,_,_) (_,_,_,_,_)).
Qed.
Lemma compare_cost_keys_option x y : compare_cost_keys x y = compare_nil_first cmp5 x y.
Proof. by destruct x as [[[[[? ?] ?] ?] ?]|], y as [[[[[? ?] ?] ?] ?]|]. Qed.
Lemma good_cost_keys : good_cmp compare_cost_keys.
Proof. destruct (good_option _ good_cmp5) as [S T]. split; intros *; rewrite !compare_cost_keys_option; eauto. Qed.

(** Sorting. *)
Section Sort.
Context {A : Type} (cmp : A → A → comparison).
Lemma insert_by_perm x l : insert_by cmp x l ≡ₚ x :: l.
Proof. induction l as [|y l IH]; [done|]. cbn. destruct (is_le _); [done|]. rewrite IH. by constructor. Qed.
Lemma sort_by_perm l : sort_by cmp l ≡ₚ l.
Proof. induction l as [|x l IH]; [done|]. cbn. by rewrite insert_by_perm, IH. Qed.
Context (G : good_cmp cmp).
Lemma is_le_true c : is_le c = true ↔ c ≠ Gt.
Proof. by destruct c. Qed.
Lemma insert_by_sorted x l :
  StronglySorted (λ a b, cmp a b ≠ Gt) l → StronglySorted (λ a b, cmp a b ≠ Gt) (insert_by cmp x l).
Proof using G.
  induction 1 as [|y l Hs IH Hf]; cbn; [by repeat constructor|].
  destruct (is_le (cmp x y)) eqn:E.
  - apply is_le_true in E. constructor; [by constructor|]. constructor; [done|].
    eapply Forall_impl; [exact Hf|]. cbn. eauto using gc_trans.
  - constructor; [done|]. rewrite insert_by_perm. constructor; [|done].
    rewrite (gc_sym _ G x y). by destruct (cmp x y).
Qed.
Lemma sort_by_sorted l : StronglySorted (λ a b, cmp a b ≠ Gt) (sort_by cmp l).
Proof using G. induction l; [constructor|]. cbn. by apply insert_by_sorted. Qed.
End Sort.

Lemma sort_strings_perm l : sort_strings l ≡ₚ l.
Proof. apply sort_by_perm. Qed.
Lemma sort_strings_sorted l : NoDup l → StronglySorted before (sort_strings l).
Proof.
  intros Hn. assert (NoDup (sort_strings l)) as Hn' by by rewrite sort_strings_perm.
  pose proof (sort_by_sorted _ good_str l) as Hs. fold (sort_strings l) in Hs.
  induction Hs as [|x l' Hs IH Hf]; [constructor|]. apply NoDup_cons in Hn' as [Hx Hn'].
  constructor; [auto|]. rewrite Forall_forall in Hf |- *. intros y Hy. apply str_compare_lt.
  specialize (Hf y Hy). destruct (str_compare x y) eqn:E; [|done|done].
  apply str_compare_eq in E as ->. done.
Qed.
