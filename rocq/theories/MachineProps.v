(** The range of the machine's decimals. *)
From Coq Require Import Ascii QArith Qabs Lqa.
From stdpp Require Import prelude gmap strings.
From Verif Require Import DecModel DecProofs LedgerTypes BookModel BookLib BookSpec BookUnits SampleLib SampleLedgers MachineModel MachineSpec MachineFacts.
Local Open Scope nat_scope.

(** * C111 *)

(** With moderate amounts booking with the decimals of the machine, which may round and
    overflow, does what booking with unbounded ones does: the same directives, the same
    warnings, the same errors, and no other panic. *)
Theorem C111_moderate {P} (L : booking_lib P) (ord : gmap string (account P) → list (string * account P)) madd mmul n opt ds :
  (∀ m, ord m ≡ₚ map_to_list m) → machine_ok madd mmul → moderate L n ord opt ds →
  m_book L ord madd mmul opt ds = book L ord opt ds.
Proof. intros Hord HM H. by eapply m_book_eq. Qed.
Print Assumptions C111_moderate.

(** Any sum of amounts within range, in any order, is exact. *)
Theorem C111_sums madd mmul n l l' : machine_ok madd mmul → within n l → l' ≡ₚ l →
  ∃ d, msum_from madd dec_zero l' = Some d ∧ (dec_value d == Qsum (dec_value <$> l))%Q.
Proof.
  intros HM Hw Hp. assert (within n (dec_zero :: l')) as H.
  { eapply within_submseteq in Hw; [|by apply Permutation_submseteq; symmetry in Hp; symmetry]. destruct Hw as (Hn&Hs&Hm). split_and!; [done| |].
    - constructor; [cbn; lia|done].
    - cbn [fmap list_fmap] in *. unfold Qsum in *. cbn [foldr] in *. setoid_replace (Qabs (dec_value dec_zero)) with 0%Q by done. by rewrite Qplus_0_l. }
  destruct (msum_exact madd mmul HM n l' dec_zero H) as [E _]. exists (fold_left dec_add l' dec_zero). split; [done|].
  fold (dec_sum l'). rewrite dec_sum_value, <- (Qsum_perm (dec_value <$> l') (dec_value <$> l)) by by apply fmap_Permutation.
  clear. induction l' as [|d l' IH]; [done|]. rewrite fmap_cons, Qsum_cons. cbn [foldr]. by rewrite IH.
Qed.
Print Assumptions C111_sums.

(** ** A machine *)
Definition representableb (d : dec) : bool := (Z.abs (dec_mant d) <? 2 ^ 96)%Z && Nat.leb (dec_scale d) 28.
Lemma representableb_iff d : representableb d = true ↔ representable d.
Proof. unfold representableb, representable. by rewrite andb_true_iff, Z.ltb_lt, Nat.leb_le. Qed.
Definition strict_op (op : dec → dec → dec) (a b : dec) : option dec := if representableb (op a b) then Some (op a b) else None.
Lemma strict_machine : machine_ok (strict_op dec_add) (strict_op dec_mul).
Proof.
  constructor; unfold strict_op.
  - intros a b H. by rewrite (proj2 (representableb_iff _) H).
  - intros a b H. by rewrite (proj2 (representableb_iff _) H).
  - intros a b H. destruct (representableb (dec_add a b)) eqn:E; [|done]. apply representableb_iff in E as [E _]. exfalso. revert H. apply Qlt_not_le.
    rewrite <- dec_add_value. unfold dec_value, Qabs, Qlt, inject_Z. cbn [Qnum Qden]. rewrite Z.mul_1_r.
    assert (0 <= 2 ^ 96)%Z as HB by done. revert E HB. generalize (Z.abs (dec_mant (dec_add a b))) (2 ^ 96)%Z (pow10 (dec_scale (dec_add a b))). intros m B u E HB.
    pose proof (Pos2Z.is_pos u). nia.
Qed.

(** ** A ledger of moderate amounts *)
Definition withinb (n : nat) (l : list dec) : bool :=
  Nat.leb n 28 && forallb (λ d, Nat.leb (dec_scale d) n) l &&
  negb (Qle_bool (inject_Z (2 ^ 96)) (Qsum ((λ d, Qabs (dec_value d)) <$> l) * inject_Z (10 ^ Z.of_nat n))).
Lemma withinb_ok n l : withinb n l = true → within n l.
Proof.
  unfold withinb. rewrite !andb_true_iff, negb_true_iff, Nat.leb_le. intros [[Hn Hs] Hm]. split_and!; [done| |].
  - rewrite Forall_forall. intros d Hd. rewrite forallb_forall in Hs. apply Nat.leb_le, Hs. by apply elem_of_list_In.
  - apply Qnot_le_lt. intros H. apply Qle_bool_iff in H. by rewrite H in Hm.
Qed.
Definition tolerableb (b : balance) : bool :=
  match bal_tolerance b with Some _ => true | None => Nat.leb (dec_scale (bal_units b) + 1) 28 end.
Lemma tolerableb_ok b : tolerableb b = true → tolerable sample_lib b.
Proof. unfold tolerableb, tolerable. intros H E. rewrite E in H. cbn. apply Nat.leb_le in H. by split. Qed.
Definition step_ok (n : nat) (ds : list directive) (i : nat) : bool :=
  match ds !! i with
  | Some d =>
      match d_variant d with
      | DBalance b =>
          match collect_loop sample_lib sample_ord 0 (take i ds) (CSt (acc_new (default_booking_option sample_lib None)) [] []) with
          | CRun c => tolerableb b && withinb n (bal_units b :: holdings sample_lib (c_acc c) (bal_cur b)) &&
              forallb (λ o, withinb n (o :: posted_units (c_booked c))) (dec_zero :: asserted_units (c_booked c))
          | CPanic _ => true
          end
      | _ => true
      end
  | None => true
  end.
Lemma moderate_checked n ds : forallb (step_ok n ds) (seq 0 (length ds)) = true → moderate sample_lib n sample_ord None ds.
Proof.
  rewrite forallb_forall. intros H i d b c Hi Hd Hc. specialize (H i). rewrite <- elem_of_list_In, elem_of_seq in H.
  specialize (H ltac:(apply lookup_lt_Some in Hi; lia)). unfold step_ok in H. rewrite Hi, Hd, Hc, !andb_true_iff in H. destruct H as [[H1 H2] H3].
  split; [by apply tolerableb_ok|]. split; [by apply withinb_ok|]. intros o Ho. apply withinb_ok. rewrite forallb_forall in H3. apply H3. by apply elem_of_list_In.
Qed.
Example C111_example :
  machine_ok (strict_op dec_add) (strict_op dec_mul) ∧ moderate sample_lib 2 sample_ord None ledger1 ∧
  m_book sample_lib sample_ord (strict_op dec_add) (strict_op dec_mul) None ledger1 = BookSuccess booked1 [] ∧
  within 2 [Dec 250 2; Dec (-10) 0; Dec 25 1].
Proof.
  assert (moderate sample_lib 2 sample_ord None ledger1) as Hm by (apply moderate_checked; vm_compute; reflexivity).
  split; [exact strict_machine|]. split; [exact Hm|]. split; [|apply withinb_ok; by vm_compute].
  rewrite (C111_moderate sample_lib sample_ord _ _ 2 None ledger1 sample_ord_perm strict_machine Hm). exact ledger1_books.
Qed.

(** ** Large amounts *)
Lemma m_collect_loop_app {P} (L : booking_lib P) ord madd mmul i ds ds' c : m_collect_loop L ord madd mmul i (ds ++ ds') c =
  match m_collect_loop L ord madd mmul i ds c with CRun c' => m_collect_loop L ord madd mmul (length ds + i) ds' c' | CPanic w => CPanic w end.
Proof.
  revert i c. induction ds as [|d ds IH]; intros i c; [done|]. cbn [app m_collect_loop length]. destruct (m_collect_step L ord madd mmul i d c) as [c'|]; [|done].
  rewrite IH. replace (length ds + S i) with (S (length ds) + i) by lia. done.
Qed.
Lemma m_unasserted {P} (L : booking_lib P) ord madd mmul i ds c : (∀ m, ord m ≡ₚ map_to_list m) → machine_ok madd mmul →
  forallb (λ d, match d_variant d with DBalance _ => false | _ => true end) ds = true → m_collect_loop L ord madd mmul i ds c = collect_loop L ord i ds c.
Proof.
  intros Hord HM. revert i c. induction ds as [|d ds IH]; intros i c; [done|]. cbn [forallb m_collect_loop collect_loop]. intros [Hd Hds]%andb_true_iff.
  rewrite (m_step_eq madd mmul HM L ord Hord 0); [|intros b E; by rewrite E in Hd]. destruct (collect_step L ord i d c); [|done]. by apply IH.
Qed.
Definition large : Z := (2 ^ 96 - 1)%Z.
Definition large_posted : list directive :=
  [ dir 1 (dopen "Assets"); dir 1 (dopen "Assets:A"); dir 1 (dopen "Assets:B"); dir 1 (dopen "Assets:C"); dir 1 (dopen "Equity:Opening");
    dir 2 (txn [post "Assets:A" large "USD"; post "Equity:Opening" (- large) "USD"]);
    dir 3 (txn [post "Assets:B" (- large) "USD"; post "Equity:Opening" large "USD"]);
    dir 4 (txn [post "Assets:C" large "USD"; post "Equity:Opening" (- large) "USD"]) ].
Definition large_asserted : directive := dir 5 (dbal "Assets" large 0 "USD").
Definition large_ledger : list directive := large_posted ++ [large_asserted].
Definition large_state (ord : gmap string (account SampleLib.holding) → list (string * account SampleLib.holding)) :=
  match collect_loop sample_lib ord 0 large_posted (CSt (acc_new LStrict) [] []) with CRun c => c | CPanic _ => CSt (acc_new LStrict) [] [] end.
Lemma large_split madd mmul ord : (∀ m, ord m ≡ₚ map_to_list m) → machine_ok madd mmul →
  match collect_loop sample_lib ord 0 large_posted (CSt (acc_new LStrict) [] []) with CRun _ => true | CPanic _ => false end = true →
  m_book sample_lib ord madd mmul None large_ledger =
  match m_collect_step sample_lib ord madd mmul 8 large_asserted (large_state ord) with CRun c => validate ord c | CPanic w => BookPanic w end.
Proof.
  intros Hord HM E0. assert (collect_loop sample_lib ord 0 large_posted (CSt (acc_new LStrict) [] []) = CRun (large_state ord)) as E.
  { unfold large_state. by destruct (collect_loop _ _ _ _ _). }
  unfold m_book, large_ledger. rewrite m_collect_loop_app, m_unasserted by done. change (default_booking_option sample_lib None) with LStrict. rewrite E.
  change (length large_posted + 0) with 8. cbn [m_collect_loop]. by destruct (m_collect_step _ _ _ _ _ _ _).
Qed.

(** Amounts which can be represented, as can their sum: whether the ledger books or the
    server panics depends on the order in which a hash map visits the accounts. *)
Theorem C111_large_refuted : ∃ ds bs,
  (∀ d t p u, d ∈ ds → d_variant d = DTransaction t → p ∈ tx_postings t → ps_units p = Some u → representable u) ∧
  book sample_lib sample_ord None ds = BookSuccess bs [] ∧ book sample_lib reverse_ord None ds = BookSuccess bs [] ∧
  ∀ madd mmul, machine_ok madd mmul →
    m_book sample_lib sample_ord madd mmul None ds = BookSuccess bs [] ∧
    m_book sample_lib reverse_ord madd mmul None ds = BookPanic "Addition overflowed".
Proof.
  exists large_ledger, (booked_or_nil (sample_run large_ledger)). split.
  { assert (forallb (λ d, match d_variant d with DTransaction t => forallb (λ p, match ps_units p with Some u => representableb u | None => true end) (tx_postings t) | _ => true end) large_ledger = true) as H by by vm_compute.
    rewrite forallb_forall in H. intros d t p u Hd Ht Hp Hu. specialize (H d ltac:(by apply elem_of_list_In)). cbn beta in H. rewrite Ht, forallb_forall in H.
    specialize (H p ltac:(by apply elem_of_list_In)). rewrite Hu in H. by apply representableb_iff. }
  split; [by vm_compute|]. split; [by vm_compute|]. intros madd mmul HM. split.
  - rewrite (large_split madd mmul sample_ord sample_ord_perm HM) by by vm_compute.
    assert (m_collect_step sample_lib sample_ord madd mmul 8 large_asserted (large_state sample_ord) = collect_step sample_lib sample_ord 8 large_asserted (large_state sample_ord)) as ->; [|by vm_compute].
    unfold m_collect_step, m_directive_dct. cbn [d_variant large_asserted dir dbal].
    assert (∀ b e bds, b = Balance "Assets" (Dec large 0) "USD" None → m_balance_dct sample_lib sample_ord madd mmul (c_acc (large_state sample_ord)) b e bds = balance_dct sample_lib sample_ord (c_acc (large_state sample_ord)) b e bds) as Hb.
    { intros b e bds ->. unfold m_balance_dct. change (m_tolerance sample_lib mmul (Balance "Assets" (Dec large 0) "USD" None)) with (Some dec_zero). cbn [bal_acc bal_cur bal_units].
      assert (m_rollup sample_lib sample_ord madd (c_acc (large_state sample_ord)) "Assets" "USD" = Some (Dec large 0)) as ->.
      { unfold m_rollup. assert (∀ l, l = [Dec 0 0; Dec (- large) 0; Dec large 0; Dec large 0] → msum_from madd dec_zero l = Some (Dec large 0)) as Hl.
        { intros l ->. cbn [msum_from]. do 4 (rewrite (mo_add _ _ HM) by (apply representableb_iff; by vm_compute)). by vm_compute. }
        apply Hl. by vm_compute. }
      unfold m_margin, msub. rewrite (mo_add _ _ HM) by (apply representableb_iff; by vm_compute). by rewrite balance_rest_eq. }
    unfold collect_step, directive_dct. cbn [d_variant large_asserted dir dbal]. rewrite Hb by done.
    destruct (balance_dct sample_lib sample_ord (c_acc (large_state sample_ord)) (Balance "Assets" (Dec large 0) "USD" None) (eidx_of_nat 8) (c_booked (large_state sample_ord))) as [[s1 b1] [v|er|w]] eqn:Eb; [|done..].
    assert (v = BVBalance (BBalance (Balance "Assets" (Dec large 0) "USD" None) None None)) as ->; [|done].
    apply (f_equal snd) in Eb. cbn [snd] in Eb. vm_compute in Eb. by injection Eb as <-.
  - rewrite (large_split madd mmul reverse_ord reverse_ord_perm HM) by by vm_compute.
    assert (m_collect_step sample_lib reverse_ord madd mmul 8 large_asserted (large_state reverse_ord) = CPanic "Addition overflowed") as ->; [|done].
    unfold m_collect_step, m_directive_dct. cbn [d_variant large_asserted dir dbal]. unfold m_balance_dct.
    change (m_tolerance sample_lib mmul (Balance "Assets" (Dec large 0) "USD" None)) with (Some dec_zero). cbn [bal_acc bal_cur bal_units].
    assert (m_rollup sample_lib reverse_ord madd (c_acc (large_state reverse_ord)) "Assets" "USD" = None) as ->; [|done].
    unfold m_rollup. assert (∀ l, l = [Dec large 0; Dec large 0; Dec (- large) 0; Dec 0 0] → msum_from madd dec_zero l = None) as Hl.
    { intros l ->. cbn [msum_from]. rewrite (mo_add _ _ HM) by (apply representableb_iff; by vm_compute). rewrite (mo_over _ _ HM); [done|]. by vm_compute. }
    apply Hl. by vm_compute.
Qed.
Print Assumptions C111_large_refuted.
