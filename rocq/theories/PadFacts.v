(** Each balance fills at most one pad. *)
From Coq Require Import Ascii QArith Qabs.
From stdpp Require Import prelude gmap strings.
From Verif Require Import DecModel LedgerTypes BookModel BookSpec BookLib ReportSpec
  BookSteps BookInv BookWf BookLife BookUnits BookPend BookSuccess BookPads BookFacts BookReports.
Local Open Scope nat_scope.

(** Between two pads on one account there is a balance on it. *)
Definition pads_apart (bs : list bdirective) : Prop :=
  ∀ k k' b b' p p', bs !! k = Some b → b_variant b = BVPad p → bs !! k' = Some b' → b_variant b' = BVPad p' →
    pad_acc p = pad_acc p' → k < k' →
    ∃ j x, k < j ∧ j < k' ∧ bs !! j = Some x ∧ balances_on (pad_acc p) x = true.

Lemma pads_apart_app bs l :
  pads_apart bs → (∀ b p, b ∈ l → b_variant b ≠ BVPad p) → pads_apart (bs ++ l).
Proof.
  intros H Hl k k' b b' p p' Hk Hv Hk' Hv' Ha Hlt.
  apply lookup_app_Some in Hk as [Hk|[_ Hk]]; [|exfalso; by apply elem_of_list_lookup_2, (Hl _ p) in Hk].
  apply lookup_app_Some in Hk' as [Hk'|[_ Hk']]; [|exfalso; by apply elem_of_list_lookup_2, (Hl _ p') in Hk'].
  destruct (H k k' b b' p p') as (j & x & H1 & H2 & H3 & H4); try done.
  exists j, x. split_and!; try done. by apply lookup_app_l_Some.
Qed.

Lemma pads_apart_insert bs i x y tx ty :
  bs !! i = Some x → b_variant x = BVTransaction tx → b_variant y = BVTransaction ty →
  pads_apart bs → pads_apart (<[i := y]> bs).
Proof.
  intros Hi Hx Hy H k k' b b' p p' Hk Hv Hk' Hv' Ha Hlt.
  apply list_lookup_insert_Some in Hk as [(_ & <- & _)|[_ Hk]]; [congruence|].
  apply list_lookup_insert_Some in Hk' as [(_ & <- & _)|[_ Hk']]; [congruence|].
  destruct (H k k' b b' p p') as (j & z & H1 & H2 & H3 & H4); try done.
  exists j, z. split_and!; try done. rewrite list_lookup_insert_ne; [done|].
  intros ->. rewrite Hi in H3. injection H3 as <-. unfold balances_on in H4. by rewrite Hx in H4.
Qed.

Section Pads.
Context {P : Type} (L : booking_lib P).
Context (ord : gmap string (account P) → list (string * account P)).
Notation run := (run L ord).
Notation book := (book L ord).

Lemma pads_apart_run opt ds c : run opt ds = CRun c → c_errors c = [] → pads_apart (c_booked c).
Proof.
  revert ds c. apply (run_ind L ord opt (λ ds c, c_errors c = [] → pads_apart (c_booked c))).
  { intros _ k k' b b' p p' Hk. done. }
  intros ds d c c' Hrun IH Hs He. apply collect_step_rel in Hs.
  pose proof (step_errors_prefix _ _ _ _ _ _ Hs) as Hpre. rewrite He in Hpre. apply prefix_nil_inv in Hpre.
  specialize (IH Hpre). pose proof (pads_run L ord _ _ _ Hrun Hpre) as Hpads.
  step_cases Hs; cbn in He |- *; try (by apply snoc_not_nil in He).
  - apply pads_apart_app; [done|]. intros b p ->%elem_of_list_singleton. cbn. intros ->. by destruct (d_variant d).
  - apply pads_apart_app; [done|]. by intros b p ->%elem_of_list_singleton.
  - apply pads_apart_app; [done|]. by intros b p ->%elem_of_list_singleton.
  - apply pads_apart_app; [done|]. by intros b p ->%elem_of_list_singleton.
  - intros k k' b b' p p' Hk Hbv Hk' Hbv' Hacc Hlt.
    assert (Hkk : c_booked c !! k = Some b).
    { apply lookup_app_Some in Hk as [Hk|[Hle Hk]]; [done|].
      destruct (k - length (c_booked c)) as [|[|n]] eqn:En; cbn in Hk; [|by injection Hk as <-|done].
      apply lookup_app_Some in Hk' as [Hk'|[Hle' Hk']]; [apply lookup_lt_Some in Hk'; lia|].
      destruct (k' - length (c_booked c)) as [|[|n']] eqn:En'; cbn in Hk'; [lia|by injection Hk' as <-|done]. }
    apply lookup_app_Some in Hk' as [Hk'|[Hle' Hk']].
    { destruct (IH k k' b b' p p') as (j & x & H1 & H2 & H3 & H4); try done.
      exists j, x. split_and!; try done. by apply lookup_app_l_Some. }
    destruct (k' - length (c_booked c)) as [|[|n']] eqn:En'; cbn in Hk'; [|by injection Hk' as <-|done].
    injection Hk' as <-. cbn in Hbv'. injection Hbv' as <-.
    destruct (Hpads k b p Hkk Hbv) as [(x & u & Hx & Hpx & _)|(j & m & bal & Hf)].
    { rewrite Hacc, Ha in Hx. injection Hx as <-. congruence. }
    destruct Hf as (Hkj & Hba & _ & (bj & bb & Hbj & Hvj & Hraw) & _).
    exists j, bj. pose proof (lookup_lt_Some _ _ _ Hbj).
    split_and!; [done|lia|by apply lookup_app_l_Some|]. unfold balances_on. rewrite Hvj, Hraw, Hba.
    apply String.eqb_refl.
  - apply pads_apart_app; [done|]. by intros b p ->%elem_of_list_singleton.
  - apply pads_apart_app; [|by intros b p ->%elem_of_list_singleton].
    by eapply pads_apart_insert.
Qed.

Lemma fills_unique opt ds bs ws n k k' p p' m m' bal :
  book opt ds = BookSuccess bs ws → fills bs k n p m bal → fills bs k' n p' m' bal → k = k' ∧ p = p' ∧ m = m'.
Proof.
  intros (c & Hr & He & <- & _)%book_success_run Hf Hf'.
  pose proof (pads_apart_run _ _ _ Hr He) as Hap.
  assert (k = k') as <-.
  { destruct Hf as (H1 & H2 & (b & Hb & Hv) & _ & H3 & _), Hf' as (H1' & H2' & (b' & Hb' & Hv') & _ & H3' & _).
    destruct (lt_eq_lt_dec k k') as [[Hlt|Heq]|Hlt]; [|done|].
    - destruct (Hap k k' b b' p p') as (j & x & Hj & Hj' & Hx & Hbal); [done..|congruence|done|].
      rewrite (H3 j x) in Hbal; [done|lia|lia|done].
    - destruct (Hap k' k b' b p' p) as (j & x & Hj & Hj' & Hx & Hbal); [done..|congruence|done|].
      rewrite (H3' j x) in Hbal; [done|lia|lia|done]. }
  destruct Hf as (_ & _ & (b & Hb & Hv) & _ & _ & t & Ht & Htv), Hf' as (_ & _ & (b' & Hb' & Hv') & _ & _ & t' & Ht' & Htv').
  split; [done|]. split; congruence.
Qed.

Context (Hord : ∀ m, ord m ≡ₚ map_to_list m) (Hlib : lib_ok L).

Lemma pad_exact opt ds bs ws n k p m b bb :
  book opt ds = BookSuccess bs ws → bs !! n = Some b → b_variant b = BVBalance bb →
  fills bs k n p m (bb_raw bb) → under (bal_acc (bb_raw bb)) (pad_source p) = false →
  (posted (in_subtree (bal_acc (bb_raw bb)) (bal_cur (bb_raw bb))) (visible bs n) ==
   dec_value (bal_units (bb_raw bb)))%Q.
Proof.
  intros Hb Hn Hv Hf Hu.
  destruct (success_holds_at L ord Hord Hlib opt ds bs ws n b bb Hb Hn Hv) as [[Hno _]|(k' & p' & m' & Hf' & Hx)].
  - by destruct (Hno k p m).
  - destruct (fills_unique _ _ _ _ _ _ _ _ _ _ _ _ Hb Hf Hf') as (<- & <- & <-). by rewrite Hu in Hx.
Qed.

End Pads.
