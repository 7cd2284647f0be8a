(** What the ledger vocabulary of [BookSpec.v] means, in terms of which open,
    close, pad and balance directives occur where. *)
From Coq Require Import Ascii QArith Qabs.
From stdpp Require Import prelude gmap strings.
From Verif Require Import DecModel LedgerTypes BookModel BookSpec BookLife BookPend ReportSpec BookLocate ReportFacts.
Local Open Scope nat_scope.

(** ** Account names *)

Lemma prefix_spec p s : String.prefix p s = true ↔ ∃ rest, s = p +:+ rest.
Proof.
  revert s. induction p as [|a p IH]; intros s; cbn.
  - replace (String.prefix "" s) with true by (by destruct s). split; [intros _; by exists s|done].
  - destruct s as [|b s]; cbn; [split; [done|by intros [r Hr]]|].
    destruct (ascii_dec a b) as [->|Hne].
    + rewrite IH. split; intros [r Hr]; exists r; [by rewrite Hr|by injection Hr].
    + split; [done|]. intros [r Hr]. injection Hr as -> _. done.
Qed.

Lemma app_assoc_str (a b c : string) : (a +:+ b) +:+ c = a +:+ (b +:+ c).
Proof. induction a as [|x a IH]; [done|]. change (String x ((a +:+ b) +:+ c) = String x (a +:+ (b +:+ c))). by rewrite IH. Qed.

Lemma under_meaning base name :
  under base name = true ↔ name = base ∨ ∃ rest, name = base +:+ ":" +:+ rest.
Proof.
  unfold under. rewrite orb_true_iff, String.eqb_eq, prefix_spec.
  by setoid_rewrite app_assoc_str.
Qed.

(** ** Life of an account *)

(** The account was first opened at [i], and first closed after that at [c]. *)
Definition closed_first (ds : list directive) (a : string) (i c : nat) : Prop :=
  (∃ o, first_open ds a i o) ∧ i < c ∧ closes_at ds c a ∧ ∀ j, i < j → j < c → ¬ closes_at ds j a.

Definition life_means (ds : list directive) (a : string) (st : lifecycle) : Prop :=
  match st with
  | Unopened => ∀ i o, ¬ opens_at ds i a o
  | OpenSince i => (∃ o, first_open ds a i o) ∧ ∀ j, i < j → ¬ closes_at ds j a
  | ClosedAt c => (∃ i, closed_first ds a i c) ∧ ∀ j o, c < j → ¬ opens_at ds j a o
  | Reopened c i => (∃ i0, closed_first ds a i0 c) ∧ c < i ∧ (∃ o, opens_at ds i a o) ∧
      ∀ j o, c < j → j < i → ¬ opens_at ds j a o
  end.

Lemma opens_at_snoc ds d i a o :
  opens_at (ds ++ [d]) i a o ↔ opens_at ds i a o ∨ (i = length ds ∧ d_variant d = DOpen o ∧ op_acc o = a).
Proof.
  split.
  - intros (x & Hx & Hv & Ha). apply lookup_app_Some in Hx as [Hx|[Hle Hx]]; [left; by eexists|].
    right. apply list_lookup_singleton_Some in Hx as [H0 ->]. split; [lia|done].
  - intros [(x & Hx & Hv & Ha)|(-> & Hv & Ha)].
    + exists x. split; [by apply lookup_app_l_Some|done].
    + exists d. split; [by rewrite lookup_app_r, Nat.sub_diag by done|done].
Qed.
Lemma closes_at_snoc ds d i a :
  closes_at (ds ++ [d]) i a ↔ closes_at ds i a ∨ (i = length ds ∧ d_variant d = DClose a).
Proof.
  split.
  - intros (x & Hx & Hv). apply lookup_app_Some in Hx as [Hx|[Hle Hx]]; [left; by eexists|].
    right. apply list_lookup_singleton_Some in Hx as [H0 ->]. split; [lia|done].
  - intros [(x & Hx & Hv)|(-> & Hv)].
    + exists x. split; [by apply lookup_app_l_Some|done].
    + exists d. split; [by rewrite lookup_app_r, Nat.sub_diag by done|done].
Qed.
Lemma opens_at_lt ds i a o : opens_at ds i a o → i < length ds.
Proof. intros (d & Hd & _). by eapply lookup_lt_Some. Qed.
Lemma closes_at_lt ds i a : closes_at ds i a → i < length ds.
Proof. intros (d & Hd & _). by eapply lookup_lt_Some. Qed.

Lemma first_open_snoc ds d a i o : first_open ds a i o → first_open (ds ++ [d]) a i o.
Proof. apply first_open_app. Qed.

Lemma closed_first_snoc ds d a i c : closed_first ds a i c → closed_first (ds ++ [d]) a i c.
Proof.
  intros ((o & Ho) & Hlt & Hc & Hn). pose proof (closes_at_lt _ _ _ Hc).
  split; [by exists o; apply first_open_snoc|].
  split; [done|]. split; [rewrite closes_at_snoc; by left|].
  intros j H1 H2. rewrite closes_at_snoc. intros [Hj|[-> _]]; [by eapply Hn|lia].
Qed.

Lemma life_meaning ds a : life_means ds a (life ds a).
Proof.
  induction ds as [|d ds IH] using rev_ind; [intros i o (d & Hd & _); done|].
  rewrite life_snoc. unfold life_step.
  assert (Hkeep : (∀ o, d_variant d = DOpen o → op_acc o ≠ a) → d_variant d ≠ DClose a →
            life_means (ds ++ [d]) a (life ds a)).
  { intros Ho Hc. 
    assert (HO : ∀ i o, opens_at (ds ++ [d]) i a o → opens_at ds i a o).
    { intros i o. rewrite opens_at_snoc. intros [H|(-> & H & H')]; [done|by destruct (Ho _ H)]. }
    assert (HC : ∀ i, closes_at (ds ++ [d]) i a → closes_at ds i a).
    { intros i. rewrite closes_at_snoc. intros [H|(-> & H)]; [done|by destruct Hc]. }
    destruct (life ds a) as [|i|c|c i]; cbn [life_means] in *.
    - intros i o H. by eapply IH, HO.
    - destruct IH as [(o & H1) H2]. split; [by exists o; apply first_open_snoc|].
      intros j Hj H. by eapply H2, HC.
    - destruct IH as [(i & H1) H2]. split; [by exists i; apply closed_first_snoc|].
      intros j o Hj H. by eapply H2, HO.
    - destruct IH as ((i0 & H1) & H2 & (o & H3) & H4). split; [by exists i0; apply closed_first_snoc|].
      split; [done|]. split; [exists o; rewrite opens_at_snoc; by left|].
      intros j o' Hj Hj' H. by eapply H4, HO. }
  destruct (d_variant d) as [| | |o|b| | | | | | |] eqn:Hv;
    try (apply Hkeep; intros; discriminate).
  - destruct (String.eqb_spec (op_acc o) a) as [Ha|Ha]; [|apply Hkeep; intros; congruence].
    clear Hkeep. assert (HC : ∀ i, closes_at (ds ++ [d]) i a → closes_at ds i a).
    { intros i. rewrite closes_at_snoc. intros [H|(-> & H)]; [done|congruence]. }
    destruct (life ds a) as [|i|c|c i]; cbn [life_means] in *.
    + split.
      * exists o. split; [rewrite opens_at_snoc; by right|].
        intros j o'. rewrite opens_at_snoc. intros [H|(-> & _)]; [by destruct (IH _ _ H)|done].
      * intros j Hj H%HC. apply closes_at_lt in H. lia.
    + destruct IH as [(o' & H1) H2]. split; [by exists o'; apply first_open_snoc|].
      intros j Hj H. by eapply H2, HC.
    + destruct IH as [(i & H1) H2]. split; [by exists i; apply closed_first_snoc|].
      split; [destruct H1 as (_ & _ & H1 & _); by apply closes_at_lt in H1|].
      split; [exists o; rewrite opens_at_snoc; by right|].
      intros j o' Hj Hlt. rewrite opens_at_snoc. intros [H|(-> & _)]; [by eapply H2|lia].
    + destruct IH as ((i0 & H1) & H2 & (o' & H3) & H4). split; [by exists i0; apply closed_first_snoc|].
      split; [done|]. split; [exists o'; rewrite opens_at_snoc; by left|].
      intros j o'' Hj Hj'. rewrite opens_at_snoc. intros [H|(-> & _)]; [by eapply H4|].
      apply opens_at_lt in H3. lia.
  - destruct (String.eqb_spec b a) as [->|Ha]; [|apply Hkeep; intros; congruence].
    clear Hkeep. assert (HO : ∀ i o, opens_at (ds ++ [d]) i a o → opens_at ds i a o).
    { intros i o. rewrite opens_at_snoc. intros [H|(-> & H & H')]; [done|congruence]. }
    destruct (life ds a) as [|i|c|c i]; cbn [life_means] in *.
    + intros i o H. by eapply IH, HO.
    + destruct IH as [(o & H1) H2]. split.
      * exists i. split; [by exists o; apply first_open_snoc|].
        split; [destruct H1 as [H1 _]; by apply opens_at_lt in H1|].
        split; [rewrite closes_at_snoc; by right|].
        intros j Hj Hlt. rewrite closes_at_snoc. intros [H|(-> & _)]; [by eapply H2|lia].
      * intros j o' Hj H%HO. apply opens_at_lt in H. lia.
    + destruct IH as [(i & H1) H2]. split; [by exists i; apply closed_first_snoc|].
      intros j o Hj H. by eapply H2, HO.
    + destruct IH as ((i0 & H1) & H2 & (o & H3) & H4). split; [by exists i0; apply closed_first_snoc|].
      split; [done|]. split; [exists o; rewrite opens_at_snoc; by left|].
      intros j o' Hj Hj' H. by eapply H4, HO.
Qed.

Lemma first_open_fun ds a i o i' o' : first_open ds a i o → first_open ds a i' o' → i = i'.
Proof. intros H H'. by destruct (first_open_unique _ _ _ _ _ _ H H'). Qed.

Lemma closed_first_fun ds a i c i' c' : closed_first ds a i c → closed_first ds a i' c' → c = c'.
Proof.
  intros ((o & Ho) & H1 & H2 & H3) ((o' & Ho') & H1' & H2' & H3').
  pose proof (first_open_fun _ _ _ _ _ _ Ho Ho') as <-.
  destruct (lt_eq_lt_dec c c') as [[Hlt|He]|Hlt]; [|done|].
  - by destruct (H3' c).
  - by destruct (H3 c').
Qed.

(** Each state is the only one with its meaning. *)
Lemma life_iff ds a st : life ds a = st ↔ life_means ds a st.
Proof.
  split; [intros <-; apply life_meaning|]. pose proof (life_meaning ds a) as Hm.
  intros Hst. destruct (life ds a) as [|i|c|c i], st as [|i'|c'|c' i']; cbn in *; try done.
  - destruct Hst as [(o & Ho & _) _]. by destruct (Hm _ _ Ho).
  - destruct Hst as [(i & (o & Ho & _) & _) _]. by destruct (Hm _ _ Ho).
  - destruct Hst as [(i & (o & Ho & _) & _) _]. by destruct (Hm _ _ Ho).
  - destruct Hm as [(o & Ho & _) _]. by destruct (Hst _ _ Ho).
  - destruct Hm as [(o & Ho) _], Hst as [(o' & Ho') _]. by rewrite (first_open_fun _ _ _ _ _ _ Ho Ho').
  - destruct Hm as [(o & Ho) Hn], Hst as [(i0 & (o' & Ho') & H1 & H2 & _) _].
    pose proof (first_open_fun _ _ _ _ _ _ Ho Ho') as <-. by destruct (Hn c').
  - destruct Hm as [(o & Ho) Hn], Hst as [(i0 & (o' & Ho') & H1 & H2 & _) _].
    pose proof (first_open_fun _ _ _ _ _ _ Ho Ho') as <-. by destruct (Hn c').
  - destruct Hm as [(i & (o & Ho & _) & _) _]. by destruct (Hst _ _ Ho).
  - destruct Hst as [(o & Ho) Hn], Hm as [(i0 & (o' & Ho') & H1 & H2 & _) _].
    pose proof (first_open_fun _ _ _ _ _ _ Ho Ho') as <-. by destruct (Hn c).
  - destruct Hm as [(i & Hc) _], Hst as [(i2 & Hc') _]. by rewrite (closed_first_fun _ _ _ _ _ _ Hc Hc').
  - destruct Hm as [(i & Hc) Hn], Hst as ((i2 & Hc') & Hlt & (o & Ho) & _).
    rewrite <- (closed_first_fun _ _ _ _ _ _ Hc Hc') in Hlt. by destruct (Hn i' o).
  - destruct Hm as [(i0 & (o & Ho & _) & _) _]. by destruct (Hst _ _ Ho).
  - destruct Hst as [(o & Ho) Hn], Hm as [(i0 & (o' & Ho') & H1 & H2 & _) _].
    pose proof (first_open_fun _ _ _ _ _ _ Ho Ho') as <-. by destruct (Hn c).
  - destruct Hst as [(i0 & Hc) Hn], Hm as ((i2 & Hc') & Hlt & (o & Ho) & _).
    rewrite <- (closed_first_fun _ _ _ _ _ _ Hc Hc') in Hlt. by destruct (Hn i o).
  - destruct Hm as ((i0 & Hc) & H1 & (o & Ho) & Hn), Hst as ((i2 & Hc') & H1' & (o' & Ho') & Hn').
    pose proof (closed_first_fun _ _ _ _ _ _ Hc Hc') as <-. f_equal.
    destruct (lt_eq_lt_dec i i') as [[Hlt|He]|Hlt]; [|done|].
    + by destruct (Hn' i o).
    + by destruct (Hn i' o').
Qed.

(** ** Opening directive *)
Lemma find_open_spec n ds a i o :
  find_open n ds a = Some (i, o) ↔ ∃ j, i = n + j ∧ first_open ds a j o.
Proof.
  revert n. induction ds as [|d ds IH]; intros n; cbn.
  - split; [done|]. intros (j & _ & (x & Hx & _) & _). done.
  - assert (Hrec : (∀ o, d_variant d = DOpen o → op_acc o ≠ a) →
      find_open (S n) ds a = Some (i, o) ↔ ∃ j, i = n + j ∧ first_open (d :: ds) a j o).
    { intros Hno. rewrite IH. split.
      - intros (j & -> & (x & Hx & Hv & Ha) & Hmin). exists (S j). split; [lia|]. split; [by exists x|].
        intros [|j'] o' (y & Hy & Hyv & Hya); [injection Hy as ->; by destruct (Hno _ Hyv)|].
        assert (j <= j'); [|lia]. eapply Hmin. by exists y.
      - intros ([|j] & -> & (x & Hx & Hv & Ha) & Hmin); [injection Hx as ->; by destruct (Hno _ Hv)|].
        exists j. split; [lia|]. split; [by exists x|].
        intros j' o' (y & Hy & Hyv & Hya). assert (S j <= S j'); [|lia]. eapply Hmin. by exists y. }
    destruct (d_variant d) as [| | |o0| | | | | | | |] eqn:Hv; try (apply Hrec; intros; discriminate).
    destruct (String.eqb_spec (op_acc o0) a) as [Ha|Ha]; [|apply Hrec; intros; congruence].
    split.
    + intros [= <- <-]. exists 0. split; [lia|]. split; [by exists d|]. intros; lia.
    + intros (j & -> & (x & Hx & Hxv & Hxa) & Hmin).
      assert (j <= 0) as H0; [by eapply Hmin; exists d|].
      assert (j = 0) as -> by lia. injection Hx as <-. rewrite Hv in Hxv. injection Hxv as ->.
      by rewrite Nat.add_0_r.
Qed.

Lemma opening_iff ds a i o : opening ds a = Some (i, o) ↔ first_open ds a i o.
Proof.
  unfold opening. rewrite find_open_spec. split; [by intros (j & -> & H)|intros H; by exists i].
Qed.

Lemma allowsb_iff o cur : allowsb o cur = true ↔ allows o cur.
Proof.
  unfold allowsb, allows. destruct (op_currencies o) as [cs|]; [|done].
  by rewrite orb_true_iff, !bool_decide_eq_true.
Qed.

(** ** Pending pads *)

(** A pad on [a] is accepted at [k]: the account is usable, and no pad is pending
    on it. *)
Definition pad_accepted_at (ds : list directive) (a : string) (k : nat) : Prop :=
  ∃ d p, ds !! k = Some d ∧ d_variant d = DPad p ∧ pad_acc p = a ∧
    usable (life (take k ds) a) = true ∧ pending (take k ds) a = None.

(** The pending pad is the one accepted whose wait no directive has ended. *)
Lemma pending_iff ds a k :
  pending ds a = Some k ↔
  pad_accepted_at ds a k ∧ ∀ j, k < j → ¬ ends_wait ds a j.
Proof.
  split.
  - revert k. induction ds as [|d ds IH] using rev_ind; [done|]. intros k Hp.
    split; [by apply pending_is_pad|].
    intros j Hj. destruct (decide (pending ds a = Some k)) as [Hk|Hk].
    + destruct (IH _ Hk) as [_ Hn]. intros Hew.
      destruct (decide (j < length ds)) as [Hlt|Hge].
      * apply (Hn j Hj). apply (ends_wait_take (ds ++ [d]) a j (length ds)) in Hew; [|done].
        by rewrite take_app in Hew.
      * assert (j = length ds) as ->.
        { destruct Hew as (x & Hx & _). apply lookup_lt_Some in Hx. rewrite app_length in Hx. cbn in Hx. lia. }
        revert Hp. rewrite pending_snoc. unfold pend_step.
        destruct Hew as (x & Hx & Hu & Hv). rewrite lookup_app_r, Nat.sub_diag in Hx by done.
        injection Hx as <-. rewrite take_app in Hu, Hv. 
        destruct Hv as [(p & Hv & <-)|(b & Hv & <- & Hc)]; rewrite Hv, String.eqb_refl, Hu; cbn.
        -- by rewrite Hk.
        -- by rewrite Hc.
    + assert (k = length ds) as ->.
      { revert Hp. rewrite pending_snoc. unfold pend_step.
        destruct (d_variant d) as [| |b| | | |p| | | | |]; try done.
        - by destruct (_ && _ && _).
        - destruct (_ && _); [|done]. destruct (pending ds a); [done|by intros [= <-]]. }
      intros (x & Hx & _). apply lookup_lt_Some in Hx. rewrite app_length in Hx. cbn in Hx. lia.
  - intros [(d & p & Hd & Hv & Ha & Hu & Hp) Hn].
    pose proof (lookup_lt_Some _ _ _ Hd) as Hlt.
    assert (Hk : pending (take (S k) ds) a = Some k).
    { rewrite (take_snoc _ _ _ Hd), pending_snoc. unfold pend_step. rewrite take_length_le by lia.
      by rewrite Hv, Ha, String.eqb_refl, Hu, Hp. }
    rewrite <- (firstn_all ds). apply (pending_stays ds a k (S k) (length ds)); [lia|done|done|].
    intros j Hj _. by apply Hn.
Qed.
