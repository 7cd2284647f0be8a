(** Booking a ledger from which directives have been left out, beside booking it. *)
From Coq Require Import Ascii QArith.
From stdpp Require Import prelude gmap strings pretty.
From Verif Require Import DecModel DecProofs LedgerTypes BookModel BookSpec BookLib BookSteps BookInv BookUnits BookFacts SplitSpec SplitFacts LeaveSpec.
Local Open Scope nat_scope.

Section Leave.
Context {P : Type} (L : booking_lib P) (HL : lib_ok L) (Hloc : lib_local L).
Context (ord : gmap string (account P) → list (string * account P)) (Hord : ∀ m, ord m ≡ₚ map_to_list m).
Context (gone : nat → bool) (full : list directive).
Let mine (_ : string) : bool := true.
Let kept (i : nat) : bool := negb (gone i).
Let opened (_ : string) : Prop := True.
Local Notation part := (SplitFacts.part (P:=P) mine kept).
Local Notation sound := (SplitFacts.sound (P:=P) mine kept opened).

(** ** Where pads wait *)
Definition waits (i : nat) (s : accst P) : Prop := ∀ n x, s_accounts s !! n = Some x → a_pad x ≠ None → pad_waits full i n.
Lemma pad_waits_next i d n : full !! i = Some d → pad_waits full i n → (∀ b, d_variant d = DBalance b → bal_acc b ≠ n) → pad_waits full (S i) n.
Proof.
  intros Hd (j&dp&p&Hj&Hp&Hv&Ha&Hno) Hb. exists j, dp, p. split_and!; [lia|done..|]. intros k d' b Hk1 Hk2 Hk Hv'.
  destruct (decide (k = i)) as [->|Hne]; [|eapply Hno; [done| |done|done]; lia]. rewrite Hd in Hk. injection Hk as <-. by apply Hb.
Qed.
Lemma pad_waits_now i d p : full !! i = Some d → d_variant d = DPad p → pad_waits full (S i) (pad_acc p).
Proof. intros Hd Hv. exists i, d, p. split_and!; [lia|done..|]. intros k d' b Hk1 Hk2. lia. Qed.
Lemma good_step_rel i d s bds s1 b1 : good_step L ord i d s bds = Some (s1, b1) → step_rel L ord i d (CSt s [] bds) (CSt s1 [] b1).
Proof.
  intros Hg. pose proof (good_step_ok L ord i d s bds) as H. destruct (collect_step L ord i d (CSt s [] bds)) as [c|] eqn:E; rewrite Hg in H; [|done].
  destruct c as [s2 es b2]. cbn in H. destruct es; [|done]. injection H as <- <-. by apply collect_step_rel.
Qed.
Lemma waits_step i d s bds s1 b1 : full !! i = Some d → waits i s → good_step L ord i d s bds = Some (s1, b1) → waits (S i) s1.
Proof.
  intros Hd Hw Hg%good_step_rel n x Hx Hp.
  assert (∀ x0, s_accounts s !! n = Some x0 → a_pad x0 ≠ None → (∀ b, d_variant d = DBalance b → bal_acc b ≠ n) → pad_waits full (S i) n) as Hold.
  { intros x0 H0 H1 H2. eapply pad_waits_next; [done|by eapply Hw|done]. }
  assert (∀ b, d_variant d = DBalance b → ∀ y (m : gmap string (account P)), a_pad y = None → m !! n = Some x → m = <[bal_acc b := y]> (s_accounts s) → pad_waits full (S i) n) as Hbal.
  { intros b Hv y m Hy Hm ->. destruct (decide (bal_acc b = n)) as [E|Hne].
    - rewrite E, lookup_insert in Hm. by injection Hm as <-.
    - rewrite lookup_insert_ne in Hm by done. apply (Hold x); [done|done|]. intros b' E. rewrite Hv in E. by injection E as <-. }
  inversion Hg; subst; cbn [c_acc c_errors c_booked app] in *; try discriminate; cbn [s_accounts put_account set_accounts] in Hx.
  - apply (Hold x); [done|done|]. intros b E. rewrite E in *. done.
  - match goal with H : book_txn _ _ _ _ _ = _ |- _ => apply book_txn_only in H as (_&_&_&_&Ho) end. specialize (Ho n).
    rewrite Hx in Ho. destruct (s_accounts s !! n) as [y|] eqn:Ey; [|done]. destruct Ho as [q ->]. apply (Hold y); [done|done|]. intros b E'. congruence.
  - destruct (decide (op_acc o = n)) as [<-|Hne]; [rewrite lookup_insert in Hx; by injection Hx as <-|]. rewrite lookup_insert_ne in Hx by done.
    apply (Hold x); [done|done|]. intros b E'. congruence.
  - apply (Hold x); [done|done|]. intros b E'. congruence.
  - destruct (decide (pad_acc p = n)) as [<-|Hne]; [by eapply pad_waits_now|]. rewrite lookup_insert_ne in Hx by done. apply (Hold x); [done|done|]. intros b E'. congruence.
  - eapply Hbal; [done| |exact Hx|reflexivity]. done.
  - destruct (decide (pad_source p = n)) as [E|Hne].
    + subst n. rewrite lookup_insert in Hx. injection Hx as <-. cbn in Hp.
      match goal with H : s_accounts (put_account _ _ _) !! pad_source p = Some pa |- _ => cbn [s_accounts put_account set_accounts] in H; rename H into Hpa end.
      destruct (decide (bal_acc b = pad_source p)) as [E|Hne].
      * rewrite E, lookup_insert in Hpa. by injection Hpa as <-.
      * rewrite lookup_insert_ne in Hpa by done. apply (Hold pa); [done|done|]. intros b' E'. congruence.
    + rewrite lookup_insert_ne in Hx by done. eapply (Hbal _ ltac:(done) (adjust_account_to_match_balance L (set_pad (set_window a _) None) _ _ _)); [done|exact Hx|reflexivity].
Qed.

(** ** One directive *)
Lemma kept_step i i' d s bds s' bds' : part s bds s' bds' → sound s bds → gone i = false →
  matched mine kept opened (good_step L ord i d s bds) (good_step L ord i' d s' bds').
Proof using HL Hloc Hord.
  intros Hp Hs Hi. apply (split_step L HL Hloc ord Hord mine kept opened); try done.
  - unfold about, mine. destruct (d_variant d); try done. by apply Forall_true.
  - unfold kept. by rewrite Hi.
Qed.
Lemma left_one i d v (s : accst P) bds s' bds' : part s bds s' bds' → sound s bds → gone i = true →
  part s (bds ++ [booked_of i d v]) s' bds' ∧ sound s (bds ++ [booked_of i d v]).
Proof.
  intros Hp Hs Hi. split; [|by apply sound_book]. rewrite <- (app_nil_r bds'). apply part_book with (opened := opened); [done..|].
  rewrite filter_cons_False; [done|]. cbn. unfold kept. by rewrite Hi.
Qed.
Lemma comment_step i d s bds s' bds' : part s bds s' bds' → sound s bds → gone i = true → comment_only d →
  ∃ s1 b1, good_step L ord i d s bds = Some (s1, b1) ∧ part s1 b1 s' bds' ∧ sound s1 b1.
Proof.
  intros Hp Hs Hi Hc. unfold good_step, directive_dct. unfold comment_only in Hc.
  destruct (d_variant d); try done; cbn [app]; eexists _, _; (split; [reflexivity|]); by apply left_one.
Qed.
Lemma check_step i d b s bds s' bds' s1 b1 : part s bds s' bds' → sound s bds → gone i = true → d_variant d = DBalance b →
  (∀ x, s_accounts s !! bal_acc b = Some x → a_pad x = None) →
  good_step L ord i d s bds = Some (s1, b1) → part s1 b1 s' bds' ∧ sound s1 b1.
Proof.
  intros Hp Hs Hi Hv Hno. unfold good_step, directive_dct. rewrite Hv. unfold balance_dct.
  destruct (get_valid_account s _ _) as [x| |] eqn:Eg; [|done..].
  assert (s_accounts s !! bal_acc b = Some x) as Ex.
  { unfold get_valid_account in Eg. destruct (validate_account _ _ _); [done|]. destruct (s_accounts s !! bal_acc b); [|done]. by injection Eg as <-. }
  destruct (validate_currency x _ _); [done|]. cbn zeta. set (W := match a_window x with Some (_, o) => _ | None => _ end). clearbody W. cbn [a_pad set_window].
  rewrite (Hno x Ex). destruct (calculate_balance_margin _ _ _) as [m|]; [done|]. cbn. intros [= <- <-]. apply left_one; [| |done].
  - destruct Hp. split; try done; cbn. intros m Hm. specialize (pt_acc m Hm). destruct (decide (bal_acc b = m)) as [<-|Hne]; [|by rewrite lookup_insert_ne by done].
    rewrite lookup_insert. rewrite Ex in pt_acc. destruct (s_accounts s' !! bal_acc b) as [x'|]; [|done]. destruct pt_acc as (?&?&?&Hpad). rewrite (Hno x Ex) in Hpad.
    by split_and!.
  - eapply sound_put; [done..|by right].
Qed.

(** ** All of them *)
Lemma leave_loop i i' ds s bds s' bds' s1 b1 : (∀ j d, ds !! j = Some d → full !! (i + j) = Some d) →
  (∀ j d, ds !! j = Some d → gone (i + j) = true → comment_only d ∨ check_only full (i + j) d) →
  waits i s → part s bds s' bds' → sound s bds → good_loop L ord i ds s bds = Some (s1, b1) →
  ∃ s1' b1', good_loop L ord i' (left_from gone i ds) s' bds' = Some (s1', b1') ∧ part s1 b1 s1' b1'.
Proof using HL Hloc Hord.
  revert i i' s bds s' bds'. induction ds as [|d ds IH]; intros i i' s bds s' bds' Hf Hg Hw Hp Hs; cbn [good_loop left_from].
  { intros [= <- <-]. eauto. }
  assert (full !! i = Some d) as Hd by (rewrite <- (Nat.add_0_r i); by apply Hf).
  assert (∀ j d, ds !! j = Some d → full !! (S i + j) = Some d) as Hf' by (intros j x Hx; replace (S i + j) with (i + S j) by lia; by apply Hf).
  assert (∀ j d, ds !! j = Some d → gone (S i + j) = true → comment_only d ∨ check_only full (S i + j) d) as Hg'
    by (intros j x Hx; replace (S i + j) with (i + S j) by lia; by apply Hg).
  destruct (good_step L ord i d s bds) as [[s2 b2]|] eqn:Eg; [|done]. cbn [mbind option_bind fst snd]. intros Hl.
  pose proof (waits_step i d s bds s2 b2 Hd Hw Eg) as Hw2. destruct (gone i) eqn:Ei.
  - assert (part s2 b2 s' bds' ∧ sound s2 b2) as [Hp' Hs'].
    { destruct (Hg 0 d eq_refl) as [Hc|(b&Hb&Hno)]; rewrite ?Nat.add_0_r in *; [done| |].
      - destruct (comment_step i d s bds s' bds' Hp Hs Ei Hc) as (s3&b3&E3&?). rewrite Eg in E3. by injection E3 as <- <-.
      - eapply check_step; [exact Hp|exact Hs|exact Ei|exact Hb| |exact Eg]. intros x Hx. destruct (a_pad x) eqn:Ex; [|done].
        destruct Hno. apply (Hw _ x Hx). by rewrite Ex. }
    by eapply IH.
  - cbn [good_loop]. pose proof (kept_step i i' d s bds s' bds' Hp Hs Ei) as Hm. rewrite Eg in Hm. unfold matched in Hm.
    destruct (good_step L ord i' d s' bds') as [[s2' b2']|]; [|done]. destruct Hm as [Hp' Hs']. cbn [mbind option_bind fst snd]. by eapply IH.
Qed.
(** If only comments are left out, the ledger without them books only if the whole does. *)
Lemma comment_loop i i' ds s bds s' bds' s1' b1' : (∀ j d, ds !! j = Some d → gone (i + j) = true → comment_only d) →
  part s bds s' bds' → sound s bds → good_loop L ord i' (left_from gone i ds) s' bds' = Some (s1', b1') →
  ∃ s1 b1, good_loop L ord i ds s bds = Some (s1, b1) ∧ part s1 b1 s1' b1'.
Proof using HL Hloc Hord.
  revert i i' s bds s' bds'. induction ds as [|d ds IH]; intros i i' s bds s' bds' Hg Hp Hs; cbn [good_loop left_from].
  { intros [= <- <-]. eauto. }
  assert (∀ j d, ds !! j = Some d → gone (S i + j) = true → comment_only d) as Hg'
    by (intros j x Hx; replace (S i + j) with (i + S j) by lia; by apply Hg).
  destruct (gone i) eqn:Ei; intros Hl.
  - specialize (Hg 0 d eq_refl). rewrite Nat.add_0_r in Hg. destruct (comment_step i d s bds s' bds' Hp Hs Ei (Hg Ei)) as (s2&b2&->&Hp'&Hs').
    cbn [mbind option_bind fst snd]. by eapply IH.
  - cbn [good_loop] in Hl. pose proof (kept_step i i' d s bds s' bds' Hp Hs Ei) as Hm.
    destruct (good_step L ord i' d s' bds') as [[s2' b2']|]; [|done]. cbn [mbind option_bind fst snd] in Hl.
    destruct (good_step L ord i d s bds) as [[s2 b2]|]; [|done]. destruct Hm as [Hp' Hs']. cbn [mbind option_bind fst snd]. by eapply IH.
Qed.
Lemma pads_same s bds s' bds' : part s bds s' bds' → (∀ n x, s_accounts s !! n = Some x → a_pad x = None) ↔ (∀ n x, s_accounts s' !! n = Some x → a_pad x = None).
Proof.
  intros Hp. split; intros H n x Hx; pose proof (pt_acc _ _ _ _ _ _ Hp n eq_refl) as Ha; rewrite Hx in Ha.
  - destruct (s_accounts s !! n) as [y|] eqn:Ey; [|done]. destruct Ha as (_&_&_&Ha). rewrite (H n y Ey) in Ha. by destruct (a_pad x).
  - destruct (s_accounts s' !! n) as [y|] eqn:Ey; [|done]. destruct Ha as (_&_&_&Ha). rewrite (H n y Ey) in Ha. by destruct (a_pad x) as [[]|].
Qed.
Lemma part_booked s bds s' bds' : part s bds s' bds' → unnumbered <$> booked_without gone bds = unnumbered <$> bds'.
Proof.
  intros Hp. rewrite <- (pt_booked _ _ _ _ _ _ Hp). f_equal. apply list_filter_iff. intros b. unfold kept. by destruct (gone (b_idx b)).
Qed.
Lemma leave_start bk : part (acc_new bk) [] (acc_new bk) [] ∧ sound (acc_new bk) [] ∧ waits 0 (acc_new bk).
Proof. split; [apply part_new|]. split; [apply sound_new|]. by intros n x Hx. Qed.
End Leave.
