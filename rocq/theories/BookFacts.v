(** Statements about [book] derived from the invariants. *)
From Coq Require Import Ascii QArith Qabs.
From stdpp Require Import prelude gmap strings pretty.
From Verif Require Import DecModel DecProofs LedgerTypes BookModel BookSpec BookLib
  BookSteps BookInv BookWf BookLife BookUnits BookPend BookSuccess BookPads.
Local Open Scope nat_scope.

Lemma opened_accounts_elem ds a : a ∈ opened_accounts ds ↔ ∃ i o, opens_at ds i a o.
Proof.
  unfold opened_accounts. rewrite elem_of_remove_dups, elem_of_list_omap. split.
  - intros (d & Hd & Hv). apply elem_of_list_lookup in Hd as [i Hi]. destruct (d_variant d) eqn:E; try done.
    injection Hv as <-. exists i, o. by exists d.
  - intros (i & o & d & Hi & Hv & <-). exists d. split; [by eapply elem_of_list_lookup_2|]. by rewrite Hv.
Qed.

Section Facts.
Context {P : Type} (L : booking_lib P).
Context (ord : gmap string (account P) → list (string * account P)).
Notation run := (run L ord).
Notation book := (book L ord).

Lemma success_mirrors opt ds bs ws : book opt ds = BookSuccess bs ws → mirrors 0 ds bs.
Proof.
  intros (c & Hrun & He & <- & _)%book_success_run. by apply (inv_mirror_run _ _ _ _ _ Hrun).
Qed.

(** *** Outcome *)
Section Outcome.
Context (Hord : ∀ m, ord m ≡ₚ map_to_list m).

Lemma unused_pad_reports_spec opt ds c :
  run opt ds = CRun c → unused_pad_reports ord (s_accounts (c_acc c)) ≡ₚ unused_reports ds.
Proof.
  intros Hrun. unfold unused_pad_reports, unused_reports.
  transitivity (omap (λ a : string, (λ k, Report "unused, no balance directive" (at_directive k) None None)
     <$> pending ds a) (ord (s_accounts (c_acc c))).*1).
  - assert (∀ l, (∀ x, x ∈ l → s_accounts (c_acc c) !! x.1 = Some x.2) →
      omap (λ x : string * account P,
          match a_pad x.2 with
          | Some (_, p) => Some (mk_report p "unused, no balance directive")
          | None => None
          end) l =
      omap (λ a : string, (λ k, Report "unused, no balance directive" (at_directive k) None None)
        <$> pending ds a) l.*1) as Hgen.
    { induction l as [|[a x] l IH]; intros Hl; [done|]. cbn.
      pose proof (pend_run _ _ _ _ _ Hrun a x (Hl (a, x) ltac:(by left))) as Hp.
      rewrite IH by (intros; apply Hl; by right).
      destruct (a_pad x) as [[k u]|], (pending ds a) as [i|]; cbn in *; try done.
      injection Hp as ->. done. }
    rewrite Hgen; [done|]. intros [a x] Hx. rewrite Hord in Hx. by apply elem_of_map_to_list in Hx.
  - apply omap_Permutation. apply NoDup_Permutation.
    + rewrite Hord. apply NoDup_fst_map_to_list.
    + apply NoDup_remove_dups.
    + intros a. rewrite opened_accounts_elem, Hord, <- (account_exists_iff _ _ _ _ _ _ Hrun). split.
      * intros ([a' x] & -> & Hx)%elem_of_list_fmap. apply elem_of_map_to_list in Hx. eauto.
      * intros [x Hx]. apply elem_of_list_fmap. exists (a, x). split; [done|]. by apply elem_of_map_to_list.
Qed.

Lemma run_take opt ds c k : run opt ds = CRun c → ∃ c1, run opt (take k ds) = CRun c1.
Proof.
  rewrite <- (take_drop k ds) at 1. intros (c1 & H & _)%run_app_inv. eauto.
Qed.

Lemma run_parts opt ds c :
  run opt ds = CRun c → ∃ es : list (list report), length es = length ds ∧
    ∀ k, k <= length ds → ∃ ck, run opt (take k ds) = CRun ck ∧ c_errors ck = concat (take k es).
Proof.
  revert ds c. eapply run_ind.
  - exists []. split; [done|]. intros k Hk. cbn in Hk. assert (k = 0) as -> by lia.
    eexists. split; [reflexivity|done].
  - intros ds d c c' Hrun (es & Hlen & Hes) Hstep.
    assert (run opt (ds ++ [d]) = CRun c') as Hrun' by (by rewrite run_snoc, Hrun).
    apply collect_step_rel, step_errors_prefix in Hstep as [new Hnew].
    exists (es ++ [new]). rewrite !app_length. split; [cbn; lia|].
    intros k Hk. cbn in Hk. destruct (decide (k <= length ds)) as [Hle|Hgt].
    + rewrite !take_app_le by lia. by apply Hes.
    + assert (k = length ds + 1) as -> by lia. rewrite !take_ge by (rewrite app_length; cbn; lia).
      exists c'. split; [done|]. rewrite Hnew, concat_app. cbn. rewrite app_nil_r.
      destruct (Hes (length ds) ltac:(lia)) as (ck & Hck & Hce). rewrite take_ge in Hck by lia.
      rewrite take_ge in Hce by lia. rewrite Hck in Hrun. injection Hrun as ->. by rewrite Hce.
Qed.

Lemma book_outcome opt ds :
  (∀ w, book opt ds ≠ BookPanic w) →
  ∃ es : list (list report), length es = length ds ∧
    ∀ k, k <= length ds → ∃ trail, trail ≡ₚ unused_reports (take k ds) ∧
      ((concat (take k es) ++ trail = [] ∧ ∃ bs ws, book opt (take k ds) = BookSuccess bs ws) ∨
       (concat (take k es) ++ trail ≠ [] ∧
          book opt (take k ds) = BookFailure (concat (take k es) ++ trail))).
Proof.
  intros Hnp. rewrite book_run in Hnp. destruct (run opt ds) as [c|w] eqn:Hrun; [|by destruct (Hnp w)].
  destruct (run_parts _ _ _ Hrun) as (es & Hlen & Hes). exists es. split; [done|].
  intros k Hk. destruct (Hes k Hk) as (ck & Hck & Hce).
  exists (unused_pad_reports ord (s_accounts (c_acc ck))). split; [by eapply unused_pad_reports_spec|].
  rewrite book_run, Hck. unfold validate. rewrite Hce.
  destruct (concat (take k es) ++ _) eqn:E; [left|right]; eauto.
Qed.
End Outcome.

(** *** Lifecycle *)

Lemma success_posting_open opt ds bs ws b d t p :
  book opt ds = BookSuccess bs ws → b ∈ bs → ds !! b_idx b = Some d → d_variant d = DTransaction t →
  p ∈ postings_of b →
  ∃ i o, open_before ds (b_idx b) (p_acc p) i o ∧ allows o (p_cur p).
Proof.
  intros (c & Hrun & He & <- & _)%book_success_run Hb Hd Hv Hp.
  destruct (txn_posting_ok _ _ _ _ _ _ _ _ _ Hrun Hb Hd Hv Hp) as [Hu Hc].
  destruct (success_split _ _ _ _ _ _ _ Hrun He Hd) as (c1 & c2 & H1 & He1 & _).
  destruct (success_usable _ _ _ _ _ _ H1 He1 Hu) as (i & o & _ & Ho).
  assert (b_idx b <= length ds) by (apply lookup_lt_Some in Hd; lia).
  apply open_before_take in Ho; [|done]. exists i, o. split; [done|].
  by eapply (success_currency L ord _ _ _ _ _ _ _ _ Hrun He).
Qed.

Lemma success_usable_open opt ds c k a :
  run opt ds = CRun c → c_errors c = [] → k < length ds → usable (life (take k ds) a) = true →
  ∃ i o, open_before ds k a i o.
Proof.
  intros Hrun He Hk Hu. destruct (lookup_lt_is_Some_2 _ _ Hk) as [d Hd].
  destruct (success_split _ _ _ _ _ _ _ Hrun He Hd) as (c1 & c2 & H1 & He1 & _).
  destruct (success_usable _ _ _ _ _ _ H1 He1 Hu) as (i & o & _ & Ho).
  apply open_before_take in Ho; [|lia]. eauto.
Qed.

Lemma success_balance_open opt ds bs ws k d b :
  book opt ds = BookSuccess bs ws → ds !! k = Some d → d_variant d = DBalance b →
  ∃ i o, open_before ds k (bal_acc b) i o ∧ allows o (bal_cur b).
Proof.
  intros (c & Hrun & He & <- & _)%book_success_run Hd Hv.
  destruct (success_balance_step _ _ _ _ _ _ _ _ Hrun He Hd Hv) as [Hu Hc].
  apply lookup_lt_Some in Hd. destruct (success_usable_open _ _ _ _ _ Hrun He Hd Hu) as (i & o & Ho).
  exists i, o. split; [done|]. eapply success_currency; [done|done| |done|done]. lia.
Qed.

Lemma success_pad_open opt ds bs ws k d p :
  book opt ds = BookSuccess bs ws → ds !! k = Some d → d_variant d = DPad p →
  ∃ i o, open_before ds k (pad_acc p) i o.
Proof.
  intros (c & Hrun & He & <- & _)%book_success_run Hd Hv.
  destruct (success_pad_step _ _ _ _ _ _ _ _ Hrun He Hd Hv) as [Hu Hc].
  apply lookup_lt_Some in Hd. by eapply success_usable_open.
Qed.

Lemma success_opens_once opt ds bs ws a i j o o' :
  book opt ds = BookSuccess bs ws → opens_at ds i a o → opens_at ds j a o' → i = j.
Proof.
  intros (c & Hrun & He & <- & _)%book_success_run Hi Hj.
  pose proof (success_open_step _ _ _ _ _ _ _ _ Hrun He Hi) as Li.
  pose proof (success_open_step _ _ _ _ _ _ _ _ Hrun He Hj) as Lj.
  destruct (lt_eq_lt_dec i j) as [[Hlt|]|Hlt]; [|done|]; exfalso.
  - eapply life_unopened; [exact Lj|]. by apply opens_at_take_iff.
  - eapply life_unopened; [exact Li|]. by apply opens_at_take_iff.
Qed.

Lemma success_close_open opt ds bs ws a k :
  book opt ds = BookSuccess bs ws → closes_at ds k a → ∃ i o, open_before ds k a i o.
Proof.
  intros (c & Hrun & He & <- & _)%book_success_run Hk.
  destruct (success_close_step _ _ _ _ _ _ _ Hrun He Hk) as [i Hl].
  apply closes_at_lt in Hk. eapply success_usable_open; [done|done|done|]. by rewrite Hl.
Qed.

Lemma success_closes_once opt ds bs ws a i j :
  book opt ds = BookSuccess bs ws → closes_at ds i a → closes_at ds j a → i = j.
Proof.
  intros Hb Hi Hj.
  assert (∀ i j, closes_at ds i a → closes_at ds j a → i < j → False) as H.
  { clear i j Hi Hj. intros i j Hi Hj Hlt.
    destruct (success_close_open _ _ _ _ _ _ Hb Hi) as (n & o & Hn & Hon & _).
    destruct (success_close_open _ _ _ _ _ _ Hb Hj) as (n' & o' & Hn' & Hon' & Hno).
    assert (n = n') as <- by (by eapply success_opens_once). by apply (Hno i). }
  destruct (lt_eq_lt_dec i j) as [[Hlt|]|Hlt]; [|done|]; exfalso; eauto.
Qed.

(** *** Balances *)
Section Balances.
Context (Hord : ∀ m, ord m ≡ₚ map_to_list m) (Hlib : lib_ok L).

Lemma success_holds_at opt ds bs ws n b bb :
  book opt ds = BookSuccess bs ws → bs !! n = Some b → b_variant b = BVBalance bb →
  holds_at L bs n (bb_raw bb).
Proof.
  intros (c & Hrun & He & <- & _)%book_success_run Hn Hv.
  by eapply (balances_run L ord Hord Hlib _ _ _ Hrun He).
Qed.

Lemma mirrors_pad_inv i ds bs b p : mirrors i ds bs → b ∈ bs → b_variant b = BVPad p →
  ∃ d, d ∈ ds ∧ d_variant d = DPad p.
Proof.
  induction 1 as [|i d ds b' bs Hnp Hh Hc Hm IH|i d ds b' b'' bs Hp Hh Hc Ht Hm IH]; intros Hin Hv.
  - by apply elem_of_nil in Hin.
  - apply elem_of_cons in Hin as [->|Hin].
    + rewrite Hv in Hc. inversion Hc as [| | | | | | q Hq| | | | |]; subst. exists d. split; [by left|done].
    + destruct (IH Hin Hv) as (d' & ? & ?). exists d'. split; [by right|done].
  - apply elem_of_cons in Hin as [->|Hin]; [|apply elem_of_cons in Hin as [->|Hin]].
    + rewrite Hv in Hc. inversion Hc as [| | | | | | q Hq| | | | |]; subst. exists d. split; [by left|done].
    + destruct Ht as (_ & l & Hl). congruence.
    + destruct (IH Hin Hv) as (d' & ? & ?). exists d'. split; [by right|done].
Qed.

Lemma success_balance_no_pads opt ds bs ws n b bb :
  book opt ds = BookSuccess bs ws → (∀ d, d ∈ ds → ¬ is_pad d) →
  bs !! n = Some b → b_variant b = BVBalance bb →
  (Qabs (dec_value (bal_units (bb_raw bb)) -
         posted (in_subtree (bal_acc (bb_raw bb)) (bal_cur (bb_raw bb))) (take n bs))
   <= balance_tolerance (lib_multiplier L) (bb_raw bb))%Q.
Proof.
  intros Hb Hnp Hn Hv. pose proof (success_mirrors _ _ _ _ Hb) as Hm.
  assert (∀ k b p, bs !! k = Some b → b_variant b ≠ BVPad p) as Hno.
  { intros k b' p Hk Hbv. apply elem_of_list_lookup_2 in Hk.
    destruct (mirrors_pad_inv _ _ _ _ _ Hm Hk Hbv) as (d & Hd & Hdv). apply (Hnp d Hd). by exists p. }
  destruct (success_holds_at _ _ _ _ _ _ _ Hb Hn Hv) as [[_ H]|(k & p & m & Hf & _)].
  - rewrite posted_visible in H; [done| |].
    + apply lookup_lt_Some in Hn. lia.
    + intros j b' Hj (k & b'' & p & -> & Hk & Hkv & _)%unconsumed_spec. by apply (Hno _ _ _ Hk) in Hkv.
  - destruct Hf as (_ & _ & (b1 & Hb1 & Hv1) & _). by apply (Hno _ _ _ Hb1) in Hv1.
Qed.
End Balances.

Lemma success_pad_filled opt ds bs ws k b p :
  (∀ m, ord m ≡ₚ map_to_list m) →
  book opt ds = BookSuccess bs ws → bs !! k = Some b → b_variant b = BVPad p →
  ∃ m cur b', bs !! S k = Some b' ∧ b_idx b' = b_idx b ∧
    b_variant b' = BVTransaction (BTransaction "'P" None None
      [Posting None (Some "'P") (pad_acc p) m cur None None None None None;
       Posting None (Some "'P") (pad_source p) (dec_neg m) cur None None None None None]).
Proof.
  intros Hord Hb Hk Hv. destruct (success_pads_filled _ _ Hord _ _ _ _ _ _ _ Hb Hk Hv) as (j & m & bal & Hf).
  destruct Hf as (_ & _ & _ & _ & _ & b' & Hb' & Hv'). exists m, (bal_cur bal), b'. split_and!; [done| |done].
  pose proof (success_mirrors _ _ _ _ Hb) as Hm. clear - Hm Hk Hv Hb' Hv'.
  revert k Hk Hb'. generalize dependent 0. revert bs. induction ds as [|d ds IH]; intros bs i Hm k Hk Hk'.
  - inversion Hm; subst. done.
  - inversion Hm as [|? ? ? b0 bs0 Hnp Hh Hc Hm0|? ? ? b0 b1 bs0 Hp Hh Hc Ht Hm0]; subst.
    + destruct k as [|k]; cbn in Hk.
      * injection Hk as ->. rewrite Hv in Hc. inversion Hc as [| | | | | | q Hq| | | | |]; subst.
        exfalso. apply Hnp. by exists p.
      * by eapply (IH _ _ Hm0).
    + destruct k as [|[|k]]; cbn in Hk.
      * injection Hk as ->. cbn in Hk'. injection Hk' as ->. destruct Hh as [-> _]. by destruct Ht as [[-> _] _].
      * injection Hk as ->. destruct Ht as (_ & l & Hl). congruence.
      * by eapply (IH _ _ Hm0 k).
Qed.
End Facts.
