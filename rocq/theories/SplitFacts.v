(** Booking a ledger of two sets of books, beside booking one of them. *)
From Coq Require Import Ascii QArith.
From stdpp Require Import prelude gmap strings pretty.
From Verif Require Import DecModel DecProofs LedgerTypes BookModel BookSpec BookLib BookSteps BookUnits BookFacts SplitSpec.
Local Open Scope nat_scope.

Section Split.
Context {P : Type} (L : booking_lib P) (HL : lib_ok L) (Hloc : lib_local L).
Context (ord : gmap string (account P) → list (string * account P)) (Hord : ∀ m, ord m ≡ₚ map_to_list m).

(** ** Steps without errors *)
Definition good_step (i : nat) (d : directive) (s : accst P) (bds : list bdirective) : option (accst P * list bdirective) :=
  let '(s', bds', r) := directive_dct L ord s d (eidx_of_nat i) bds in
  match r with
  | ROk (v, x) =>
      if (match v with BVBalance bb => match bb_unused_pad bb, bb_margin bb with None, None => true | _, _ => false end | _ => true end : bool)
      then Some (s', bds' ++ [booked_of i d v] ++ match x with Some t => [booked_of i d t] | None => [] end) else None
  | _ => None
  end.
Fixpoint good_loop (i : nat) (ds : list directive) (s : accst P) (bds : list bdirective) : option (accst P * list bdirective) :=
  match ds with
  | [] => Some (s, bds)
  | d :: ds => x ← good_step i d s bds; good_loop (S i) ds x.1 x.2
  end.
Lemma good_step_ok i d s bds : match collect_step L ord i d (CSt s [] bds) with
  | CRun c => good_step i d s bds = match c_errors c with [] => Some (c_acc c, c_booked c) | _ => None end
  | CPanic _ => good_step i d s bds = None end.
Proof.
  unfold collect_step, good_step. cbn [c_acc c_errors c_booked]. destruct (directive_dct L ord s d _ bds) as [[s' bds'] [[v x]|err|w]]; [|done..].
  destruct v; try done. destruct (bb_unused_pad b), (bb_margin b); cbn [app]; try done; destruct (balance_report _ _ _ _ _ _); done.
Qed.
Lemma errors_stay i ds c : c_errors c ≠ [] → match collect_loop L ord i ds c with CRun c' => c_errors c' ≠ [] | CPanic _ => True end.
Proof.
  revert i c. induction ds as [|d ds IH]; intros i c H; [done|]. cbn. destruct (collect_step L ord i d c) as [c1|] eqn:E; [|done]. apply IH.
  unfold collect_step in E. destruct (directive_dct L ord _ d _ _) as [[s' bds'] [[v x]|err|w]]; [|injection E as <-; cbn; by destruct (c_errors c)|done].
  assert (∀ l, c_errors c ++ l ≠ []) as Ha by (intros l; by destruct (c_errors c)).
  destruct v; try (injection E as <-; done). destruct (bb_margin b); [|injection E as <-; apply Ha].
  destruct (balance_report _ _ _ _ _ _); [| |done]; injection E as <-; cbn; rewrite <- app_assoc; apply Ha.
Qed.
Lemma good_loop_ok i ds s bds : match collect_loop L ord i ds (CSt s [] bds) with
  | CRun c => good_loop i ds s bds = match c_errors c with [] => Some (c_acc c, c_booked c) | _ => None end
  | CPanic _ => good_loop i ds s bds = None end.
Proof.
  revert i s bds. induction ds as [|d ds IH]; intros i s bds; [done|]. cbn [collect_loop good_loop].
  pose proof (good_step_ok i d s bds) as Hs. destruct (collect_step L ord i d _) as [[s1 e1 b1]|]; cbn [c_errors c_acc c_booked] in Hs; rewrite Hs; [|done].
  destruct e1 as [|e e1]; cbn [mbind option_bind fst snd]; [apply IH|].
  pose proof (errors_stay (S i) ds (CSt s1 (e :: e1) b1) ltac:(done)) as He. destruct (collect_loop _ _ _ _ _) as [c|]; [|done]. by destruct (c_errors c).
Qed.
Lemma book_good opt ds bs ws : book L ord opt ds = BookSuccess bs ws ↔
  ∃ s, good_loop 0 ds (acc_new (default_booking_option L opt)) [] = Some (s, bs) ∧ s_warnings s = ws ∧ ∀ n x, s_accounts s !! n = Some x → a_pad x = None.
Proof using Hord.
  unfold book, collect. pose proof (good_loop_ok 0 ds (acc_new (default_booking_option L opt)) []) as H.
  assert (∀ s, unused_pad_reports ord (s_accounts s) = [] ↔ ∀ n x, s_accounts (P:=P) s !! n = Some x → a_pad x = None) as Hu.
  { intros s. unfold unused_pad_reports. split.
    - intros E n x Hx. destruct (a_pad x) as [[k u]|] eqn:Ep; [|done]. exfalso.
      assert (mk_report u "unused, no balance directive" ∈ ([] : list report)) as Hin; [|by apply elem_of_nil in Hin].
      rewrite <- E. apply elem_of_list_omap. exists (n, x). split; [rewrite (Hord _); by apply elem_of_map_to_list|]. cbn. by rewrite Ep.
    - intros Hn. destruct (omap _ _) as [|r l] eqn:E; [done|]. assert (r ∈ r :: l) as Hr by left. rewrite <- E in Hr.
      apply elem_of_list_omap in Hr as ([n x]&Hx&Hr). rewrite (Hord _) in Hx. apply elem_of_map_to_list in Hx. cbn in Hr. by rewrite (Hn n x Hx) in Hr. }
  destruct (collect_loop L ord 0 ds _) as [c|]; rewrite H; [|split; [done|by intros (s&?&_)]].
  unfold validate. destruct (c_errors c) as [|e es]; cbn [app]; [|split; [done|by intros (s&?&_)]]. specialize (Hu (c_acc c)). split.
  - destruct (unused_pad_reports ord _) eqn:E; [|done]. intros [= <- <-]. exists (c_acc c). split; [done|]. split; [done|]. by apply Hu.
  - intros (s&[= <- <-]&<-&Hn). by rewrite (proj2 Hu Hn).
Qed.

(** ** The two runs *)
Context (mine : string → bool) (side : directive → bool) (kept : nat → bool) (opened : string → Prop).

Definition rank (l : list nat) (k : nat) : nat := length (filter (λ j, kept j = true) (take k l)).
Definition like_pad (l : list nat) (x x' : option (nat * eidx)) : Prop :=
  match x, x' with None, None => True | Some (k, _), Some (k', _) => k' = rank l k | _, _ => False end.
Definition like_acc (l : list nat) (x x' : account P) : Prop :=
  a_allowed x = a_allowed x' ∧ a_positions x = a_positions x' ∧ a_booking x = a_booking x' ∧ like_pad l (a_pad x) (a_pad x').
Definition like_oacc (l : list nat) (x x' : option (account P)) : Prop :=
  match x, x' with None, None => True | Some x, Some x' => like_acc l x x' | _, _ => False end.
Record part (s : accst P) (bds : list bdirective) (s' : accst P) (bds' : list bdirective) : Prop := {
  pt_default : s_default_booking s = s_default_booking s';
  pt_open : ∀ n, mine n = true → is_Some (s_open s !! n) ↔ is_Some (s_open s' !! n);
  pt_closed : ∀ n, mine n = true → is_Some (s_closed s !! n) ↔ is_Some (s_closed s' !! n);
  pt_acc : ∀ n, mine n = true → like_oacc (b_idx <$> bds) (s_accounts s !! n) (s_accounts s' !! n);
  pt_out : ∀ n, mine n = false → s_accounts s' !! n = None;
  pt_booked : unnumbered <$> filter (λ b, kept (b_idx b) = true) bds = unnumbered <$> bds' }.
Record sound (s : accst P) (bds : list bdirective) : Prop := {
  sd_opened : ∀ n, is_Some (s_accounts s !! n) → opened n;
  sd_pads : ∀ n x k u, s_accounts s !! n = Some x → a_pad x = Some (k, u) → ∃ b p b' t,
    bds !! k = Some b ∧ b_variant b = BVPad p ∧ bds !! S k = Some b' ∧ b_variant b' = BVTransaction t ∧
    kept (b_idx b) = mine n ∧ kept (b_idx b') = mine n ∧ mine (pad_source p) = mine n }.

(** ** Lists *)
Lemma rank_lookup (l : list bdirective) k b : l !! k = Some b → kept (b_idx b) = true →
  filter (λ b, kept (b_idx b) = true) l !! rank (b_idx <$> l) k = Some b ∧ rank (b_idx <$> l) (S k) = S (rank (b_idx <$> l) k).
Proof.
  unfold rank. revert k. induction l as [|x l IH]; intros [|k] Hk Hb; try done.
  - injection Hk as ->. rewrite filter_cons_True by done. split; [done|]. cbn [fmap list_fmap take]. by rewrite filter_cons_True.
  - cbn in Hk. destruct (IH k Hk Hb) as [H1 H2]. cbn [fmap list_fmap take]. rewrite !filter_cons. case_decide as Hx.
    + cbn. split; [exact H1|]. f_equal. exact H2.
    + split; [exact H1|exact H2].
Qed.
Lemma rank_app (l m : list nat) k : k ≤ length l → rank (l ++ m) k = rank l k.
Proof. intros H. unfold rank. by rewrite take_app_le. Qed.
Lemma filter_insert_kept (l : list bdirective) k b y : l !! k = Some b → b_idx y = b_idx b → kept (b_idx b) = true →
  filter (λ b, kept (b_idx b) = true) (<[k := y]> l) = <[rank (b_idx <$> l) k := y]> (filter (λ b, kept (b_idx b) = true) l).
Proof.
  unfold rank. revert k. induction l as [|x l IH]; intros [|k] Hk Hy Hb; try done.
  - injection Hk as ->. cbn. by rewrite !decide_True by by rewrite ?Hy.
  - cbn in Hk. cbn [insert list_insert fmap list_fmap take]. rewrite !filter_cons. case_decide as Hx; cbn [length insert list_insert]; [f_equal|]; by apply IH.
Qed.
Lemma filter_insert_other (l : list bdirective) k b y : l !! k = Some b → b_idx y = b_idx b → kept (b_idx b) = false →
  filter (λ b, kept (b_idx b) = true) (<[k := y]> l) = filter (λ b, kept (b_idx b) = true) l.
Proof.
  revert k. induction l as [|x l IH]; intros [|k] Hk Hy Hb; try done.
  - injection Hk as ->. cbn. by rewrite !decide_False by (rewrite ?Hy, Hb; done).
  - cbn in Hk. cbn [insert list_insert]. rewrite !filter_cons. case_decide; [f_equal|]; by eapply IH.
Qed.
Lemma idx_insert (l : list bdirective) k b y : l !! k = Some b → b_idx y = b_idx b → b_idx <$> <[k := y]> l = b_idx <$> l.
Proof. intros Hk Hy. rewrite list_fmap_insert, Hy. apply list_insert_id. by rewrite list_lookup_fmap, Hk. Qed.

(** ** Keeping the relation *)
Lemma like_app l m x x' : (∀ k u, a_pad x = Some (k, u) → k ≤ length l) → like_acc l x x' → like_acc (l ++ m) x x'.
Proof.
  intros Hk (?&?&?&Hp). split_and!; [done..|]. destruct (a_pad x) as [[k u]|], (a_pad x') as [[k' u']|]; try done. cbn in *. by rewrite rank_app; [|eapply Hk].
Qed.
Lemma part_book s bds s' bds' new new' : sound s bds → part s bds s' bds' →
  unnumbered <$> filter (λ b, kept (b_idx b) = true) new = unnumbered <$> new' → part s (bds ++ new) s' (bds' ++ new').
Proof.
  intros Hs [] Hn. split; try done.
  - intros n Hm. specialize (pt_acc0 n Hm). unfold like_oacc in *. destruct (s_accounts s !! n) as [x|] eqn:E, (s_accounts s' !! n); try done.
    rewrite fmap_app. apply like_app; [|done]. intros k u Hk. destruct (sd_pads _ _ Hs n x k u E Hk) as (b&_&_&_&Hb&_). apply lookup_lt_Some in Hb. rewrite fmap_length. lia.
  - by rewrite filter_app, !fmap_app, pt_booked0, Hn.
Qed.
Lemma sound_book s bds new : sound s bds → sound s (bds ++ new).
Proof.
  intros [H1 H2]. split; [done|]. intros n x k u Hx Hk. destruct (H2 n x k u Hx Hk) as (b&p&b'&t&Hb&?&Hb'&?). exists b, p, b', t.
  split; [by apply lookup_app_l_Some|]. split; [done|]. split; [by apply lookup_app_l_Some|done].
Qed.
Lemma part_put s bds s' bds' n x x' : part s bds s' bds' → mine n = true → like_acc (b_idx <$> bds) x x' →
  part (put_account s n x) bds (put_account s' n x') bds'.
Proof.
  intros [] Hn Hx. split; try done; cbn.
  - intros m Hm. destruct (decide (n = m)) as [<-|Hne]; [by rewrite !lookup_insert|]. rewrite !lookup_insert_ne by done. by apply pt_acc0.
  - intros m Hm. rewrite lookup_insert_ne by congruence. by apply pt_out0.
Qed.
Lemma part_put_out s bds s' bds' n x : part s bds s' bds' → mine n = false → part (put_account s n x) bds s' bds'.
Proof. intros [] Hn. split; try done; cbn. intros m Hm. rewrite lookup_insert_ne by congruence. by apply pt_acc0. Qed.
Lemma sound_put s bds n x x0 : sound s bds → s_accounts s !! n = Some x0 → (a_pad x = a_pad x0 ∨ a_pad x = None) → sound (put_account s n x) bds.
Proof.
  intros [H1 H2] Hx0 Hp. split; cbn.
  - intros m. destruct (decide (n = m)) as [<-|Hne]; [intros _; apply H1; by rewrite Hx0|]. rewrite lookup_insert_ne by done. apply H1.
  - intros m y k u. destruct (decide (n = m)) as [<-|Hne]; [|rewrite lookup_insert_ne by done; apply H2].
    rewrite lookup_insert. intros [= <-] Hk. destruct Hp as [E|E]; rewrite E in Hk; [|done]. by apply (H2 n x0 k u).
Qed.

(** ** Accounts *)
Lemma split_validate s bds s' bds' n e e' : part s bds s' bds' → mine n = true → validate_account s n e = None ↔ validate_account s' n e' = None.
Proof.
  intros Hp Hn. pose proof (pt_open _ _ _ _ Hp n Hn) as Ho. unfold validate_account.
  revert Ho. destruct (s_open s !! n), (s_open s' !! n); intros Ho; try done; [by destruct (proj1 Ho ltac:(eauto))|by destruct (proj2 Ho ltac:(eauto))|].
  by destruct (s_closed s !! n), (s_closed s' !! n).
Qed.
Lemma split_get s bds s' bds' n e e' : part s bds s' bds' → mine n = true →
  match get_valid_account s n e, get_valid_account s' n e' with
  | ROk x, ROk x' => like_acc (b_idx <$> bds) x x' ∧ s_accounts s !! n = Some x ∧ s_accounts s' !! n = Some x'
  | ROk _, _ | _, ROk _ => False | _, _ => True end.
Proof.
  intros Hp Hn. pose proof (split_validate _ _ _ _ n e e' Hp Hn) as Hv. pose proof (pt_acc _ _ _ _ Hp n Hn) as Ha. unfold get_valid_account.
  revert Hv. destruct (validate_account s n e), (validate_account s' n e'); intros Hv; try done; [by pose proof (proj2 Hv eq_refl)|by pose proof (proj1 Hv eq_refl)|].
  unfold like_oacc in Ha. by destruct (s_accounts s !! n), (s_accounts s' !! n).
Qed.
Lemma split_currency l x x' cur e e' : like_acc l x x' → validate_currency x cur e = None ↔ validate_currency x' cur e' = None.
Proof. intros (H&_). unfold validate_currency, is_currency_valid. rewrite H. by destruct (_ || _). Qed.
Definition both_ok {A B} (r : rr A) (r' : rr B) : Prop := match r, r' with ROk _, ROk _ => True | ROk _, _ | _, ROk _ => False | _, _ => True end.
Lemma split_validate_postings s bds s' bds' e e' i l : part s bds s' bds' → Forall (λ x : interpolated * posting_spec, mine (ps_acc x.2) = true) l →
  both_ok (validate_postings s e i l) (validate_postings s' e' i l).
Proof.
  intros Hp. revert i. induction l as [|[ip ps] l IH]; intros i Hl; [done|]. apply Forall_cons in Hl as [Hm Hl]. cbn in Hm. cbn [validate_postings].
  unfold validate_account_and_currency. pose proof (split_get _ _ _ _ (ps_acc ps) (eidx_with_posting e i) (eidx_with_posting e' i) Hp Hm) as Hg.
  destruct (get_valid_account s _ _) as [x| |], (get_valid_account s' _ _) as [x'| |]; try done. destruct Hg as [Hx _].
  pose proof (split_currency _ _ _ (in_currency ip) (eidx_with_posting e i) (eidx_with_posting e' i) Hx) as Hc.
  revert Hc. destruct (validate_currency x _ _), (validate_currency x' _ _); intros Hc; try done; [by pose proof (proj2 Hc eq_refl)|by pose proof (proj1 Hc eq_refl)|]. by apply IH.
Qed.
Lemma split_update s bds s' bds' e e' l : part s bds s' bds' → sound s bds → Forall (λ x : string * P, mine x.1 = true) l →
  let u := update_inventory s e l in let u' := update_inventory s' e' l in
  both_ok u.2 u'.2 ∧ part u.1 bds u'.1 bds' ∧ sound u.1 bds.
Proof.
  revert s s'. induction l as [|[n p] l IH]; intros s s' Hp Hs Hl; [done|]. apply Forall_cons in Hl as [Hm Hl]. cbn in Hm. cbn [update_inventory].
  pose proof (split_get _ _ _ _ n e e' Hp Hm) as Hg. destruct (get_valid_account s n e) as [x| |], (get_valid_account s' n e') as [x'| |]; try done.
  destruct Hg as ((A1&A2&A3&A4)&Hx&Hx'). apply IH; [|apply (sound_put s bds n _ x Hs Hx); by left|done]. apply part_put; [done..|]. by split_and!.
Qed.
Lemma update_other s bds s' bds' e l : part s bds s' bds' → sound s bds → Forall (λ x : string * P, mine x.1 = false) l →
  part (update_inventory s e l).1 bds s' bds' ∧ sound (update_inventory s e l).1 bds.
Proof.
  revert s. induction l as [|[n p] l IH]; intros s Hp Hs Hl; [done|]. apply Forall_cons in Hl as [Hm Hl]. cbn in Hm. cbn [update_inventory].
  destruct (get_valid_account s n e) as [x| |] eqn:E; [|done..]. apply IH; [by apply part_put_out| |done].
  unfold get_valid_account in E. destruct (validate_account s n e); [done|]. destruct (s_accounts s !! n) as [y|] eqn:Ey; [|done]. injection E as <-.
  apply (sound_put s bds n _ y Hs Ey). by left.
Qed.

Lemma names_of dt ps inv bk ips upd b : lib_book L dt ps inv bk = LibOk ips upd → Forall (λ ps, mine (ps_acc ps) = b) ps →
  Forall (λ x : string * P, mine x.1 = b) upd.
Proof using HL.
  intros H Hps. apply Forall_forall. intros [n p] Hin. destruct (lk_names _ HL _ _ _ _ _ _ H) as [_ Hn].
  destruct (proj1 (elem_of_list_fmap _ _ _) (Hn n ltac:(apply elem_of_list_fmap; by exists (n, p)))) as (x&->&Hx).
  rewrite Forall_forall in Hps. by apply Hps.
Qed.
Lemma zip_mine (ips : list interpolated) ps b : Forall (λ ps, mine (ps_acc ps) = b) ps → Forall (λ x : interpolated * posting_spec, mine (ps_acc x.2) = b) (zip ips ps).
Proof.
  intros H. revert ips. induction H as [|x ps Hx _ IH]; intros [|ip ips]; cbn; constructor; [done|apply IH].
Qed.
Lemma split_txn s bds s' bds' dt ps e e' : part s bds s' bds' → sound s bds → Forall (λ ps, mine (ps_acc ps) = true) ps →
  match book_txn L s dt ps e, book_txn L s' dt ps e' with
  | (s1, ROk l), (s1', ROk l') => l = l' ∧ part s1 bds s1' bds' ∧ sound s1 bds
  | (_, ROk _), _ | _, (_, ROk _) => False | _, _ => True end.
Proof using HL Hloc.
  intros Hp Hs Hm. unfold book_txn.
  rewrite (Hloc dt ps (λ name, a_positions <$> s_accounts s' !! name) (λ name, a_positions <$> s_accounts s !! name)
    (λ name, match s_accounts s' !! name with Some a => a_booking a | None => s_default_booking s' end)
    (λ name, match s_accounts s !! name with Some a => a_booking a | None => s_default_booking s end)).
  2: { intros a (x&->&Hx)%elem_of_list_fmap. rewrite Forall_forall in Hm. pose proof (pt_acc _ _ _ _ Hp _ (Hm x Hx)) as Ha. unfold like_oacc in Ha.
       rewrite (pt_default _ _ _ _ Hp). destruct (s_accounts s !! ps_acc x), (s_accounts s' !! ps_acc x); try done. destruct Ha as (_&Hq&Hb&_). cbn. by rewrite Hq, Hb. }
  destruct (lib_book L dt ps _ _) as [ips upd| |] eqn:El; [|done..]. cbn zeta.
  pose proof (split_validate_postings _ _ _ _ e e' 0 (zip ips ps) Hp (zip_mine ips ps _ Hm)) as Hv.
  destruct (validate_postings s _ _ _), (validate_postings s' _ _ _); try done.
  destruct (split_update _ _ _ _ e e' upd Hp Hs (names_of _ _ _ _ _ _ _ El Hm)) as (Hu&Hp'&Hs').
  destruct (update_inventory s e upd) as [s1 r], (update_inventory s' e' upd) as [s1' r']. cbn in Hu, Hp', Hs'. destruct r, r'; try done.
Qed.
Lemma txn_other s bds s' bds' dt ps e : part s bds s' bds' → sound s bds → Forall (λ ps, mine (ps_acc ps) = false) ps →
  part (book_txn L s dt ps e).1 bds s' bds' ∧ sound (book_txn L s dt ps e).1 bds.
Proof using HL.
  intros Hp Hs Hm. unfold book_txn. destruct (lib_book L dt ps _ _) as [ips upd| |] eqn:El; [|done..]. cbn zeta.
  destruct (validate_postings s _ _ _); [|done..]. pose proof (update_other _ _ _ _ e upd Hp Hs (names_of _ _ _ _ _ _ _ El Hm)) as Hu.
  destruct (update_inventory s e upd) as [s1 r]. by destruct r.
Qed.

(** ** Balances *)
Lemma split_rollup s bds s' bds' base cur : part s bds s' bds' → sound s bds →
  (∀ n, opened n → under base n = true → mine n = true) →
  total_rollup_units_for_currency L ord s' base cur = total_rollup_units_for_currency L ord s base cur.
Proof using Hord.
  intros Hp Hs Hb. unfold total_rollup_units_for_currency, account_and_subaccounts. apply dec_sum_perm.
  rewrite (Hord (s_accounts s)), (Hord (s_accounts s')).
  set (f := λ a : account P, default dec_zero (lib_units L (a_positions a) !! cur)).
  assert (∀ m : gmap string (account P), f <$> (filter (λ x, is_nonstrict_subaccount base x.1 = true) (map_to_list m)).*2 =
    ((λ x, (x.1, f x.2)) <$> filter (λ x, is_nonstrict_subaccount base x.1 = true) (map_to_list m)).*2) as Ef.
  { intros m. by rewrite <- !list_fmap_compose. }
  rewrite !Ef. apply fmap_Permutation.
  assert (∀ m : gmap string (account P), NoDup ((λ x, (x.1, f x.2)) <$> filter (λ x, is_nonstrict_subaccount base x.1 = true) (map_to_list m))) as Hnd.
  { intros m. apply (NoDup_fmap_1 fst). rewrite <- list_fmap_compose. change (fst ∘ (λ x : string * account P, (x.1, f x.2))) with (@fst string (account P)).
    pose proof (NoDup_fst_map_to_list m) as Hn. revert Hn. generalize (map_to_list m). induction l as [|x l IH]; [done|]. rewrite fmap_cons, NoDup_cons. intros [Hx Hn].
    rewrite filter_cons. case_decide; [|by apply IH]. rewrite fmap_cons, NoDup_cons. split; [|by apply IH].
    intros (y&E&(_&Hy)%elem_of_list_filter)%elem_of_list_fmap. apply Hx. apply elem_of_list_fmap. eauto. }
  apply NoDup_Permutation; [apply Hnd..|]. intros [n q]. rewrite !elem_of_list_fmap. split; intros ([n' x]&[= -> ->]&(Hu&Hin)%elem_of_list_filter);
    apply elem_of_map_to_list in Hin; cbn in Hu, Hin.
  - destruct (mine n') eqn:Em; [|by rewrite (pt_out _ _ _ _ Hp n' Em) in Hin].
    pose proof (pt_acc _ _ _ _ Hp n' Em) as Ha. rewrite Hin in Ha. destruct (s_accounts s !! n') as [y|] eqn:Ey; [|done].
    destruct Ha as (_&Hq&_). exists (n', y). unfold f. cbn. rewrite Hq. split; [done|]. apply elem_of_list_filter. split; [done|]. by apply elem_of_map_to_list.
  - assert (mine n' = true) as Em. { apply Hb; [apply (sd_opened _ _ Hs); by rewrite Hin|]. by rewrite <- is_nonstrict_subaccount_under. }
    pose proof (pt_acc _ _ _ _ Hp n' Em) as Ha. rewrite Hin in Ha. destruct (s_accounts s' !! n') as [y|] eqn:Ey; [|done].
    destruct Ha as (_&Hq&_). exists (n', y). unfold f. cbn. rewrite Hq. split; [done|]. apply elem_of_list_filter. split; [done|]. by apply elem_of_map_to_list.
Qed.

Lemma part_insert s bds s' bds' k b y y' : part s bds s' bds' → bds !! k = Some b → kept (b_idx b) = true → b_idx y = b_idx b → unnumbered y = unnumbered y' →
  part s (<[k := y]> bds) s' (<[rank (b_idx <$> bds) k := y']> bds').
Proof.
  intros [] Hk Hb Hy Hyy. split; try done.
  - by rewrite (idx_insert bds k b y Hk Hy).
  - by rewrite (filter_insert_kept bds k b y Hk Hy Hb), !list_fmap_insert, pt_booked0, Hyy.
Qed.
Lemma part_insert_other s bds s' bds' k b y : part s bds s' bds' → bds !! k = Some b → kept (b_idx b) = false → b_idx y = b_idx b →
  part s (<[k := y]> bds) s' bds'.
Proof.
  intros [] Hk Hb Hy. split; try done.
  - by rewrite (idx_insert bds k b y Hk Hy).
  - by rewrite (filter_insert_other bds k b y Hk Hy Hb).
Qed.
Lemma sound_insert s bds k b y t t' : sound s bds → bds !! k = Some b → b_variant b = BVTransaction t → b_variant y = BVTransaction t' → b_idx y = b_idx b →
  sound s (<[k := y]> bds).
Proof.
  intros [H1 H2] Hk Hb Hy Hi. split; [done|]. intros n x j u Hx Hj. destruct (H2 n x j u Hx Hj) as (c&p&c'&tt&E1&E2&E3&E4&E5&E6&E7).
  assert (k ≠ j) as Hne by (intros ->; rewrite Hk in E1; injection E1 as <-; congruence).
  exists c, p. rewrite list_lookup_insert_ne by done. destruct (decide (k = S j)) as [->|Hne'].
  - rewrite E3 in Hk. injection Hk as <-. exists y, t'. rewrite list_lookup_insert by by eapply lookup_lt_Some. by rewrite Hi.
  - exists c', tt. by rewrite list_lookup_insert_ne.
Qed.
Lemma booked_there s bds s' bds' k b : part s bds s' bds' → bds !! k = Some b → kept (b_idx b) = true →
  ∃ b', bds' !! rank (b_idx <$> bds) k = Some b' ∧ unnumbered b = unnumbered b'.
Proof.
  intros Hp Hk Hb. destruct (rank_lookup bds k b Hk Hb) as [Hr _].
  assert ((unnumbered <$> filter (λ b, kept (b_idx b) = true) bds) !! rank (b_idx <$> bds) k = Some (unnumbered b)) as E by by rewrite list_lookup_fmap, Hr.
  rewrite (pt_booked _ _ _ _ Hp), list_lookup_fmap in E. destruct (bds' !! _) as [b'|]; [|done]. exists b'. split; [done|]. apply (inj Some) in E. by symmetry.
Qed.

Definition matched (x x' : option (accst P * list bdirective)) : Prop :=
  match x, x' with
  | Some (s, b), Some (s', b') => part s b s' b' ∧ sound s b
  | None, None => True
  | _, _ => False
  end.

Lemma split_step i i' d s bds s' bds' : part s bds s' bds' → sound s bds → about mine true d → kept i = true →
  (∀ o, d_variant d = DOpen o → opened (op_acc o)) → (∀ b n, d_variant d = DBalance b → opened n → under (bal_acc b) n = true → mine n = true) →
  matched (good_step i d s bds) (good_step i' d s' bds').
Proof using HL Hloc Hord.
  intros Hp Hs Ha Hi Ho Hroll. unfold good_step, directive_dct. unfold about in Ha.
  assert (∀ s s' bds bds' v, part s bds s' bds' → sound s bds → matched (Some (s, bds ++ [booked_of i d v])) (Some (s', bds' ++ [booked_of i' d v]))) as Hone.
  { intros s1 s1' b1 b1' v H1 H2. split; [|by apply sound_book]. apply part_book; [done..|]. rewrite filter_cons_True by done. done. }
  destruct (d_variant d) as [t|p|b|o|a|cu|p|a1 a2|a1 a2|a1 a2|a1 a2|cu] eqn:Ed; cbn [app]; try (by apply Hone).
  - unfold transaction_dct. pose proof (split_txn s bds s' bds' (d_date d) (tx_postings t) (eidx_of_nat i) (eidx_of_nat i') Hp Hs Ha) as Ht.
    destruct (book_txn L s _ _ _) as [s1 [l| |]], (book_txn L s' _ _ _) as [s1' [l'| |]]; cbn; try done. destruct Ht as (->&?&?). by apply Hone.
  - unfold balance_dct. rewrite (split_rollup s bds s' bds' (bal_acc b) (bal_cur b) Hp Hs) by (intros; by eapply Hroll).
    pose proof (split_get s bds s' bds' (bal_acc b) (eidx_of_nat i) (eidx_of_nat i') Hp Ha) as Hg.
    destruct (get_valid_account s _ _) as [x| |], (get_valid_account s' _ _) as [x'| |]; try done. destruct Hg as (Hx&Ex&Ex').
    pose proof (split_currency _ _ _ (bal_cur b) (eidx_of_nat i) (eidx_of_nat i') Hx) as Hc.
    revert Hc. destruct (validate_currency x _ _), (validate_currency x' _ _); intros Hc; try done; [by pose proof (proj2 Hc eq_refl)|by pose proof (proj1 Hc eq_refl)|].
    cbn zeta. set (W := match a_window x with Some (_, o) => _ | None => _ end). set (W' := match a_window x' with Some (_, o) => _ | None => _ end). clearbody W W'.
    destruct Hx as (A1&A2&A3&A4). cbn [a_pad set_window].
    destruct (calculate_balance_margin _ _ _) as [m|].
    2: { destruct (a_pad x) as [[k u]|] eqn:Ek, (a_pad x') as [[k' u']|] eqn:Ek'; try done. cbn.
         apply Hone; [apply part_put; [done..|by split_and!]|]. eapply sound_put; [done..|by right]. }
    destruct (a_pad x) as [[k u]|] eqn:Ek, (a_pad x') as [[k' u']|] eqn:Ek'; try done. cbn in A4. subst k'.
    destruct (sd_pads _ _ Hs _ _ _ _ Ex Ek) as (pb&p&tb&t&B1&B2&B3&B4&B5&B6&B7). rewrite Ha in B5, B6, B7.
    destruct (booked_there _ _ _ _ _ _ Hp B1 B5) as (pb'&C1&C2). destruct (booked_there _ _ _ _ _ _ Hp B3 B6) as (tb'&C3&C4).
    rewrite (proj2 (rank_lookup bds k pb B1 B5)) in C3. rewrite B1, B2, B3, B4, C1, C3.
    assert (b_variant pb' = BVPad p) as -> by (rewrite <- B2; change (b_variant pb') with (b_variant (unnumbered pb')); by rewrite <- C2).
    assert (b_variant tb' = BVTransaction t) as -> by (rewrite <- B4; change (b_variant tb') with (b_variant (unnumbered tb')); by rewrite <- C4).
    set (x1 := adjust_account_to_match_balance L _ _ _ _). set (x1' := adjust_account_to_match_balance L (set_pad (set_window x' _) _) _ _ _).
    assert (part (put_account s (bal_acc b) x1) bds (put_account s' (bal_acc b) x1') bds') as Hp1.
    { apply part_put; [done..|]. unfold x1, x1'. split_and!; cbn; [done| |done..]. by rewrite A2. }
    assert (sound (put_account s (bal_acc b) x1) bds) as Hs1 by (eapply sound_put; [done..|by right]).
    set (s1 := put_account s (bal_acc b) x1) in *. set (s1' := put_account s' (bal_acc b) x1') in *. clearbody s1 s1'.
    pose proof (pt_acc _ _ _ _ Hp1 (pad_source p) B7) as Hpa. unfold like_oacc in Hpa.
    destruct (s_accounts s1 !! pad_source p) as [z|] eqn:Ez, (s_accounts s1' !! pad_source p) as [z'|] eqn:Ez'; try done.
    cbn [with_none bb_unused_pad bb_margin]. apply Hone.
    + rewrite <- (proj2 (rank_lookup bds k pb B1 B5)). eapply part_insert; [|exact B3|done|done|].
      * apply part_put; [done..|]. destruct Hpa as (D1&D2&D3&D4). split_and!; cbn; [done| |done..]. by rewrite D2.
      * unfold unnumbered, set_variant in *. cbn. by injection C4 as -> -> -> -> _.
    + eapply sound_insert; [|exact B3|done|done|done]. eapply sound_put; [done..|by left].
  - unfold open_dct. pose proof (pt_open _ _ _ _ Hp _ Ha) as P1. pose proof (pt_closed _ _ _ _ Hp _ Ha) as P2.
    revert P1. destruct (s_open s !! op_acc o), (s_open s' !! op_acc o); intros P1; try done;
      [by destruct (proj1 P1 ltac:(eauto))|by destruct (proj2 P1 ltac:(eauto))|]. cbn [s_closed set_open].
    revert P2. destruct (s_closed s !! op_acc o), (s_closed s' !! op_acc o); intros P2; try done;
      [by destruct (proj1 P2 ltac:(eauto))|by destruct (proj2 P2 ltac:(eauto))|]. cbn [s_default_booking set_open].
    rewrite (pt_default _ _ _ _ Hp). set (bk := match op_booking o with Some b => _ | None => _ end).
    assert (∀ w w' bk, part (AccSt (<[op_acc o := eidx_of_nat i]> (s_open s)) (s_closed s) (<[op_acc o := account_new L (match op_currencies o with Some cs => cs | None => ∅ end) bk (eidx_of_nat i)]> (s_accounts s)) (s_default_booking s) w) bds
        (AccSt (<[op_acc o := eidx_of_nat i']> (s_open s')) (s_closed s') (<[op_acc o := account_new L (match op_currencies o with Some cs => cs | None => ∅ end) bk (eidx_of_nat i')]> (s_accounts s')) (s_default_booking s') w') bds' ∧
      sound (AccSt (<[op_acc o := eidx_of_nat i]> (s_open s)) (s_closed s) (<[op_acc o := account_new L (match op_currencies o with Some cs => cs | None => ∅ end) bk (eidx_of_nat i)]> (s_accounts s)) (s_default_booking s) w) bds) as Hopen.
    { intros w w' bk'. destruct Hp, Hs. split; split; cbn; try done.
      - intros n Hn. destruct (decide (op_acc o = n)) as [<-|Hne]; [by rewrite !lookup_insert|]. rewrite !lookup_insert_ne by done. by apply pt_open0.
      - intros n Hn. destruct (decide (op_acc o = n)) as [<-|Hne]; [by rewrite !lookup_insert|]. rewrite !lookup_insert_ne by done. by apply pt_acc0.
      - intros n Hn. rewrite lookup_insert_ne by congruence. by apply pt_out0.
      - intros n. destruct (decide (op_acc o = n)) as [<-|Hne]; [intros _; by apply Ho|]. rewrite lookup_insert_ne by done. apply sd_opened0.
      - intros n x k u. destruct (decide (op_acc o = n)) as [<-|Hne]; [rewrite lookup_insert; by intros [= <-]|]. rewrite lookup_insert_ne by done. apply sd_pads0. }
    destruct (lib_supported L bk); cbn [negb]; destruct (op_booking o) as [bb|]; try destruct (lib_supported L (booking_into bb)); cbn [with_none];
      (apply Hone; unfold push_warning, put_account, set_accounts, set_open; cbn; [apply Hopen|apply (Hopen _ [] _)]).
  - unfold close_dct. pose proof (pt_open _ _ _ _ Hp _ Ha) as P1. pose proof (pt_closed _ _ _ _ Hp _ Ha) as P2.
    revert P1. destruct (s_open s !! a), (s_open s' !! a); intros P1; try done; [|by destruct (proj1 P1 ltac:(eauto))|by destruct (proj2 P1 ltac:(eauto))].
    revert P2. destruct (s_closed s !! a), (s_closed s' !! a); intros P2; try done; [by destruct (proj1 P2 ltac:(eauto))|by destruct (proj2 P2 ltac:(eauto))|].
    cbn [with_none]. destruct Hp, Hs. apply Hone; split; cbn; try done.
    + intros n Hn. destruct (decide (a = n)) as [<-|Hne]; [rewrite !lookup_delete; by split; intros []|]. rewrite !lookup_delete_ne by done. by apply pt_open0.
    + intros n Hn. destruct (decide (a = n)) as [<-|Hne]; [by rewrite !lookup_insert|]. rewrite !lookup_insert_ne by done. by apply pt_closed0.
  - destruct Ha as [Ha Hsrc]. unfold pad_dct. pose proof (split_get s bds s' bds' (pad_acc p) (eidx_of_nat i) (eidx_of_nat i') Hp Ha) as Hg.
    destruct (get_valid_account s _ _) as [x| |], (get_valid_account s' _ _) as [x'| |]; try done. destruct Hg as ((A1&A2&A3&A4)&Ex&Ex').
    destruct (a_pad x) as [[k u]|] eqn:Ek, (a_pad x') as [[k' u']|] eqn:Ek'; try done.
    set (n1 := booked_of i d (BVPad p)). set (n2 := booked_of i d _).
    assert (part s (bds ++ [n1; n2]) s' (bds' ++ [booked_of i' d (BVPad p); booked_of i' d (BVTransaction (BTransaction PAD_FLAG None None []))])) as Hp1.
    { apply part_book; [done..|]. rewrite !filter_cons_True by done. done. }
    split.
    + apply part_put; [done..|]. split_and!; cbn; [done..|].
      rewrite fmap_app, rank_app, <- (fmap_length b_idx bds) by by rewrite fmap_length. unfold rank. rewrite firstn_all.
      pose proof (f_equal length (pt_booked _ _ _ _ Hp)) as Hl. rewrite !fmap_length in Hl. rewrite <- Hl. clear.
      induction bds as [|y bds IH]; [done|]. cbn [fmap list_fmap]. rewrite !filter_cons. case_decide; cbn; by rewrite IH.
    + pose proof (sound_book s bds [n1; n2] Hs) as [G1 G2]. split; cbn.
      * intros n. destruct (decide (pad_acc p = n)) as [<-|Hne]; [intros _; apply G1; by rewrite Ex|]. rewrite lookup_insert_ne by done. apply G1.
      * intros n y k u. destruct (decide (pad_acc p = n)) as [<-|Hne]; [|rewrite lookup_insert_ne by done; apply G2].
        rewrite lookup_insert. intros [= <-]. cbn. intros [= <- _]. exists n1, p, n2, (BTransaction PAD_FLAG None None []).
        rewrite !lookup_app_r by lia. rewrite Nat.sub_diag, Nat.sub_succ_l, Nat.sub_diag by lia. by rewrite Ha, Hsrc.
Qed.

Lemma other_step i d s bds s' bds' s1 b1 : part s bds s' bds' → sound s bds → about mine false d → kept i = false →
  (∀ o, d_variant d = DOpen o → opened (op_acc o)) →
  good_step i d s bds = Some (s1, b1) → part s1 b1 s' bds' ∧ sound s1 b1.
Proof using HL.
  intros Hp Hs Ha Hi Ho. unfold good_step, directive_dct. unfold about in Ha.
  assert (∀ s bds v, part s bds s' bds' → sound s bds → Some (s, bds ++ [booked_of i d v]) = Some (s1, b1) → part s1 b1 s' bds' ∧ sound s1 b1) as Hone.
  { intros s2 b2 v H1 H2 [= <- <-]. split; [|by apply sound_book]. rewrite <- (app_nil_r bds'). apply part_book; [done..|].
    by rewrite filter_cons_False by (cbn; by rewrite Hi). }
  destruct (d_variant d) as [t|p|b|o|a|cu|p|a1 a2|a1 a2|a1 a2|a1 a2|cu] eqn:Ed; cbn [app]; try (by apply Hone).
  - unfold transaction_dct. pose proof (txn_other s bds s' bds' (d_date d) (tx_postings t) (eidx_of_nat i) Hp Hs Ha) as [H1 H2].
    destruct (book_txn L s _ _ _) as [s2 [l| |]]; cbn in *; [|done..]. by apply Hone.
  - unfold balance_dct. destruct (get_valid_account s _ _) as [x| |] eqn:Eg; [|done..].
    assert (s_accounts s !! bal_acc b = Some x) as Ex.
    { unfold get_valid_account in Eg. destruct (validate_account _ _ _); [done|]. destruct (s_accounts s !! bal_acc b); [|done]. by injection Eg as <-. }
    destruct (validate_currency x _ _); [done|]. cbn zeta. set (W := match a_window x with Some (_, o) => _ | None => _ end). clearbody W. cbn [a_pad set_window].
    destruct (calculate_balance_margin _ _ _) as [m|].
    2: { destruct (a_pad x) as [[k u]|] eqn:Ek; [done|]. cbn. apply Hone; [by apply part_put_out|]. eapply sound_put; [done..|by right]. }
    destruct (a_pad x) as [[k u]|] eqn:Ek; [|done].
    destruct (sd_pads _ _ Hs _ _ _ _ Ex Ek) as (pb&p&tb&t&B1&B2&B3&B4&B5&B6&B7). rewrite Ha in B5, B6, B7. rewrite B1, B2, B3, B4.
    set (x1 := adjust_account_to_match_balance L _ _ _ _).
    assert (part (put_account s (bal_acc b) x1) bds s' bds') as Hp1 by by apply part_put_out.
    assert (sound (put_account s (bal_acc b) x1) bds) as Hs1 by (eapply sound_put; [done..|by right]).
    set (s2 := put_account s (bal_acc b) x1) in *. clearbody s2.
    destruct (s_accounts s2 !! pad_source p) as [z|] eqn:Ez; [|done]. cbn [with_none bb_unused_pad bb_margin]. apply Hone.
    + eapply part_insert_other; [|exact B3|done|done]. by apply part_put_out.
    + eapply sound_insert; [|exact B3|done|done|done]. eapply sound_put; [done..|by left].
  - unfold open_dct. destruct (s_open s !! op_acc o); [done|]. cbn [s_closed set_open]. destruct (s_closed s !! op_acc o); [done|]. cbn [s_default_booking set_open].
    set (bk := match op_booking o with Some b => _ | None => _ end).
    assert (∀ w bk, part (AccSt (<[op_acc o := eidx_of_nat i]> (s_open s)) (s_closed s) (<[op_acc o := account_new L (match op_currencies o with Some cs => cs | None => ∅ end) bk (eidx_of_nat i)]> (s_accounts s)) (s_default_booking s) w) bds s' bds' ∧
      sound (AccSt (<[op_acc o := eidx_of_nat i]> (s_open s)) (s_closed s) (<[op_acc o := account_new L (match op_currencies o with Some cs => cs | None => ∅ end) bk (eidx_of_nat i)]> (s_accounts s)) (s_default_booking s) w) bds) as Hopen.
    { intros w bk'. destruct Hp, Hs. split; split; cbn; try done.
      - intros n Hn. rewrite lookup_insert_ne by congruence. by apply pt_open0.
      - intros n Hn. rewrite lookup_insert_ne by congruence. by apply pt_acc0.
      - intros n. destruct (decide (op_acc o = n)) as [<-|Hne]; [intros _; by apply Ho|]. rewrite lookup_insert_ne by done. apply sd_opened0.
      - intros n x k u. destruct (decide (op_acc o = n)) as [<-|Hne]; [rewrite lookup_insert; by intros [= <-]|]. rewrite lookup_insert_ne by done. apply sd_pads0. }
    destruct (lib_supported L bk); cbn [negb]; destruct (op_booking o) as [bb|]; try destruct (lib_supported L (booking_into bb)); cbn [with_none];
      (apply Hone; unfold push_warning, put_account, set_accounts, set_open; cbn; apply Hopen).
  - unfold close_dct. destruct (s_open s !! a); [|done]. destruct (s_closed s !! a); [done|]. cbn [with_none]. destruct Hp, Hs. apply Hone; split; cbn; try done.
    + intros n Hn. rewrite lookup_delete_ne by congruence. by apply pt_open0.
    + intros n Hn. rewrite lookup_insert_ne by congruence. by apply pt_closed0.
  - destruct Ha as [Ha Hsrc]. unfold pad_dct. destruct (get_valid_account s _ _) as [x| |] eqn:Eg; [|done..].
    assert (s_accounts s !! pad_acc p = Some x) as Ex.
    { unfold get_valid_account in Eg. destruct (validate_account _ _ _); [done|]. destruct (s_accounts s !! pad_acc p); [|done]. by injection Eg as <-. }
    destruct (a_pad x) as [[k u]|] eqn:Ek; [done|].
    set (n1 := booked_of i d (BVPad p)). set (n2 := booked_of i d _). intros [= <- <-]. split.
    + apply part_put_out; [|done]. rewrite <- (app_nil_r bds'). apply part_book; [done..|]. by rewrite !filter_cons_False by (cbn; by rewrite Hi).
    + pose proof (sound_book s bds [n1; n2] Hs) as [G1 G2]. split; cbn.
      * intros n. destruct (decide (pad_acc p = n)) as [<-|Hne]; [intros _; apply G1; by rewrite Ex|]. rewrite lookup_insert_ne by done. apply G1.
      * intros n y k u. destruct (decide (pad_acc p = n)) as [<-|Hne]; [|rewrite lookup_insert_ne by done; apply G2].
        rewrite lookup_insert. intros [= <-]. cbn. intros [= <- _]. exists n1, p, n2, (BTransaction PAD_FLAG None None []).
        rewrite !lookup_app_r by lia. rewrite Nat.sub_diag, Nat.sub_succ_l, Nat.sub_diag by lia. by rewrite Ha, Hsrc.
Qed.

(** What is known of each directive of the ledger. *)
Definition fitting (d : directive) : Prop :=
  about mine (side d) d ∧ (∀ o, d_variant d = DOpen o → opened (op_acc o)) ∧
  (∀ b n, d_variant d = DBalance b → opened n → under (bal_acc b) n = true → mine n = mine (bal_acc b)).
Lemma fitting_step i i' d s bds s' bds' : fitting d → kept i = side d → part s bds s' bds' → sound s bds →
  if side d then matched (good_step i d s bds) (good_step i' d s' bds')
  else ∀ s1 b1, good_step i d s bds = Some (s1, b1) → part s1 b1 s' bds' ∧ sound s1 b1.
Proof using HL Hloc Hord.
  intros (F1&F2&F3) Hk Hp Hs. destruct (side d) eqn:E.
  - apply split_step; try done. intros b n Hb Ho Hu. rewrite (F3 b n Hb Ho Hu). unfold about in F1. by rewrite Hb in F1.
  - intros s1 b1. by apply other_step.
Qed.
Lemma split_loop i i' ds s bds s' bds' s1 b1 : Forall fitting ds → (∀ j d, ds !! j = Some d → kept (i + j) = side d) →
  part s bds s' bds' → sound s bds → good_loop i ds s bds = Some (s1, b1) →
  ∃ s1' b1', good_loop i' (filter (λ d, side d = true) ds) s' bds' = Some (s1', b1') ∧ part s1 b1 s1' b1'.
Proof using HL Hloc Hord.
  revert i i' s bds s' bds'. induction ds as [|d ds IH]; intros i i' s bds s' bds' Hf Hk Hp Hs; cbn [good_loop].
  { intros [= <- <-]. eauto. }
  apply Forall_cons in Hf as [Hd Hf]. pose proof (fitting_step i i' d s bds s' bds' Hd ltac:(rewrite <- (Nat.add_0_r i); by apply Hk) Hp Hs) as Hst.
  destruct (good_step i d s bds) as [[s2 b2]|] eqn:Eg; [|done]. cbn [mbind option_bind fst snd]. intros Hl.
  assert (∀ j d, ds !! j = Some d → kept (S i + j) = side d) as Hk' by (intros j x Hx; replace (S i + j) with (i + S j) by lia; by apply Hk).
  rewrite filter_cons. destruct (side d).
  - rewrite decide_True by done. cbn [good_loop]. unfold matched in Hst. destruct (good_step i' d s' bds') as [[s2' b2']|]; [|done]. destruct Hst as [Hp' Hs'].
    cbn [mbind option_bind fst snd]. by eapply IH.
  - rewrite decide_False by done. destruct (Hst s2 b2 eq_refl) as [Hp' Hs']. by eapply IH.
Qed.

(** Postings are on the side of their directive. *)
Definition sided (bds : list bdirective) : Prop := ∀ b q, b ∈ bds → q ∈ postings_of b → mine (p_acc q) = kept (b_idx b).
Lemma from_accounts i ips ps q : q ∈ booked_postings_from i (zip ips ps) → ∃ x, x ∈ ps ∧ p_acc q = ps_acc x.
Proof.
  revert i ips. induction ps as [|x ps IH]; intros i [|ip ips]; cbn; try (by intros ?%elem_of_nil). intros [Hq|Hq]%elem_of_app.
  - exists x. split; [by left|]. unfold booked_postings_of in Hq. destruct (in_cost ip).
    + by apply elem_of_list_fmap in Hq as ([? ?]&->&_).
    + by apply elem_of_list_singleton in Hq as ->.
  - destruct (IH _ _ Hq) as (y&?&?). exists y. split; [by right|done].
Qed.
Lemma sided_step i d s bds s1 b1 : fitting d → kept i = side d → sound s bds → sided bds → good_step i d s bds = Some (s1, b1) → sided b1.
Proof.
  intros (F1&_&_) Hk Hs Hb. unfold good_step, directive_dct.
  assert (∀ bds v, sided bds → (∀ q, q ∈ postings_of (booked_of i d v) → mine (p_acc q) = side d) → sided (bds ++ [booked_of i d v])) as Hone.
  { intros l v Hl Hv b q [Hin|Hin]%elem_of_app Hq; [by apply (Hl b)|]. apply elem_of_list_singleton in Hin as ->. cbn [b_idx booked_of]. rewrite Hk. by apply Hv. }
  assert (∀ bds v, sided bds → postings_of (booked_of i d v) = [] → sided (bds ++ [booked_of i d v])) as Hnone.
  { intros l v Hl Hv. apply Hone; [done|]. rewrite Hv. by intros q ?%elem_of_nil. }
  unfold about in F1. destruct (d_variant d) as [t|p|b|o|a|cu|p|a1 a2|a1 a2|a1 a2|a1 a2|cu] eqn:Ed; cbn [app]; try (intros [= <- <-]; by apply Hnone).
  - unfold transaction_dct, book_txn. destruct (lib_book _ _ _ _ _) as [ips upd| |]; [|done..]. cbn zeta. destruct (validate_postings _ _ _ _); [|done..].
    destruct (update_inventory s _ upd) as [s2 [u| |]]; [|done..]. cbn. intros [= <- <-]. apply Hone; [done|]. intros q Hq.
    change (q ∈ booked_postings_from 0 (zip ips (tx_postings t))) in Hq. apply from_accounts in Hq as (x&Hx&->). rewrite Forall_forall in F1. by apply F1.
  - unfold balance_dct. destruct (get_valid_account s _ _) as [x| |] eqn:Eg; [|done..].
    assert (s_accounts s !! bal_acc b = Some x) as Ex.
    { unfold get_valid_account in Eg. destruct (validate_account _ _ _); [done|]. destruct (s_accounts s !! bal_acc b); [|done]. by injection Eg as <-. }
    destruct (validate_currency x _ _); [done|]. cbn zeta. cbn [a_pad set_window].
    destruct (calculate_balance_margin _ _ _) as [m|].
    2: { destruct (a_pad x) as [[k u]|] eqn:Ek; [done|]. cbn. intros [= <- <-]. by apply Hnone. }
    destruct (a_pad x) as [[k u]|] eqn:Ek; [|done].
    destruct (sd_pads _ _ Hs _ _ _ _ Ex Ek) as (pb&p&tb&t&B1&B2&B3&B4&B5&B6&B7). rewrite B1, B2, B3, B4.
    destruct (s_accounts _ !! pad_source p) as [z|]; [|done]. cbn [with_none bb_unused_pad bb_margin]. intros [= <- <-]. apply Hnone; [|done].
    intros c q Hc Hq. apply elem_of_list_lookup in Hc as [j Hj]. destruct (decide (S k = j)) as [<-|Hne].
    + rewrite list_lookup_insert in Hj by by eapply lookup_lt_Some. injection Hj as <-.
      change (q ∈ calculate_balance_pad_postings (bal_cur b) m (bal_acc b) (pad_source p)) in Hq. cbn [b_idx set_variant].
      unfold calculate_balance_pad_postings in Hq. rewrite B6.
      apply elem_of_cons in Hq as [->|Hq]; [done|]. apply elem_of_list_singleton in Hq as ->. done.
    + rewrite list_lookup_insert_ne in Hj by done. apply (Hb c); [|done]. by eapply elem_of_list_lookup_2.
  - unfold open_dct. destruct (s_open s !! op_acc o); [done|]. cbn [s_closed set_open]. destruct (s_closed s !! op_acc o); [done|].
    destruct (negb _); cbn; intros [= <- <-]; by apply Hnone.
  - unfold close_dct. destruct (s_open s !! a); [|done]. destruct (s_closed s !! a); [done|]. cbn. intros [= <- <-]; by apply Hnone.
  - unfold pad_dct. destruct (get_valid_account s _ _) as [x| |]; [|done..]. destruct (a_pad x) as [[k u]|]; [done|]. intros [= <- <-].
    rewrite (cons_middle _ bds), app_assoc. apply Hnone; [|done]. by apply Hnone.
Qed.
Lemma sided_loop (i i' : nat) ds s bds s' bds' s1 b1 : Forall fitting ds → (∀ j d, ds !! j = Some d → kept (i + j) = side d) →
  part s bds s' bds' → sound s bds → sided bds → good_loop i ds s bds = Some (s1, b1) → sided b1.
Proof using HL Hloc Hord.
  revert i i' s bds s' bds'. induction ds as [|d ds IH]; intros i i' s bds s' bds' Hf Hk Hp Hs Hb; cbn [good_loop].
  { by intros [= <- <-]. }
  apply Forall_cons in Hf as [Hd Hf]. assert (kept i = side d) as Hki by (rewrite <- (Nat.add_0_r i); by apply Hk).
  pose proof (fitting_step i i' d s bds s' bds' Hd Hki Hp Hs) as Hst.
  destruct (good_step i d s bds) as [[s2 b2]|] eqn:Eg; [|done]. cbn [mbind option_bind fst snd]. intros Hl.
  assert (∀ j d, ds !! j = Some d → kept (S i + j) = side d) as Hk' by (intros j x Hx; replace (S i + j) with (i + S j) by lia; by apply Hk).
  pose proof (sided_step i d s bds s2 b2 Hd Hki Hs Hb Eg) as Hb2. destruct (side d).
  - unfold matched in Hst. destruct (good_step i' d s' bds') as [[s2' b2']|]; [|done]. destruct Hst. by eapply (IH (S i) (S i')).
  - destruct (Hst s2 b2 eq_refl). by eapply (IH (S i) i').
Qed.
Lemma part_new bk : part (acc_new bk) [] (acc_new bk) [].
Proof. by split. Qed.
Lemma sound_new bk : sound (acc_new bk) [].
Proof. split; cbn; [by intros n []|done]. Qed.
End Split.

(** ** Both sets of books *)
Section Both.
Context {P : Type} (L : booking_lib P) (HL : lib_ok L) (Hloc : lib_local L).
Context (ord : gmap string (account P) → list (string * account P)) (Hord : ∀ m, ord m ≡ₚ map_to_list m).
Context (mine : string → bool) (side : directive → bool) (kept : nat → bool) (opened : string → Prop).
Let mine' n := negb (mine n).
Let side' d := negb (side d).
Let kept' n := negb (kept n).
Lemma fitting_other d : fitting mine side opened d → fitting mine' side' opened d.
Proof.
  intros (F1&F2&F3). unfold mine', side'. split_and!; [|done|intros b n Hb Ho Hu; by rewrite (F3 b n Hb Ho Hu)].
  unfold about in *. destruct (d_variant d); try done; try (by rewrite F1).
  - eapply Forall_impl; [exact F1|]. intros x Hx. by rewrite Hx.
  - by destruct F1 as [-> ->].
Qed.
Lemma merge_loop i ia ib ds s bds sa ba sb bb sa1 ba1 sb1 bb1 :
  Forall (fitting mine side opened) ds → (∀ j d, ds !! j = Some d → kept (i + j) = side d) →
  part mine kept s bds sa ba → sound mine kept opened s bds → part mine' kept' s bds sb bb → sound mine' kept' opened s bds →
  good_loop L ord ia (filter (λ d, side d = true) ds) sa ba = Some (sa1, ba1) →
  good_loop L ord ib (filter (λ d, side d = false) ds) sb bb = Some (sb1, bb1) →
  ∃ s1 b1, good_loop L ord i ds s bds = Some (s1, b1) ∧ part mine kept s1 b1 sa1 ba1 ∧ part mine' kept' s1 b1 sb1 bb1.
Proof using HL Hloc Hord.
  revert i ia ib s bds sa ba sb bb. induction ds as [|d ds IH]; intros i ia ib s bds sa ba sb bb Hf Hk Hpa Hsa Hpb Hsb.
  { cbn. intros [= <- <-] [= <- <-]. eauto. }
  apply Forall_cons in Hf as [Hd Hf]. assert (kept i = side d) as Hki by (rewrite <- (Nat.add_0_r i); by apply Hk).
  assert (kept' i = side' d) as Hki' by (unfold kept', side'; by rewrite Hki).
  pose proof (fitting_step L HL Hloc ord Hord mine side kept opened i ia d s bds sa ba Hd Hki Hpa Hsa) as HA.
  pose proof (fitting_step L HL Hloc ord Hord mine' side' kept' opened i ib d s bds sb bb (fitting_other d Hd) Hki' Hpb Hsb) as HB.
  assert (∀ j d, ds !! j = Some d → kept (S i + j) = side d) as Hk' by (intros j x Hx; replace (S i + j) with (i + S j) by lia; by apply Hk).
  rewrite !filter_cons. unfold side' in HB. clear Hki Hki'. destruct (side d); cbn [negb] in HB.
  - rewrite decide_True, decide_False by done. cbn [good_loop]. unfold matched in HA. destruct (good_step L ord ia d sa ba) as [[sa2 ba2]|]; [|done].
    destruct (good_step L ord i d s bds) as [[s2 b2]|]; [|done]. cbn [mbind option_bind fst snd]. destruct HA as [? ?]. destruct (HB s2 b2 eq_refl) as [? ?]. by apply IH.
  - rewrite decide_False, decide_True by done. cbn [good_loop]. unfold matched in HB. destruct (good_step L ord ib d sb bb) as [[sb2 bb2]|]; [|done].
    destruct (good_step L ord i d s bds) as [[s2 b2]|]; [|done]. cbn [mbind option_bind fst snd]. destruct HB as [? ?]. destruct (HA s2 b2 eq_refl) as [? ?]. by apply IH.
Qed.
End Both.
