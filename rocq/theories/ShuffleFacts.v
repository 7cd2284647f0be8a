(** Booking a ledger in which two transactions have changed places. *)
From Coq Require Import Ascii QArith Qabs.
From stdpp Require Import prelude gmap strings pretty.
From Verif Require Import DecModel DecProofs LedgerTypes BookModel BookSpec BookLib BookSteps BookInv BookUnits BookFacts SplitFacts ShuffleSpec.
Local Open Scope nat_scope.

Section Shuffle.
Context {P : Type} (L : booking_lib P) (same : P → P → Prop) (HR : reorders L same) (HL : lib_ok L) (Hext : lib_ext L).
Context (ord : gmap string (account P) → list (string * account P)) (Hord : ∀ m, ord m ≡ₚ map_to_list m).

Record like_a (a a' : account P) : Prop := {
  la_allowed : a_allowed a = a_allowed a'; la_opened : a_opened a = a_opened a';
  la_window : a_window a = a_window a'; la_booking : a_booking a = a_booking a';
  la_pad : a_pad a = a_pad a'; la_same : same (a_positions a) (a_positions a') }.
Record like (s s' : accst P) : Prop := {
  l_open : s_open s = s_open s'; l_closed : s_closed s = s_closed s';
  l_default : s_default_booking s = s_default_booking s'; l_warnings : s_warnings s = s_warnings s';
  l_accounts : ∀ n, option_Forall2 like_a (s_accounts s !! n) (s_accounts s' !! n) }.
Lemma like_put s s' n a a' : like s s' → like_a a a' → like (put_account s n a) (put_account s' n a').
Proof.
  intros [Ho Hc Hd Hw Ha] H. constructor; cbn; [done..|]. intros m. destruct (decide (n = m)) as [<-|Hne].
  - rewrite !lookup_insert. by constructor.
  - by rewrite !lookup_insert_ne.
Qed.
Lemma like_validate s s' n e : like s s' → validate_account s' n e = validate_account s n e.
Proof. intros [Ho Hc _ _ _]. unfold validate_account. by rewrite Ho, Hc. Qed.
Lemma like_currency a a' cur e : like_a a a' → validate_currency a' cur e = validate_currency a cur e.
Proof. intros [Ha Ho _ _ _ _]. unfold validate_currency, is_currency_valid. by rewrite Ha, Ho. Qed.
Lemma like_lookup s s' n a : like s s' → s_accounts s !! n = Some a → ∃ a', s_accounts s' !! n = Some a' ∧ like_a a a'.
Proof. intros H E. pose proof (l_accounts _ _ H n) as Hn. rewrite E in Hn. inversion Hn; subst. eauto. Qed.

(** ** Transactions *)
Definition bk_of (s : accst P) (n : string) : lbooking := match s_accounts s !! n with Some a => a_booking a | None => s_default_booking s end.
Definition inv_of (s : accst P) (n : string) : option P := a_positions <$> s_accounts s !! n.
Lemma postings_valid s s' e e' i i' l : s_open s = s_open s' →
  (∀ n, option_Forall2 (λ a a' : account P, a_allowed a = a_allowed a') (s_accounts s !! n) (s_accounts s' !! n)) →
  validate_postings s e i l = ROk tt → validate_postings s' e' i' l = ROk tt.
Proof using.
  intros Ho Ha Hv.
  assert (∀ ip ps, (ip, ps) ∈ l → ∃ x, is_Some (s_open s !! ps_acc ps) ∧ s_accounts s !! ps_acc ps = Some x ∧ is_currency_valid x (in_currency ip) = true) as Hok.
  { intros ip ps Hin. by eapply validate_postings_ok_elem. }
  clear Hv. revert i'. induction l as [|[ip ps] l IH]; intros i'; [done|]. cbn [validate_postings].
  destruct (Hok ip ps) as (x&[o Hx1]&Hx2&Hc); [left|]. pose proof (Ha (ps_acc ps)) as Hx. rewrite Hx2 in Hx. destruct (s_accounts s' !! ps_acc ps) as [x'|] eqn:E2; [|by inversion Hx].
  assert (a_allowed x = a_allowed x') as Hal by by inversion Hx.
  unfold validate_account_and_currency, get_valid_account, validate_account. rewrite <- Ho, Hx1, E2.
  unfold validate_currency, is_currency_valid in *. rewrite <- Hal, Hc. apply IH. intros ip1 ps1 H1. apply Hok. by right.
Qed.
Lemma update_valid s e l s1 u : update_inventory (P:=P) s e l = (s1, ROk u) →
  ∀ n, n ∈ l.*1 → is_Some (s_open s !! n) ∧ is_Some (s_accounts s !! n).
Proof using.
  revert s. induction l as [|[n p] l IH]; intros s; cbn; [by intros _ ? ?%elem_of_nil|].
  unfold get_valid_account, validate_account. destruct (s_open s !! n) eqn:Ev; [|by destruct (s_closed s !! n)]. destruct (s_accounts s !! n) as [x|] eqn:Ex; [|done].
  intros H m [->|Hm]%elem_of_cons; [by rewrite Ev, Ex|]. destruct (IH _ H m Hm) as [H1 H2]. split; [exact H1|].
  cbn in H2. destruct (decide (n = m)) as [<-|Hne]; [by rewrite Ex|]. by rewrite lookup_insert_ne in H2.
Qed.
Lemma update_runs s e l : (∀ n, n ∈ l.*1 → is_Some (s_open s !! n) ∧ is_Some (s_accounts s !! n)) →
  ∃ s1, update_inventory (P:=P) s e l = (s1, ROk tt).
Proof using.
  revert s. induction l as [|[n p] l IH]; intros s H; cbn; [by eexists|].
  unfold get_valid_account, validate_account. destruct (H n) as [[o ->] [x ->]]; [left|]. apply IH. intros m Hm. destruct (H m) as [H1 H2]; [by right|]. split; [exact H1|].
  cbn. destruct (decide (n = m)) as [<-|Hne]; [rewrite lookup_insert; by eexists|by rewrite lookup_insert_ne].
Qed.
(** A transaction which is booked: what the library says, and what is kept. *)
Lemma txn_inv s dt ps e s1 l : book_txn L s dt ps e = (s1, ROk l) → ∃ ips upd,
  lib_book L dt ps (inv_of s) (bk_of s) = LibOk ips upd ∧ validate_postings s e 0 (zip ips ps) = ROk tt ∧
  l = booked_postings_from 0 (zip ips ps) ∧ (∀ n, n ∈ ps_acc <$> ps → is_Some (s_open s !! n) ∧ is_Some (s_accounts s !! n)) ∧
  s_open s1 = s_open s ∧ s_closed s1 = s_closed s ∧ s_default_booking s1 = s_default_booking s ∧ s_warnings s1 = s_warnings s ∧
  (∀ a, s_accounts s1 !! a = (λ x, set_positions x (default (a_positions x) ((list_to_map upd : gmap string P) !! a))) <$> s_accounts s !! a).
Proof using HL.
  intros (ips&upd&[]&El&Ev&->&Eu)%book_txn_ok_inv. exists ips, upd. split; [exact El|]. split; [done|]. split; [done|].
  pose proof (update_inventory_only _ _ _ _ _ Eu) as (H1&H2&H3&H4&_). split.
  - intros n (x&->&Hx)%elem_of_list_fmap. apply elem_of_list_lookup in Hx as [k Hk].
    destruct (lookup_lt_is_Some_2 ips k) as [ip Hip]. { rewrite (lk_length _ HL _ _ _ _ _ _ El). by eapply lookup_lt_Some. }
    destruct (validate_postings_ok_elem _ _ _ _ _ ip x Ev) as (y&Hy1&Hy2&_); [|by rewrite Hy2].
    eapply elem_of_list_lookup_2. apply lookup_zip_with_Some. eauto 10.
  - do 4 (split; [done|]). eapply update_inventory_ok; [|exact Eu]. by apply (lk_names _ HL _ _ _ _ _ _ El).
Qed.
Lemma txn_runs s dt ps e ips upd e' s' : lib_book L dt ps (inv_of s) (bk_of s) = LibOk ips upd →
  validate_postings s' e' 0 (zip ips ps) = ROk tt → s_open s' = s_open s →
  (∀ n, option_Forall2 (λ a a' : account P, a_allowed a = a_allowed a') (s_accounts s' !! n) (s_accounts s !! n)) →
  (∀ n, n ∈ ps_acc <$> ps → is_Some (s_open s !! n) ∧ is_Some (s_accounts s !! n)) →
  ∃ s1, book_txn L s dt ps e = (s1, ROk (booked_postings_from 0 (zip ips ps))).
Proof using HL.
  intros El Hv Ho Ha Hn. unfold book_txn. fold (inv_of s) (bk_of s). rewrite El. cbn zeta.
  rewrite (postings_valid s' s e' e 0 0 _ Ho Ha Hv). destruct (update_runs s e upd) as [s1 ->]; [|by exists s1].
  intros n Hin. apply Hn. by apply (lk_names _ HL _ _ _ _ _ _ El).
Qed.
Lemma inv_after s s1 upd : (∀ a, s_accounts s1 !! a = (λ x, set_positions x (default (a_positions x) ((list_to_map upd : gmap string P) !! a))) <$> s_accounts s !! a) →
  (∀ n, n ∈ upd.*1 → is_Some (s_accounts s !! n)) → ∀ n, inv_of s1 n = after (inv_of s) upd n.
Proof using.
  intros H Hn n. unfold inv_of, after. rewrite H. destruct ((list_to_map upd : gmap string P) !! n) as [p|] eqn:E; destruct (s_accounts s !! n) as [x|] eqn:Ex; cbn; try done.
  exfalso. apply elem_of_list_to_map_2, (elem_of_list_fmap_1 fst), Hn in E. cbn in E. rewrite Ex in E. by destruct E.
Qed.
Lemma like_txn s s' dt ps e s1 l : like s s' → book_txn L s dt ps e = (s1, ROk l) → ∃ s1', book_txn L s' dt ps e = (s1', ROk l) ∧ like s1 s1'.
Proof using HR HL Hext.
  intros Hs (ips&upd&El&Ev&->&Hn&E1&E2&E3&E4&Ea)%txn_inv.
  destruct (ro_book _ _ HR dt ps (inv_of s) (inv_of s') (bk_of s) ips upd) as (upd'&El'&Hup); [|exact El|].
  { intros n. unfold inv_of. destruct (l_accounts _ _ Hs n) as [a a' Ha|]; constructor. by apply la_same. }
  rewrite (Hext dt ps _ (inv_of s') _ (bk_of s')) in El'; [|done|].
  2: { intros n. unfold bk_of. destruct (l_accounts _ _ Hs n) as [a a' Ha|]; [by apply la_booking|by apply l_default]. }
  destruct (txn_runs s' dt ps e ips upd' e s El' Ev (l_open _ _ Hs)) as [s1' Eb].
  { intros n. destruct (l_accounts _ _ Hs n) as [a a' Ha|]; constructor. by apply la_allowed. }
  { intros n [Hn1 Hn2]%Hn. rewrite <- (l_open _ _ Hs). split; [done|]. destruct Hn2 as [x Hx]. destruct (like_lookup _ _ _ _ Hs Hx) as (x'&->&_). by eexists. }
  exists s1'. split; [exact Eb|]. destruct (txn_inv _ _ _ _ _ _ Eb) as (ips2&upd2&El2&_&_&_&F1&F2&F3&F4&Fa).
  rewrite El' in El2. injection El2 as <- <-. destruct Hs as [H1 H2 H3 H4 H5]. constructor; [congruence..|]. intros n. rewrite Ea, Fa.
  destruct (H5 n) as [a a' Ha|]; cbn; constructor. destruct Ha as [? ? ? ? ? Hsame]. constructor; cbn; [done..|].
  specialize (Hup n). inversion Hup as [p p' Hp X1 X2|X1 X2]; cbn; done.
Qed.
Lemma swap_txn s dt ps e s1 l dt' ps' e1 s2 l' e' e1' : costless ps → costless ps' →
  book_txn L s dt ps e = (s1, ROk l) → book_txn L s1 dt' ps' e1 = (s2, ROk l') →
  ∃ s1' s2', book_txn L s dt' ps' e' = (s1', ROk l') ∧ book_txn L s1' dt ps e1' = (s2', ROk l) ∧ like s2 s2'.
Proof using HR HL Hext.
  intros C C' (ips&upd&El&Ev&->&Hn&E1&E2&E3&E4&Ea)%txn_inv (ips'&upd'&El'&Ev'&->&Hn'&E1'&E2'&E3'&E4'&Ea')%txn_inv.
  assert (∀ n, is_Some (s_accounts s1 !! n) → is_Some (s_accounts s !! n)) as Hback by (intros n; rewrite Ea; by destruct (s_accounts s !! n)).
  assert (∀ n, n ∈ ps_acc <$> ps' → is_Some (s_open s !! n) ∧ is_Some (s_accounts s !! n)) as Hn2.
  { intros n [X1 X2]%Hn'. split; [by rewrite <- E1|by apply Hback]. }
  assert (∀ n, inv_of s1 n = after (inv_of s) upd n) as Hi1.
  { apply inv_after; [done|]. intros n Hin. apply Hn. by apply (lk_names _ HL _ _ _ _ _ _ El). }
  assert (∀ n, bk_of s1 n = bk_of s n) as Hb1. { intros n. unfold bk_of. rewrite Ea, E3. by destruct (s_accounts s !! n). }
  rewrite (Hext dt' ps' _ (after (inv_of s) upd) _ (bk_of s)) in El' by done.
  destruct (ro_swap _ _ HR dt ps ips upd dt' ps' ips' upd' (inv_of s) (bk_of s) C C') as (upd1&upd2&F1&F2&Hsame); [|done..|].
  { intros a. rewrite fmap_app, elem_of_app. intros [X|X]; [apply Hn in X as [_ X]|apply Hn2 in X as [_ X]]; unfold inv_of; destruct X as [x ->]; by eexists. }
  destruct (txn_runs s dt' ps' e' ips' upd1 e1 s1 F1 Ev' E1) as [s1' B1]; [|done|].
  { intros n. rewrite Ea. destruct (s_accounts s !! n); constructor. done. }
  exists s1'. destruct (txn_inv _ _ _ _ _ _ B1) as (ips3&upd3&El3&_&_&_&G1&G2&G3&G4&Ga). rewrite F1 in El3. injection El3 as <- <-.
  assert (∀ n, inv_of s1' n = after (inv_of s) upd1 n) as Hi1'.
  { apply inv_after; [done|]. intros n Hin. apply Hn2. by apply (lk_names _ HL _ _ _ _ _ _ F1). }
  assert (∀ n, bk_of s1' n = bk_of s n) as Hb1'. { intros n. unfold bk_of. rewrite Ga, G3. by destruct (s_accounts s !! n). }
  rewrite (Hext dt ps _ (inv_of s1') _ (bk_of s1')) in F2 by done.
  destruct (txn_runs s1' dt ps e1' ips upd2 e s F2 Ev (eq_sym G1)) as [s2' B2].
  { intros n. rewrite Ga. destruct (s_accounts s !! n); constructor. done. }
  { intros n [X1 X2]%Hn. rewrite G1, Ga. split; [done|]. destruct X2 as [x ->]. by eexists. }
  exists s2'. split; [exact B1|]. split; [exact B2|].
  destruct (txn_inv _ _ _ _ _ _ B2) as (ips4&upd4&El4&_&_&_&K1&K2&K3&K4&Ka). rewrite F2 in El4. injection El4 as <- <-.
  constructor; [congruence..|]. intros n. specialize (Hsame n). unfold after, inv_of in Hsame. rewrite Ea', Ea, Ka, Ga.
  destruct (s_accounts s !! n) as [x|] eqn:Ex; cbn; constructor. constructor; cbn; [done..|].
  destruct ((list_to_map upd' : gmap string P) !! n) as [p1|], ((list_to_map upd : gmap string P) !! n) as [p2|],
    ((list_to_map upd2 : gmap string P) !! n) as [p3|], ((list_to_map upd1 : gmap string P) !! n) as [p4|]; cbn in *; by inversion Hsame.
Qed.

(** ** Balances *)
Lemma like_total s s' base cur : like s s' →
  (dec_value (total_rollup_units_for_currency L ord s' base cur) == dec_value (total_rollup_units_for_currency L ord s base cur))%Q.
Proof using HR Hord.
  intros Hs. unfold total_rollup_units_for_currency, account_and_subaccounts. rewrite !dec_sum_value.
  set (g := λ y : string * account P, held L (a_positions y.2) cur).
  assert (Hg : ∀ l : list (string * account P), (foldr (λ d q, dec_value d + q) 0 ((λ a, default dec_zero (lib_units L (a_positions a) !! cur)) <$> (snd <$> l)) == Qsum (g <$> l))%Q).
  { intros l. induction l as [|y l IHl]; cbn; [done|]. rewrite IHl. done. }
  rewrite !Hg. rewrite (Qsum_perm _ (g <$> filter (λ x, is_nonstrict_subaccount base x.1 = true) (map_to_list (s_accounts s')))) by by rewrite (Hord (s_accounts s')).
  rewrite (Qsum_perm (g <$> filter _ (ord _)) (g <$> filter (λ x, is_nonstrict_subaccount base x.1 = true) (map_to_list (s_accounts s)))) by by rewrite (Hord (s_accounts s)).
  pose proof (l_accounts _ _ Hs) as Ha. revert Ha. generalize (s_accounts s) (s_accounts s'). intros m m' Ha. clear s s' Hs Hg.
  set (F := λ m : gmap string (account P), Qsum (g <$> filter (λ x, is_nonstrict_subaccount base x.1 = true) (map_to_list m))). change (F m' == F m)%Q.
  assert (HF : ∀ m n a, m !! n = None → (F (<[n := a]> m) == (if is_nonstrict_subaccount base n then held L (a_positions a) cur else 0) + F m)%Q).
  { intros m0 n a Hn. unfold F. rewrite (Qsum_perm _ (g <$> filter (λ x, is_nonstrict_subaccount base x.1 = true) ((n, a) :: map_to_list m0))) by by rewrite map_to_list_insert.
    rewrite filter_cons. cbn [fst]. destruct (is_nonstrict_subaccount base n); [rewrite decide_True by done; done|rewrite decide_False by done; by rewrite Qplus_0_l]. }
  clearbody F. revert m' Ha. induction m as [|n a m Hn IH] using map_ind; intros m' Ha.
  { replace m' with (∅ : gmap string (account P)); [done|]. symmetry. apply map_empty. intros n. specialize (Ha n). rewrite lookup_empty in Ha. by inversion Ha. }
  pose proof (Ha n) as Hna. rewrite lookup_insert in Hna. inversion Hna as [? a' Hl E1 E2|]; subst.
  assert (Hd : ∀ k, option_Forall2 like_a (m !! k) (delete n m' !! k)).
  { intros k. destruct (decide (n = k)) as [<-|Hne]; [rewrite Hn, lookup_delete; constructor|]. rewrite lookup_delete_ne by done. specialize (Ha k). by rewrite lookup_insert_ne in Ha. }
  rewrite <- (insert_delete m' n a') by done. rewrite !HF by (done || apply lookup_delete). rewrite (IH _ Hd).
  destruct (is_nonstrict_subaccount base n); [|done]. rewrite (ro_units _ _ HR _ _ cur (la_same _ _ Hl)). done.
Qed.
Lemma like_margin s s' b : like s s' → match bal_margin L ord s b, bal_margin L ord s' b with
  | None, None => True | Some m, Some m' => (dec_value m == dec_value m')%Q | _, _ => False end.
Proof using HR Hord.
  intros Hs. unfold bal_margin, calculate_balance_margin. pose proof (like_total s s' (bal_acc b) (bal_cur b) Hs) as Ht.
  destruct (dec_gtb (dec_abs (dec_sub _ (total_rollup_units_for_currency L ord s _ _))) _) eqn:E,
    (dec_gtb (dec_abs (dec_sub _ (total_rollup_units_for_currency L ord s' _ _))) _) eqn:E'; try done.
  - rewrite !dec_sub_value, Ht. reflexivity.
  - apply dec_gtb_value_false in E'. apply dec_gtb_value in E. rewrite dec_abs_value, dec_sub_value in *. rewrite Ht in E'. by apply (Qlt_not_le _ _ E).
  - apply dec_gtb_value_false in E. apply dec_gtb_value in E'. rewrite dec_abs_value, dec_sub_value in *. rewrite Ht in E'. by apply (Qlt_not_le _ _ E').
Qed.

Lemma like_open s s' o e s1 v : like s s' → open_dct L s o e = (s1, ROk v) → ∃ s1', open_dct L s' o e = (s1', ROk v) ∧ like s1 s1'.
Proof using HR.
  intros Hs H. destruct s as [so sc sa sd sw], s' as [so' sc' sa' sd' sw'], Hs as [Ho Hc Hd Hw Ha]. cbn in *. subst so' sc' sd' sw'. unfold open_dct in *. cbn in *.
  destruct (so !! op_acc o); [done|]. destruct (sc !! op_acc o); [done|].
  assert (Hi : ∀ n a, ∀ m, option_Forall2 like_a (<[n := account_new L a.1.1 a.1.2 a.2]> sa !! m) (<[n := account_new L a.1.1 a.1.2 a.2]> sa' !! m)).
  { intros n [[al bk] ee] m. destruct (decide (n = m)) as [<-|Hne]; [rewrite !lookup_insert; constructor; constructor; try done; apply (ro_refl _ _ HR)|by rewrite !lookup_insert_ne]. }
  destruct (lib_supported L _); cbn in *; (destruct (op_booking o) as [bk|]; [destruct (lib_supported L (booking_into bk))|]); injection H as <- <-;
    (eexists; split; [reflexivity|]; constructor; cbn; [done..|]; intros m; apply (Hi (op_acc o) (_, _, _) m)).
Qed.


(** ** Booked directives *)
Lemma posting_alike_refl p : posting_alike p p.
Proof. by split. Qed.
Lemma postings_alike_refl l : Forall2 posting_alike l l.
Proof. induction l; constructor; [apply posting_alike_refl|done]. Qed.
Lemma booked_alike_refl b : booked_alike b b.
Proof. split; try done. unfold variant_alike. destruct (b_variant b); try done. split_and!; [done..|apply postings_alike_refl]. Qed.
(** The same at all places but [k] and the one after, which are exchanged. *)
Record near (k : nat) (bs cs : list bdirective) : Prop := {
  n_length : length bs = length cs;
  n_other : ∀ j, j ≠ k → j ≠ S k → option_Forall2 booked_alike (bs !! j) (cs !! j);
  n_first : option_Forall2 booked_alike (bs !! k) (cs !! S k);
  n_second : option_Forall2 booked_alike (bs !! S k) (cs !! k) }.
Lemma near_app k bs cs new new' : near k bs cs → S k < length bs → Forall2 booked_alike new new' → near k (bs ++ new) (cs ++ new').
Proof.
  intros [H1 H2 H3 H4] Hk Hn. split.
  - rewrite !app_length, H1. by rewrite (Forall2_length _ _ _ Hn).
  - intros j J1 J2. destruct (decide (j < length bs)) as [Hl|Hl].
    + rewrite !lookup_app_l by lia. by apply H2.
    + rewrite !lookup_app_r by lia. rewrite H1. destruct (new !! (j - length cs)) as [x|] eqn:E.
      * destruct (Forall2_lookup_l _ _ _ _ _ Hn E) as (y&->&Hy). by constructor.
      * rewrite (proj2 (lookup_ge_None new' _)); [constructor|]. rewrite <- (Forall2_length _ _ _ Hn). by apply lookup_ge_None.
  - by rewrite !lookup_app_l by lia.
  - by rewrite !lookup_app_l by lia.
Qed.
Lemma near_insert k j bs cs b c : near k bs cs → j ≠ k → j ≠ S k → j < length bs → booked_alike b c → near k (<[j := b]> bs) (<[j := c]> cs).
Proof.
  intros [H1 H2 H3 H4] J1 J2 Hj Ha. split.
  - by rewrite !insert_length.
  - intros i I1 I2. destruct (decide (j = i)) as [<-|Hne]; [rewrite !list_lookup_insert by lia; by constructor|]. rewrite !list_lookup_insert_ne by done. by apply H2.
  - by rewrite !list_lookup_insert_ne by done.
  - by rewrite !list_lookup_insert_ne by done.
Qed.
(** The pads which wait are where the directives are the same. *)
Definition pads (Q : nat → Prop) (s : accst P) (bds : list bdirective) : Prop :=
  ∀ n x j u, s_accounts s !! n = Some x → a_pad x = Some (j, u) → S j < length bds ∧ Q j.
Lemma pads_more Q s bds new : pads Q s bds → pads Q s (bds ++ new).
Proof. intros H n x j u Hx Hp. destruct (H n x j u Hx Hp). split; [rewrite app_length; lia|done]. Qed.
Lemma pads_put Q s bds n x x0 : pads Q s bds → s_accounts s !! n = Some x0 → (a_pad x = a_pad x0 ∨ a_pad x = None) → pads Q (put_account s n x) bds.
Proof.
  intros H E Hx m y j u. cbn. destruct (decide (n = m)) as [<-|Hne]; [|rewrite lookup_insert_ne by done; by apply H].
  rewrite lookup_insert. intros [= <-]. destruct Hx as [->| ->]; [by apply (H n)|done].
Qed.
Lemma pads_insert Q s bds j b : pads Q s bds → pads Q s (<[j := b]> bds).
Proof. intros H n x i u Hx Hp. rewrite insert_length. by eapply H. Qed.

(** ** One step of both *)
Lemma near_step (Q : nat → Prop) k i d s s' bds bds' s1 b1 : (∀ j, Q j → S j < k ∨ S k < j) → (∀ j, S k < j → Q j) → like s s' → near k bds bds' → S k < length bds → pads Q s bds →
  good_step L ord i d s bds = Some (s1, b1) →
  ∃ s1' b1', good_step L ord i d s' bds' = Some (s1', b1') ∧ like s1 s1' ∧ near k b1 b1' ∧ S k < length b1 ∧ pads Q s1 b1.
Proof using HR HL Hext Hord.
  intros HQ HQ' Hs Hn Hk Hp. unfold good_step, directive_dct.
  assert (∀ s s' bds bds' v, like s s' → near k bds bds' → S k < length bds → pads Q s bds → Some (s, bds ++ [booked_of i d v]) = Some (s1, b1) →
    ∃ s1' b1', Some (s', bds' ++ [booked_of i d v]) = Some (s1', b1') ∧ like s1 s1' ∧ near k b1 b1' ∧ S k < length b1 ∧ pads Q s1 b1) as Hone.
  { intros s2 s2' b2 b2' v A1 A2 A3 A4 [= <- <-]. exists s2', (b2' ++ [booked_of i d v]). split; [done|]. split; [done|].
    split; [apply near_app; [done..|]; constructor; [apply booked_alike_refl|constructor]|]. split; [rewrite app_length; lia|by apply pads_more]. }
  destruct (d_variant d) as [t|p|b|o|a|cu|p|a1 a2|a1 a2|a1 a2|a1 a2|cu] eqn:Ed; cbn [app]; try (by apply Hone).
  - unfold transaction_dct. destruct (book_txn L s _ _ _) as [s2 [l| |]] eqn:Eb; cbn; [|done..].
    destruct (like_txn _ _ _ _ _ _ _ Hs Eb) as (s2'&->&Hs2). apply Hone; try done.
    apply txn_inv in Eb as (ips&upd&_&_&_&_&_&_&_&_&Ea). intros n x j u Hx Hpx. rewrite Ea in Hx.
    destruct (s_accounts s !! n) as [y|] eqn:Ey; [|done]. injection Hx as <-. by eapply (Hp n y).
  - unfold balance_dct, get_valid_account. rewrite (like_validate _ _ _ _ Hs). destruct (validate_account s _ _); [done|].
    destruct (s_accounts s !! bal_acc b) as [x|] eqn:Ex; [|done]. destruct (like_lookup _ _ _ _ Hs Ex) as (x'&Ex'&Hx). rewrite Ex'.
    rewrite (like_currency _ _ _ _ Hx). destruct (validate_currency x _ _); [done|]. cbn zeta.
    rewrite <- (la_window _ _ Hx), <- (n_length _ _ _ Hn). set (W := match a_window x with Some (_, o) => _ | None => _ end). clearbody W. cbn [a_pad set_window].
    rewrite <- (la_pad _ _ Hx). pose proof (like_margin s s' b Hs) as Hm. fold (bal_margin L ord s b) (bal_margin L ord s' b).
    destruct (bal_margin L ord s b) as [m|], (bal_margin L ord s' b) as [m'|]; try done.
    2: { destruct (a_pad x) as [[j u]|] eqn:Ej; [done|]. cbn. apply Hone; [|done..|].
         - apply like_put; [done|]. destruct Hx. by constructor.
         - eapply pads_put; [done..|by right]. }
    destruct (a_pad x) as [[j u]|] eqn:Ej; [|done]. destruct (Hp _ _ _ _ Ex Ej) as [Hj1 Hj2%HQ].
    pose proof (n_other _ _ _ Hn j ltac:(lia) ltac:(lia)) as N1. pose proof (n_other _ _ _ Hn (S j) ltac:(lia) ltac:(lia)) as N2.
    destruct (bds !! j) as [pb|]; [|done]. destruct (bds' !! j) as [pb'|]; [|by inversion N1]. assert (booked_alike pb pb') as B1 by by inversion N1.
    apply ba_variant in B1. destruct (b_variant pb) as [| | | | | |p| | | | |] eqn:Epb; try done. cbn in B1.
    destruct (b_variant pb'); try done. injection B1 as <-. 
    destruct (bds !! S j) as [tb|]; [|done]. destruct (bds' !! S j) as [tb'|]; [|by inversion N2]. assert (booked_alike tb tb') as B2 by by inversion N2.
    pose proof (ba_variant _ _ B2) as B3. destruct (b_variant tb) as [t| | | | | | | | | | |] eqn:Etb; try done. cbn in B3.
    destruct (b_variant tb') as [t'| | | | | | | | | | |]; try done. destruct B3 as (T1&T2&T3&_).
    set (x1 := adjust_account_to_match_balance L _ _ _ _). set (x1' := adjust_account_to_match_balance L (set_pad (set_window x' _) _) _ _ _).
    assert (like_a x1 x1') as Hx1.
    { unfold x1, x1'. destruct Hx. constructor; cbn; [done..|]. by apply (ro_accumulate _ _ HR). }
    assert (pads Q (put_account s (bal_acc b) x1) bds) as Hp1 by (eapply pads_put; [done..|by right]).
    pose proof (like_put _ _ (bal_acc b) _ _ Hs Hx1) as Hs1.
    set (s2 := put_account s (bal_acc b) x1) in *. set (s2' := put_account s' (bal_acc b) x1') in *. clearbody s2 s2'.
    destruct (s_accounts s2 !! pad_source p) as [z|] eqn:Ez; [|done]. destruct (like_lookup _ _ _ _ Hs1 Ez) as (z'&->&Hz).
    cbn [with_none bb_unused_pad bb_margin]. apply Hone.
    + apply like_put; [done|]. destruct Hz. constructor; cbn; [done..|]. apply (ro_accumulate _ _ HR); [done|]. by rewrite !dec_neg_value, Hm.
    + apply near_insert; [done|lia..|]. destruct B2 as [D1 D2 D3 D4 _]. split; cbn; [done..|]. split_and!; [done..|].
      unfold calculate_balance_pad_postings. constructor; [by split|]. constructor; [|constructor]. split; [cbn; by rewrite !dec_neg_value, Hm|done].
    + by rewrite insert_length.
    + apply pads_insert. eapply pads_put; [done..|by left].
  - destruct (open_dct L s o _) as [s2 [v| |]] eqn:Eo; cbn; [|done..]. destruct (like_open _ _ _ _ _ _ Hs Eo) as (s2'&->&Hs2). cbn.
    assert (v = BVOpen o ∧ pads Q s2 bds) as [-> Hp2].
    { unfold open_dct in Eo. destruct (s_open s !! op_acc o); [done|]. cbn in Eo. destruct (s_closed s !! op_acc o); [done|].
      assert (∀ bk w sn n x j u, s_accounts (push_warning (put_account (set_open s w) (op_acc o) (account_new L sn bk (eidx_of_nat i))) (mk_report (eidx_of_nat i) "")) !! n = Some x → a_pad x = Some (j, u) → S j < length bds ∧ Q j) as Hpo.
      { intros bk w sn n x j u. cbn. destruct (decide (op_acc o = n)) as [<-|Hne]; [rewrite lookup_insert; by intros [= <-]|]. rewrite lookup_insert_ne by done. apply Hp. }
      destruct (lib_supported L _); cbn in Eo; (destruct (op_booking o) as [bk|]; [destruct (lib_supported L (booking_into bk))|]); injection Eo as <- <-; (split; [done|]); exact (Hpo _ ∅ _). }
    by apply Hone.
  - unfold close_dct. rewrite <- (l_open _ _ Hs), <- (l_closed _ _ Hs). destruct (s_open s !! a); [|done]. destruct (s_closed s !! a); [done|]. cbn.
    apply Hone; try done. destruct Hs as [H1 H2 H3 H4 H5]. constructor; cbn; [by rewrite H1|by rewrite H2|done..].
  - unfold pad_dct, get_valid_account. rewrite (like_validate _ _ _ _ Hs). destruct (validate_account s _ _); [done|].
    destruct (s_accounts s !! pad_acc p) as [x|] eqn:Ex; [|done]. destruct (like_lookup _ _ _ _ Hs Ex) as (x'&Ex'&Hx). rewrite Ex', <- (la_pad _ _ Hx).
    destruct (a_pad x) as [[j u]|] eqn:Ej; [done|]. rewrite <- (n_length _ _ _ Hn). intros [= <- <-].
    eexists _, _. split; [reflexivity|]. split; [apply like_put; [done|]; destruct Hx; by constructor|]. split.
    + apply near_app; [done..|]. constructor; [apply booked_alike_refl|]. constructor; [apply booked_alike_refl|constructor].
    + split; [rewrite app_length; cbn; lia|]. intros n y j u. cbn. destruct (decide (pad_acc p = n)) as [<-|Hne].
      * rewrite lookup_insert. intros [= <-]. cbn. intros [= <- _]. rewrite app_length. cbn. split; [lia|]. apply HQ'. lia.
      * rewrite lookup_insert_ne by done. intros Hy Hpy. destruct (Hp _ _ _ _ Hy Hpy). rewrite app_length. split; [lia|done].
Qed.
Lemma near_loop (Q : nat → Prop) k i ds s s' bds bds' s1 b1 : (∀ j, Q j → S j < k ∨ S k < j) → (∀ j, S k < j → Q j) → like s s' → near k bds bds' → S k < length bds → pads Q s bds →
  good_loop L ord i ds s bds = Some (s1, b1) →
  ∃ s1' b1', good_loop L ord i ds s' bds' = Some (s1', b1') ∧ like s1 s1' ∧ near k b1 b1' ∧ S k < length b1.
Proof using HR HL Hext Hord.
  intros HQ HQ'. revert i s s' bds bds'. induction ds as [|d ds IH]; intros i s s' bds bds' Hs Hn Hk Hp; cbn [good_loop].
  { intros [= <- <-]. by exists s', bds'. }
  destruct (good_step L ord i d s bds) as [[s2 b2]|] eqn:Eg; [|done]. cbn [mbind option_bind fst snd]. intros Hl.
  destruct (near_step Q k i d s s' bds bds' s2 b2 HQ HQ' Hs Hn Hk Hp Eg) as (s2'&b2'&->&H1&H2&H3&H4). cbn [mbind option_bind fst snd].
  by apply (IH (S i) s2 s2' b2 b2').
Qed.
Lemma good_loop_app i ds ds' s bds : good_loop L ord i (ds ++ ds') s bds = x ← good_loop L ord i ds s bds; good_loop L ord (i + length ds) ds' x.1 x.2.
Proof.
  revert i s bds. induction ds as [|d ds IH]; intros i s bds; cbn [app good_loop length]; [by rewrite Nat.add_0_r|].
  destruct (good_step L ord i d s bds) as [x|]; cbn [mbind option_bind]; [|done]. rewrite IH. by replace (i + S (length ds)) with (S i + length ds) by lia.
Qed.
(** Pads are where their directives are; for this one of two empty books will do. *)
Lemma pads_loop i ds bk s bds : good_loop L ord i ds (acc_new bk) [] = Some (s, bds) → pads (λ _, True) s bds.
Proof using HL Hord.
  set (no := λ _ : string, false). set (non := λ _ : nat, false).
  assert (∀ i ds s0 b0 s bds, part no non s0 b0 (acc_new bk) [] → sound no non (λ _, True) s0 b0 → good_loop L ord i ds s0 b0 = Some (s, bds) → sound no non (λ _, True) s bds) as H.
  { clear -HL. intros i ds. revert i. induction ds as [|d ds IH]; intros i s0 b0 s bds Hp Hs; cbn [good_loop]; [by intros [= <- <-]|].
    destruct (good_step L ord i d s0 b0) as [[s2 b2]|] eqn:Eg; [|done]. cbn [mbind option_bind fst snd].
    destruct (other_step L HL ord no non (λ _, True) i d s0 b0 (acc_new bk) [] s2 b2 Hp Hs) as [H1 H2]; [|done..|].
    - unfold SplitSpec.about. destruct (d_variant d); try done. by apply Forall_true.
    - by apply (IH (S i)). }
  intros Hl. apply H in Hl; [|apply part_new|apply sound_new]. intros n x j u Hx Hp.
  destruct (sd_pads _ _ _ _ _ Hl n x j u Hx Hp) as (?&?&?&?&_&_&Hj&_). split; [|done]. by eapply lookup_lt_Some.
Qed.
Lemma good_txn i d t s bds : d_variant d = DTransaction t → good_step L ord i d s bds =
  match book_txn L s (d_date d) (tx_postings t) (eidx_of_nat i) with
  | (s', ROk l) => Some (s', bds ++ [booked_of i d (BVTransaction (BTransaction (tx_flag t) (tx_payee t) (tx_narration t) l))])
  | _ => None end.
Proof. intros E. unfold good_step, directive_dct, transaction_dct. rewrite E. by destruct (book_txn L s _ _ _) as [s' [l| |]]. Qed.
Lemma alike_numbered i j d v : booked_alike (booked_of i d v) (booked_of j d v).
Proof. destruct (booked_alike_refl (booked_of i d v)). by split. Qed.
Lemma swap_good ds1 a b ds2 bk s1 b1 : costless_transaction a → costless_transaction b →
  good_loop L ord 0 (ds1 ++ a :: b :: ds2) (acc_new bk) [] = Some (s1, b1) →
  ∃ s1' b1' k, good_loop L ord 0 (ds1 ++ b :: a :: ds2) (acc_new bk) [] = Some (s1', b1') ∧ like s1 s1' ∧ near k b1 b1' ∧ S k < length b1.
Proof using HR HL Hext Hord.
  intros (t&Ea&Ca) (u&Eb&Cb). rewrite !good_loop_app. destruct (good_loop L ord 0 ds1 _ []) as [[s bds]|] eqn:E0; [|done].
  cbn [mbind option_bind fst snd good_loop]. pose proof (pads_loop _ _ _ _ _ E0) as Hp. set (i := 0 + length ds1).
  rewrite (good_txn i a t) by done. destruct (book_txn L s (d_date a) _ _) as [s2 [l| |]] eqn:B1; [|done..]. cbn [mbind option_bind fst snd].
  rewrite (good_txn (S i) b u) by done. destruct (book_txn L s2 (d_date b) _ _) as [s3 [l'| |]] eqn:B2; [|done..]. cbn [mbind option_bind fst snd]. intros Hl.
  destruct (swap_txn _ _ _ _ _ _ _ _ _ _ _ (eidx_of_nat i) (eidx_of_nat (S i)) Ca Cb B1 B2) as (s2'&s3'&B1'&B2'&Hs).
  rewrite (good_txn i b u) by done. rewrite B1'. cbn [mbind option_bind fst snd]. rewrite (good_txn (S i) a t) by done. rewrite B2'. cbn [mbind option_bind fst snd].
  rewrite <- !app_assoc in *. cbn [app] in *. set (k := length bds).
  destruct (near_loop (λ j, S j < k ∨ S k < j) k (S (S i)) ds2 s3 s3' (bds ++
    [booked_of i a (BVTransaction (BTransaction (tx_flag t) (tx_payee t) (tx_narration t) l)); booked_of (S i) b (BVTransaction (BTransaction (tx_flag u) (tx_payee u) (tx_narration u) l'))]) (bds ++
    [booked_of i b (BVTransaction (BTransaction (tx_flag u) (tx_payee u) (tx_narration u) l')); booked_of (S i) a (BVTransaction (BTransaction (tx_flag t) (tx_payee t) (tx_narration t) l))]) s1 b1) as (s1'&b1'&H1&H2&H3&H4); [done|by right|exact Hs| | | |exact Hl|].
  - split.
    + by rewrite !app_length.
    + intros j J1 J2. destruct (decide (j < k)) as [Hj|Hj].
      * rewrite !lookup_app_l by done. destruct (bds !! j); constructor. apply booked_alike_refl.
      * rewrite (proj2 (lookup_ge_None (bds ++ _) _)) by (rewrite app_length; cbn; fold k; lia). rewrite (proj2 (lookup_ge_None (bds ++ _) _)) by (rewrite app_length; cbn; fold k; lia). constructor.
    + rewrite !lookup_app_r by (unfold k; lia). unfold k. rewrite Nat.sub_diag, Nat.sub_succ_l, Nat.sub_diag by lia. cbn. constructor. apply alike_numbered.
    + rewrite !lookup_app_r by (unfold k; lia). unfold k. rewrite Nat.sub_diag, Nat.sub_succ_l, Nat.sub_diag by lia. cbn. constructor. apply alike_numbered.
  - rewrite app_length. cbn. unfold k. lia.
  - intros n x j v Hx Hpx. apply txn_inv in B2 as (_&upd&_&_&_&_&_&_&_&_&A2). apply txn_inv in B1 as (_&upd0&_&_&_&_&_&_&_&_&A1).
    rewrite A2, A1 in Hx. destruct (s_accounts s !! n) as [y|] eqn:Ey; [|done]. injection Hx as <-. cbn in Hpx.
    destruct (Hp _ _ _ _ Ey Hpx) as [Hj _]. rewrite app_length. split; [lia|by left].
  - by exists s1', b1', k.
Qed.
Lemma near_order k bs cs : near k bs cs → S k < length bs → same_but_order bs cs.
Proof.
  intros [H1 H2 H3 H4] Hk. destruct (lookup_lt_is_Some_2 bs k) as [x Hx]; [lia|]. destruct (lookup_lt_is_Some_2 bs (S k)) as [y Hy]; [lia|].
  exists (<[k := y]> (<[S k := x]> bs)). split.
  - assert (drop (S k) bs = y :: drop (S (S k)) bs) as Hd by by apply drop_S.
    pose proof (take_drop_middle bs k x Hx) as Hb. rewrite Hd in Hb.
    assert (length (take k bs) = k) as Hl by (rewrite take_length; lia). revert Hb Hl. generalize (take k bs) (drop (S (S k)) bs). intros A C <- <-.
    rewrite insert_app_r_alt by lia. rewrite Nat.sub_succ_l, Nat.sub_diag by lia. cbn. rewrite insert_app_r_alt by lia. rewrite Nat.sub_diag. cbn.
    apply Permutation_app_head, perm_swap.
  - apply Forall2_same_length_lookup. rewrite !insert_length. split; [done|]. intros j b c Hb Hc.
    destruct (decide (j = k)) as [->|Hj1]; [|destruct (decide (j = S k)) as [->|Hj2]].
    + rewrite list_lookup_insert in Hb by (rewrite insert_length; lia). injection Hb as <-. rewrite Hy, Hc in H4. by inversion H4.
    + rewrite list_lookup_insert_ne, list_lookup_insert in Hb by lia. injection Hb as <-. rewrite Hx, Hc in H3. by inversion H3.
    + rewrite !list_lookup_insert_ne in Hb by done. specialize (H2 j Hj1 Hj2). rewrite Hb, Hc in H2. by inversion H2.
Qed.
Lemma swap_book opt ds1 a b ds2 bs ws : costless_transaction a → costless_transaction b →
  book L ord opt (ds1 ++ a :: b :: ds2) = BookSuccess bs ws → ∃ bs', book L ord opt (ds1 ++ b :: a :: ds2) = BookSuccess bs' ws ∧ same_but_order bs bs'.
Proof using HR HL Hext Hord.
  intros Ca Cb (s&Hg&Hw&Hp)%book_good; [|done]. destruct (swap_good _ _ _ _ _ _ _ Ca Cb Hg) as (s'&bs'&k&Hg'&Hs&Hn&Hk).
  exists bs'. split; [|by eapply near_order]. apply book_good; [done|]. exists s'. split; [done|]. split; [by rewrite <- (l_warnings _ _ Hs)|].
  intros n x' Hx'. pose proof (l_accounts _ _ Hs n) as Ha. rewrite Hx' in Ha. destruct (s_accounts s !! n) as [x|] eqn:Ex; [|by inversion Ha].
  assert (like_a x x') as Hl by by inversion Ha. rewrite <- (la_pad _ _ Hl). by eapply Hp.
Qed.
End Shuffle.

(** ** The same but for the order *)
Lemma posting_alike_trans p q r : posting_alike p q → posting_alike q r → posting_alike p r.
Proof. intros [H1 H2] [H3 H4]. split; [by rewrite H1|]. destruct H2 as (?&?&?&?&?&?&?&?&?), H4 as (?&?&?&?&?&?&?&?&?). split_and!; congruence. Qed.
Lemma booked_alike_trans b c d : booked_alike b c → booked_alike c d → booked_alike b d.
Proof.
  intros [A1 A2 A3 A4 A5] [B1 B2 B3 B4 B5]. split; [congruence..|]. unfold variant_alike in *.
  destruct (b_variant b), (b_variant c), (b_variant d); try done; try congruence. destruct A5 as (?&?&?&A), B5 as (?&?&?&B). split_and!; [congruence..|].
  clear -A B. revert B. generalize (bt_postings t1). induction A as [|x y l l' Hxy _ IH]; intros l'' B; inversion B; subst; constructor; [by eapply posting_alike_trans|by apply IH].
Qed.
Lemma alike_perm ms cs ns : Forall2 booked_alike ms cs → cs ≡ₚ ns → ∃ ks, ms ≡ₚ ks ∧ Forall2 booked_alike ks ns.
Proof.
  intros H Hp. revert ms H. induction Hp as [|x l l' _ IH|x y l|l l' l'' _ IH1 _ IH2]; intros ms H.
  - inversion H; subst. by exists [].
  - inversion H as [|m ? ms' ? Hm Hs]; subst. destruct (IH _ Hs) as (ks&H1&H2). exists (m :: ks). split; [by rewrite H1|by constructor].
  - inversion H as [|m ? ms' ? Hm Hs]; subst. inversion Hs as [|m' ? ms'' ? Hm' Hs']; subst. exists (m' :: m :: ms''). split; [apply perm_swap|]. constructor; [done|]. by constructor.
  - destruct (IH1 _ H) as (ks&H1&H2). destruct (IH2 _ H2) as (ks'&H3&H4). exists ks'. split; [by rewrite H1|done].
Qed.
Lemma same_but_order_refl bs : same_but_order bs bs.
Proof. exists bs. split; [done|]. induction bs; constructor; [apply booked_alike_refl|done]. Qed.
Lemma same_but_order_trans bs cs ds : same_but_order bs cs → same_but_order cs ds → same_but_order bs ds.
Proof.
  intros (ms&H1&H2) (ns&H3&H4). destruct (alike_perm _ _ _ H2 H3) as (ks&H5&H6). exists ks. split; [by rewrite H1|].
  clear -H4 H6. revert ks H6. induction H4 as [|x y l l' Hxy _ IH]; intros ks H; inversion H; subst; constructor; [by eapply booked_alike_trans|by apply IH].
Qed.
Lemma reordered_sym ds ds' : reordered ds ds' → reordered ds' ds.
Proof. induction 1; [constructor|by constructor|by eapply RO_step]. Qed.
(** Any order of transactions which follow each other. *)
Lemma reordered_block ds1 l l' ds2 : l ≡ₚ l' → Forall costless_transaction l → reordered (ds1 ++ l ++ ds2) (ds1 ++ l' ++ ds2).
Proof.
  intros Hp. revert ds1. induction Hp as [|x l l' _ IH|x y l|l l' l'' H1 IH1 _ IH2]; intros ds1 HF.
  - constructor.
  - apply Forall_cons in HF as [_ HF]. specialize (IH (ds1 ++ [x]) HF). by rewrite <- !app_assoc in IH.
  - apply Forall_cons in HF as [Hy HF]. apply Forall_cons in HF as [Hx HF]. by apply RO_swap.
  - eapply RO_step; [by apply IH1|]. apply IH2. by rewrite <- H1.
Qed.
