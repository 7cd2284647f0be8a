(** Booking booked directives again goes step by step as booking the ledger did. *)
From Coq Require Import Ascii QArith Qabs.
From stdpp Require Import prelude gmap strings pretty.
From Verif Require Import DecModel DecProofs LedgerTypes BookModel BookSpec BookLib BookSteps BookInv BookUnits WriteSpec RebookSpec.
Local Open Scope nat_scope.

Section Rebook.
Context {P : Type} (L : booking_lib P) (same : P → P → Prop) (HL : settles L same).
Context (ord ord' : gmap string (account P) → list (string * account P)).
Context (Hord : ∀ m, ord m ≡ₚ map_to_list m) (Hord' : ∀ m, ord' m ≡ₚ map_to_list m).

Record like_a (a a' : account P) : Prop := {
  la_allowed : a_allowed a = a_allowed a'; la_opened : a_opened a = a_opened a';
  la_window : a_window a = a_window a'; la_booking : a_booking a = a_booking a';
  la_pad : a_pad a = None; la_pad' : a_pad a' = None; la_same : same (a_positions a) (a_positions a') }.
Record like (s s' : accst P) : Prop := {
  l_open : s_open s = s_open s'; l_closed : s_closed s = s_closed s';
  l_default : s_default_booking s = s_default_booking s'; l_warnings : s_warnings s = s_warnings s';
  l_accounts : ∀ n, option_Forall2 like_a (s_accounts s !! n) (s_accounts s' !! n) }.

Lemma like_put s s' n a a' : like s s' → like_a a a' → like (put_account s n a) (put_account s' n a').
Proof.
  intros [Ho Hc Hd Hw Ha] H. constructor; cbn; [done..|]. intros m. destruct (decide (n = m)) as [<-|Hne].
  - rewrite !lookup_insert. by constructor.
  - by rewrite !lookup_insert_ne.
Qed.
Lemma like_validate s s' n e : like s s' → validate_account s' n e = validate_account s n e.
Proof. intros [Ho Hc _ _ _]. unfold validate_account. by rewrite Ho, Hc. Qed.
Lemma like_currency a a' cur e : like_a a a' → validate_currency a' cur e = validate_currency a cur e.
Proof. intros [Ha Ho _ _ _ _ _]. unfold validate_currency, is_currency_valid. by rewrite Ha, Ho. Qed.
Lemma like_lookup s s' n a : like s s' → s_accounts s !! n = Some a → ∃ a', s_accounts s' !! n = Some a' ∧ like_a a a'.
Proof. intros H E. pose proof (l_accounts _ _ H n) as Hn. rewrite E in Hn. inversion Hn; subst. eauto. Qed.

(** ** A transaction *)
Lemma like_validate_postings s s' e i i' l l' :
  like s s' → (∀ ip ps, (ip, ps) ∈ l' → ∃ ip0 ps0, (ip0, ps0) ∈ l ∧ ps_acc ps0 = ps_acc ps ∧ in_currency ip0 = in_currency ip) →
  validate_postings s e i l = ROk tt → validate_postings s' e i' l' = ROk tt.
Proof using.
  intros Hs Hin Hv.
  assert (Hok : ∀ ip ps, (ip, ps) ∈ l' → ∃ x, is_Some (s_open s !! ps_acc ps) ∧ s_accounts s !! ps_acc ps = Some x ∧ is_currency_valid x (in_currency ip) = true).
  { intros ip ps (ip0&ps0&H0&<-&<-)%Hin. by eapply validate_postings_ok_elem. }
  clear Hin Hv. revert i'. induction l' as [|[ip ps] l' IH]; intros i'; [done|]. cbn [validate_postings].
  destruct (Hok ip ps) as (x&Ho&Hx&Hc); [left|]. destruct (like_lookup _ _ _ _ Hs Hx) as (x'&Hx'&Hl).
  unfold validate_account_and_currency, get_valid_account, validate_account. rewrite <- (l_open _ _ Hs). destruct Ho as [o ->].
  rewrite Hx'. rewrite (like_currency _ _ _ _ Hl). unfold validate_currency. rewrite Hc. apply IH. intros ip1 ps1 H1. apply Hok. by right.
Qed.

Lemma completed_of i ip ps : posting_as_written <$> booked_postings_of i ip ps = completed ip ps.
Proof.
  unfold booked_postings_of, completed. destruct (in_cost ip) as [lots|]; [|done]. rewrite <- list_fmap_compose. apply list_fmap_ext. by intros _ [c pc] _.
Qed.
Lemma completed_from i ips pss : posting_as_written <$> booked_postings_from i (zip ips pss) = all_completed ips pss.
Proof.
  unfold all_completed. revert i pss. induction ips as [|ip ips IH]; intros i [|ps pss]; try done. cbn. by rewrite fmap_app, IH, completed_of.
Qed.
Lemma repeats_posting ps ip i : repeats ps ip → ∃ q, booked_postings_of i ip ps = [q] ∧ posting_as_written q = ps ∧ in_currency ip = p_cur q.
Proof.
  intros H. unfold repeats in H. rewrite <- (completed_of i) in H. unfold booked_postings_of in *. destruct (in_cost ip) as [[|[c pc] [|]]|]; cbn in H; try done; eexists; (split; [reflexivity|]); by injection H as ->.
Qed.
Lemma repeats_written i pss ips : Forall2 repeats pss ips → posting_as_written <$> booked_postings_from i (zip ips pss) = pss.
Proof.
  intros H. revert i. induction H as [|ps ip pss ips H Hs IH]; intros i; [done|]. cbn. rewrite fmap_app, IH, completed_of. rewrite H. done.
Qed.
Lemma booked_from_in i l q : q ∈ booked_postings_from i l → ∃ ip ps, (ip, ps) ∈ l ∧ p_acc q = ps_acc ps ∧ p_cur q = in_currency ip.
Proof.
  revert i. induction l as [|[ip ps] l IH]; intros i; cbn; [by intros ?%elem_of_nil|]. intros [H|H]%elem_of_app.
  - exists ip, ps. split; [left|]. unfold booked_postings_of in H. destruct (in_cost ip) as [costs|].
    + apply elem_of_list_fmap in H as ([c pc]&->&_). done.
    + apply elem_of_list_singleton in H as ->. done.
  - destruct (IH _ H) as (ip'&ps'&H'&?). exists ip', ps'. split; [by right|done].
Qed.

Lemma update_valid s e l s1 u : update_inventory (P:=P) s e l = (s1, ROk u) →
  ∀ n, n ∈ l.*1 → validate_account s n e = None ∧ is_Some (s_accounts s !! n).
Proof using.
  revert s. induction l as [|[n p] l IH]; intros s; cbn; [by intros _ ? ?%elem_of_nil|].
  unfold get_valid_account. destruct (validate_account s n e) eqn:Ev; [done|]. destruct (s_accounts s !! n) as [x|] eqn:Ex; [|done].
  intros H m [->|Hm]%elem_of_cons; [split; [done|by eexists]|]. destruct (IH _ H m Hm) as [H1 H2]. split; [exact H1|].
  cbn in H2. destruct (decide (n = m)) as [<-|Hne]; [rewrite Ex; by eexists|]. by rewrite lookup_insert_ne in H2.
Qed.
Lemma update_runs s e l : (∀ n, n ∈ l.*1 → validate_account s n e = None ∧ is_Some (s_accounts s !! n)) →
  ∃ s1, update_inventory (P:=P) s e l = (s1, ROk tt).
Proof using.
  revert s. induction l as [|[n p] l IH]; intros s H; cbn; [by eexists|].
  unfold get_valid_account. destruct (H n) as [-> [x ->]]; [left|]. apply IH. intros m Hm. destruct (H m) as [H1 H2]; [by right|]. split; [exact H1|].
  cbn. destruct (decide (n = m)) as [<-|Hne]; [rewrite lookup_insert; by eexists|by rewrite lookup_insert_ne].
Qed.

Lemma rebook_txn s s' dt ps e s1 l : like s s' → book_txn L s dt ps e = (s1, ROk l) →
  ∃ s1' l', book_txn L s' dt (posting_as_written <$> l) e = (s1', ROk l') ∧ posting_as_written <$> l' = posting_as_written <$> l ∧ like s1 s1'.
Proof using HL.
  intros Hs (ips&upd&u&El&Ev&->&Eu)%book_txn_ok_inv. destruct u.
  destruct (st_book _ _ HL dt ps (λ name, a_positions <$> s_accounts s !! name) (λ name, a_positions <$> s_accounts s' !! name)
    (λ name, match s_accounts s !! name with Some a => a_booking a | None => s_default_booking s end) (λ name, match s_accounts s' !! name with Some a => a_booking a | None => s_default_booking s' end) ips upd) as (ips'&upd'&El'&Hrep&Hnd&Hnd'&Hup); [| |exact El|].
  { intros n. cbn beta. destruct (l_accounts _ _ Hs n) as [a a' Ha|]; constructor. by apply la_same. }
  { intros n. cbn beta. destruct (l_accounts _ _ Hs n) as [a a' Ha|]; [by apply la_booking|by apply l_default]. }
  rewrite <- !(completed_from 0) in *.
  set (qs := booked_postings_from 0 (zip ips ps)) in *.
  assert (Ev' : validate_postings s' e 0 (zip ips' (posting_as_written <$> qs)) = ROk tt).
  { eapply like_validate_postings; [done| |exact Ev]. intros ip ps' Hin. apply elem_of_list_lookup in Hin as [k Hk].
    apply lookup_zip_with_Some in Hk as (x&y&[= <- <-]&H1&H2). pose proof (Forall2_lookup_lr _ _ _ _ _ _ Hrep H2 H1) as Hr.
    apply list_lookup_fmap_Some in H2 as (q&Hq&->). apply elem_of_list_lookup_2, booked_from_in in Hq as (ip0&ps0&Hin&Ha&Hc).
    exists ip0, ps0. split; [done|]. split; [by rewrite <- Ha|]. destruct (repeats_posting _ _ 0 Hr) as (q'&_&Hq'&->).
    rewrite <- Hc. by injection Hq'. }
  assert (Hdom : ∀ n, n ∈ upd'.*1 → n ∈ upd.*1).
  { intros n Hn. destruct (decide (n ∈ upd.*1)) as [|Hno]; [done|]. exfalso. specialize (Hup n). rewrite (not_elem_of_list_to_map_1 upd) in Hup by done.
    inversion Hup as [|Hx Hy]. symmetry in Hy. by apply not_elem_of_list_to_map_2 in Hy. }
  destruct (update_runs s' e upd') as [s1' Eu'].
  { intros n Hn%Hdom. destruct (update_valid _ _ _ _ _ Eu n Hn) as [H1 [x H2]]. rewrite (like_validate _ _ _ _ Hs). split; [done|].
    destruct (like_lookup _ _ _ _ Hs H2) as (x'&->&_). by eexists. }
  exists s1', (booked_postings_from 0 (zip ips' (posting_as_written <$> qs))). split; [|split; [by apply repeats_written|]].
  - unfold book_txn. rewrite El', Ev', Eu'. done.
  - pose proof (update_inventory_only _ _ _ _ _ Eu) as Ho. pose proof (update_inventory_only _ _ _ _ _ Eu') as Ho'.
    destruct Ho as (Ho1&Ho2&Ho3&Ho4&_), Ho' as (Ho1'&Ho2'&Ho3'&Ho4'&_).
    destruct Hs as [H1 H2 H3 H4 H5]. constructor; [congruence..|]. intros n.
    rewrite (update_inventory_ok _ _ _ _ _ Hnd Eu), (update_inventory_ok _ _ _ _ _ Hnd' Eu').
    destruct (H5 n) as [a a' Ha|]; cbn; constructor. destruct Ha as [? ? ? ? ? ? Hsame]. constructor; cbn; [done..|].
    specialize (Hup n). inversion Hup as [p p' Hp E1 E2|E1 E2]; cbn; done.
Qed.

(** ** A balance *)
Lemma like_total s s' base cur : like s s' →
  (dec_value (total_rollup_units_for_currency L ord' s' base cur) == dec_value (total_rollup_units_for_currency L ord s base cur))%Q.
Proof using HL Hord Hord'.
  intros Hs. unfold total_rollup_units_for_currency, account_and_subaccounts. rewrite !dec_sum_value.
  set (g := λ y : string * account P, held L (a_positions y.2) cur).
  assert (Hg : ∀ l : list (string * account P), (foldr (λ d q, dec_value d + q) 0 ((λ a, default dec_zero (lib_units L (a_positions a) !! cur)) <$> (snd <$> l)) == Qsum (g <$> l))%Q).
  { intros l. induction l as [|y l IHl]; cbn; [done|]. rewrite IHl. done. }
  rewrite !Hg. rewrite (Qsum_perm _ (g <$> filter (λ x, is_nonstrict_subaccount base x.1 = true) (map_to_list (s_accounts s')))) by by rewrite (Hord' (s_accounts s')).
  rewrite (Qsum_perm (g <$> filter _ (ord _)) (g <$> filter (λ x, is_nonstrict_subaccount base x.1 = true) (map_to_list (s_accounts s)))) by by rewrite (Hord (s_accounts s)).
  pose proof (l_accounts _ _ Hs) as Ha. revert Ha. generalize (s_accounts s) (s_accounts s'). intros m m' Ha. clear s s' Hs Hg.
  set (F := λ m : gmap string (account P), Qsum (g <$> filter (λ x, is_nonstrict_subaccount base x.1 = true) (map_to_list m))). change (F m' == F m)%Q.
  assert (HF : ∀ m n a, m !! n = None → (F (<[n := a]> m) == (if is_nonstrict_subaccount base n then held L (a_positions a) cur else 0) + F m)%Q).
  { intros m0 n a Hn. unfold F. rewrite (Qsum_perm _ (g <$> filter (λ x, is_nonstrict_subaccount base x.1 = true) ((n, a) :: map_to_list m0))) by by rewrite map_to_list_insert.
    rewrite filter_cons. cbn [fst]. destruct (is_nonstrict_subaccount base n); [rewrite decide_True by done; done|rewrite decide_False by done; by rewrite Qplus_0_l]. }
  clearbody F. revert m' Ha. induction m as [|n a m Hn IH] using map_ind; intros m' Ha.
  { replace m' with (∅ : gmap string (account P)); [done|]. symmetry. apply map_empty. intros n. specialize (Ha n). rewrite lookup_empty in Ha. by inversion Ha. }
  pose proof (Ha n) as Hna. rewrite lookup_insert in Hna. inversion Hna as [? a' Hl E1 E2|]; subst.
  assert (Hd : ∀ k, option_Forall2 like_a (m !! k) (delete n m' !! k)).
  { intros k. destruct (decide (n = k)) as [<-|Hne]; [rewrite Hn, lookup_delete; constructor|]. rewrite lookup_delete_ne by done. specialize (Ha k). by rewrite lookup_insert_ne in Ha. }
  rewrite <- (insert_delete m' n a') by done. rewrite !HF by (done || apply lookup_delete). rewrite (IH _ Hd).
  destruct (is_nonstrict_subaccount base n); [|done]. rewrite (st_units _ _ HL _ _ cur (la_same _ _ Hl)). done.
Qed.
Lemma like_margin s s' b : like s s' → bal_margin L ord s b = None → bal_margin L ord' s' b = None.
Proof using HL Hord Hord'.
  intros Hs. unfold bal_margin, calculate_balance_margin. destruct (dec_gtb _ _) eqn:E; [done|]. intros _.
  destruct (dec_gtb (dec_abs (dec_sub _ (total_rollup_units_for_currency L ord' _ _ _))) _) eqn:E'; [|done]. exfalso.
  apply dec_gtb_value_false in E. apply dec_gtb_value in E'. rewrite dec_abs_value, dec_sub_value in *. rewrite (like_total s s') in E' by done.
  by apply (Qlt_not_le _ _ E').
Qed.

(** ** Open and close *)
Lemma like_open s s' o e s1 v : like s s' → open_dct L s o e = (s1, ROk v) → ∃ s1', open_dct L s' o e = (s1', ROk v) ∧ like s1 s1'.
Proof using HL.
  intros Hs H. destruct s as [so sc sa sd sw], s' as [so' sc' sa' sd' sw'], Hs as [Ho Hc Hd Hw Ha]. cbn in *. subst so' sc' sd' sw'. unfold open_dct in *. cbn in *.
  destruct (so !! op_acc o); [done|]. destruct (sc !! op_acc o); [done|].
  assert (Hi : ∀ n a, ∀ m, option_Forall2 like_a (<[n := account_new L a.1.1 a.1.2 a.2]> sa !! m) (<[n := account_new L a.1.1 a.1.2 a.2]> sa' !! m)).
  { intros n [[al bk] ee] m. destruct (decide (n = m)) as [<-|Hne]; [rewrite !lookup_insert; constructor; constructor; try done; apply (st_empty _ _ HL)|by rewrite !lookup_insert_ne]. }
  destruct (lib_supported L _); cbn in *; (destruct (op_booking o) as [bk|]; [destruct (lib_supported L (booking_into bk))|]); injection H as <- <-;
    (eexists; split; [reflexivity|]; constructor; cbn; [done..|]; intros m; apply (Hi (op_acc o) (_, _, _) m)).
Qed.

(** ** One directive *)
Definition step_goal i (c c' cc : @cst P) : Prop :=
  ∃ b b' s1, c_booked c' = c_booked c ++ [b] ∧ b_idx b = i ∧
    collect_step L ord' i (as_written b) cc = CRun (CSt s1 [] (c_booked cc ++ [b'])) ∧ b_idx b' = i ∧
    as_written b' = as_written b ∧ like (c_acc c') s1.
Lemma rebook_step i d c c' cc : ¬ is_pad d → like (c_acc c) (c_acc cc) → length (c_booked c) = length (c_booked cc) →
  c_errors c = [] → c_errors cc = [] → collect_step L ord i d c = CRun c' → c_errors c' = [] → step_goal i c c' cc.
Proof using HL Hord Hord'.
  intros Hpad Hs Hlen He Hee Hstep He'. destruct c as [s es bs], cc as [s' es' bs']. cbn in *. subst.
  destruct (collect_step_rel _ _ _ _ _ _ Hstep) as [v Hv|t s1 l Hv Hb|t s1 err Hv Hb|o j Hv Ho|o j Hv Ho Hc|o s1 bk ws Hv Ho Hc Hbk ->|a j Hv Ho Hc
    |a j k Hv Ho Hc|a Hv Ho|p err Hv Hva|p a k u Hv Hva Ha Hp|p a Hv Hva Ha Hp|b err Hv Hva|b a err Hv Hva Ha Hc|b a Hv Hva Ha Hc Hm|b a m s1 rep Hv Hva Ha Hc Hm Hp Hs1 Hr
    |b a m k u padd p txnd txn pa s1 Hv Hva Ha Hc Hm Hp]; cbn in *; try done; try (by destruct Hpad; eexists).
  - exists (booked_of i d v), (booked_of i d v), s'. split_and!; [done..| |done|done|done].
    unfold collect_step, as_written, booked_of. cbn. destruct (d_variant d); cbn in Hv; try done; by injection Hv as <-.
  - destruct (rebook_txn _ s' _ _ _ _ _ Hs Hb) as (s1'&l'&Hb'&Hl&Hs1). eexists _, _, s1'. split_and!; [done..| | | |done].
    { unfold collect_step, directive_dct, transaction_dct. cbn. rewrite Hb'. done. }
    { done. }
    { unfold as_written. cbn. by rewrite Hl. }
  - unfold collect_step, directive_dct in Hstep. rewrite Hv in Hstep. cbn [c_acc c_errors c_booked] in Hstep.
    destruct (open_dct L s o (eidx_of_nat i)) as [s2 [v|err|w]] eqn:Eo; cbn [with_none] in Hstep; [|by injection Hstep; intros; destruct bs|done].
    destruct (like_open _ _ _ _ _ _ Hs Eo) as (s1'&Eo'&Hl1). assert (v = BVOpen o) as ->.
    { unfold open_dct in Eo. rewrite Ho in Eo. cbn in Eo. rewrite Hc in Eo. destruct (lib_supported L _), (op_booking o); cbn in Eo; by injection Eo. }
    injection Hstep as Hacc. exists (booked_of i d (BVOpen o)), (booked_of i d (BVOpen o)), s1'. split_and!; [done..| |done|done|].
    { unfold collect_step, directive_dct. cbn [as_written d_variant booked_of b_variant c_acc c_errors c_booked]. rewrite Eo'. done. }
    { by rewrite <- Hacc. }
  - exists (booked_of i d (BVClose a)), (booked_of i d (BVClose a)). eexists. split_and!; [done..| |done|done|].
    { unfold collect_step, directive_dct, close_dct. cbn. rewrite <- (l_open _ _ Hs), Ho, <- (l_closed _ _ Hs), Hc. cbn. reflexivity. }
    { destruct Hs as [H1 H2 H3 H4 H5]. by constructor. }
  - destruct (a_pad a) as [[k u]|] eqn:Ep; [done|]. destruct (like_lookup _ _ _ _ Hs Ha) as (a'&Ha'&Hl).
    eexists _, _, _. split; [reflexivity|]. split; [done|]. split.
    { unfold collect_step, directive_dct, balance_dct, get_valid_account. cbn [as_written d_variant booked_of b_variant c_acc c_errors c_booked bb_raw].
      rewrite (like_validate _ _ _ _ Hs), Hva, Ha', (like_currency _ _ _ _ Hl), Hc.
      fold (bal_margin L ord' s' b). rewrite (like_margin s s' b Hs Hm). cbn [set_window set_pad a_pad]. rewrite (la_pad' _ _ Hl). cbn. reflexivity. }
    split; [done|]. split; [done|].
    apply like_put; [done|]. destruct Hl as [H1 H2 H3 H4 H5 H6 H7]. constructor; cbn; try done. unfold next_window. by rewrite H3, Hlen.
  - exfalso. destruct (like_lookup _ _ _ _ Hs Ha) as (a'&_&Hl). pose proof (la_pad _ _ Hl). congruence.
Qed.

(** ** The ledger *)
Lemma rebook_loop i ds c c' cc : Forall (λ d, ¬ is_pad d) ds → like (c_acc c) (c_acc cc) → length (c_booked c) = length (c_booked cc) →
  c_errors c = [] → c_errors cc = [] → collect_loop L ord i ds c = CRun c' → c_errors c' = [] →
  ∃ bs bs' s1, c_booked c' = c_booked c ++ bs ∧ collect_loop L ord' i (as_written <$> bs) cc = CRun (CSt s1 [] (c_booked cc ++ bs')) ∧
    as_written <$> bs' = as_written <$> bs ∧ b_idx <$> bs' = seq i (length ds) ∧ b_idx <$> bs = seq i (length ds) ∧ like (c_acc c') s1.
Proof using HL Hord Hord'.
  revert i c cc. induction ds as [|d ds IH]; intros i c cc Hp Hs Hlen He Hee; cbn [collect_loop].
  { intros [= <-] _. exists [], [], (c_acc cc). rewrite !app_nil_r. split_and!; try done. destruct cc; cbn in *; by subst. }
  apply Forall_cons in Hp as [Hpd Hp]. destruct (collect_step L ord i d c) as [c1|w] eqn:Es; [|done]. intros Hr He'.
  assert (He1 : c_errors c1 = []).
  { destruct (loop_errors_prefix L ord (S i) ds c1 c' Hr) as [new Hnew]. rewrite He' in Hnew. by destruct (c_errors c1). }
  destruct (rebook_step i d c c1 cc Hpd Hs Hlen He Hee Es He1) as (b&b'&s1&Hb&Hi&Hst&Hi'&Hw&Hl).
  destruct (IH (S i) c1 (CSt s1 [] (c_booked cc ++ [b'])) Hp) as (bs&bs'&s2&Hb2&Hst2&Hw2&Hi2&Hi3&Hl2); cbn; try done.
  { rewrite Hb, !app_length. cbn. lia. }
  exists (b :: bs), (b' :: bs'), s2. cbn in *. rewrite Hst. rewrite Hst2, Hw, Hw2, Hi, Hi', Hi2, Hi3. rewrite Hb2, Hb, <- !app_assoc. done.
Qed.
Lemma like_unused s s' : like s s' → unused_pad_reports ord' (s_accounts s') = [].
Proof using Hord'.
  intros Hs. unfold unused_pad_reports.
  assert (H : ∀ x, x ∈ ord' (s_accounts s') → a_pad x.2 = None).
  { intros [n a'] Hx. rewrite (Hord' (s_accounts s')) in Hx. apply elem_of_map_to_list in Hx. cbn. pose proof (l_accounts _ _ Hs n) as Hn. rewrite Hx in Hn. inversion Hn as [? ? Hl|]; subst. by apply la_pad' in Hl. }
  induction (ord' (s_accounts s')) as [|x l IH]; [done|]. cbn. rewrite (H x) by left. apply IH. intros y Hy. apply H. by right.
Qed.
Lemma rebook opt ds bs ws : Forall (λ d, ¬ is_pad d) ds → book L ord opt ds = BookSuccess bs ws →
  ∃ bs', book L ord' opt (as_written <$> bs) = BookSuccess bs' ws ∧ as_written <$> bs' = as_written <$> bs ∧
    b_idx <$> bs = seq 0 (length ds) ∧ b_idx <$> bs' = seq 0 (length ds).
Proof using HL Hord Hord'.
  intros Hp. unfold book, collect. set (s0 := acc_new _). destruct (collect_loop L ord 0 ds _) as [c'|w] eqn:El; [|done]. unfold validate.
  destruct (c_errors c' ++ _) as [|] eqn:Ee; [|done]. intros [= <- <-]. apply app_eq_nil in Ee as [Ee _].
  destruct (rebook_loop 0 ds (CSt s0 [] []) c' (CSt s0 [] []) Hp) as (bs&bs'&s1&Hb&Hst&Hw&Hi&Hi'&Hl); try done.
  { constructor; try done. intros n. cbn. rewrite lookup_empty. constructor. }
  cbn in Hb. rewrite Hb. cbn in Hst. rewrite Hst. cbn. rewrite (like_unused _ _ Hl). exists bs'. by rewrite (l_warnings _ _ Hl).
Qed.
End Rebook.
