(** Booking a ledger whose commodities have other names. *)
From Coq Require Import Ascii QArith Qabs.
From stdpp Require Import prelude gmap strings pretty.
From Verif Require Import DecModel DecProofs LedgerTypes BookModel BookSpec BookLib BookUnits BookFacts CljModel InventoryModel ClientModel CommoditySpec.
Local Open Scope nat_scope.

Section Commodity.
Context {P P' : Type} (L : booking_lib P) (L' : booking_lib P').
Context (r : string → string) (Hr : ∀ a b, r a = r b → a = b) (f : P → P') (HL : lib_renamed r f L L').
Context (ord : gmap string (account P) → list (string * account P)) (Hord : ∀ m, ord m ≡ₚ map_to_list m).
Context (ord' : gmap string (account P') → list (string * account P')) (Hord' : ∀ m, ord' m ≡ₚ map_to_list m).

Definition ra (a : account P) : account P' := Account (set_map r (a_allowed a)) (f (a_positions a)) (a_opened a) (a_pad a) (a_window a) (a_booking a).
Definition rs (s : accst P) : accst P' := AccSt (s_open s) (s_closed s) (ra <$> s_accounts s) (s_default_booking s) (s_warnings s).

Lemma rs_put s n a : rs (put_account s n a) = put_account (rs s) n (ra a).
Proof. unfold rs, put_account, set_accounts. cbn. by rewrite fmap_insert. Qed.
Lemma cur_valid a c : is_currency_valid (ra a) (r c) = is_currency_valid a c.
Proof using Hr.
  unfold is_currency_valid. cbn [ra a_allowed]. f_equal; apply bool_decide_ext.
  - split; [|by intros ->]. intros E. apply leibniz_equiv. intros x. split; [|by intros ?%elem_of_empty]. intros Hx.
    assert (r x ∈ (set_map r (a_allowed a) : gset string)) as Hm by by apply elem_of_map_2. by rewrite E in Hm.
  - split; [|by apply elem_of_map_2]. intros (x&E&Hx)%elem_of_map. by rewrite (Hr _ _ E).
Qed.
Lemma cur_validate a c e : validate_currency (ra a) (r c) e = validate_currency a c e.
Proof using Hr. unfold validate_currency. by rewrite cur_valid. Qed.
Definition map_rr {A B} (g : A → B) (x : rr A) : rr B := match x with ROk a => ROk (g a) | RErr e => RErr e | RPanic w => RPanic w end.
Lemma cur_get s n e : get_valid_account (rs s) n e = map_rr ra (get_valid_account s n e).
Proof.
  unfold get_valid_account, validate_account. cbn [rs s_open s_closed s_accounts]. rewrite lookup_fmap.
  destruct (s_open s !! n); [by destruct (s_accounts s !! n)|by destruct (s_closed s !! n)].
Qed.
Lemma filter_accounts base (l : list (string * account P)) :
  snd <$> filter (λ x, is_nonstrict_subaccount base x.1 = true) (prod_map id ra <$> l) = ra <$> (snd <$> filter (λ x, is_nonstrict_subaccount base x.1 = true) l).
Proof.
  induction l as [|x l IH]; [done|]. rewrite fmap_cons, !filter_cons. change ((prod_map id ra x).1) with (x.1).
  destruct (decide (is_nonstrict_subaccount base x.1 = true)); [|done]. rewrite !fmap_cons. by f_equal.
Qed.
Lemma cur_rollup s base c : total_rollup_units_for_currency L' ord' (rs s) base (r c) = total_rollup_units_for_currency L ord s base c.
Proof using HL Hord Hord'.
  unfold total_rollup_units_for_currency, account_and_subaccounts. apply dec_sum_perm. cbn [rs s_accounts].
  rewrite Hord', map_to_list_fmap, filter_accounts, Hord, <- list_fmap_compose.
  erewrite list_fmap_ext; [reflexivity|]. intros i a _. cbn. by rewrite (lr_units _ _ _ _ HL).
Qed.

(** ** Transactions *)
Local Notation ri := (recur_interpolated r).
Local Notation rps := (recur_posting_spec r).
Definition rz (x : interpolated * posting_spec) := (ri x.1, rps x.2).
Lemma cur_validate_postings s e i l : validate_postings (rs s) e i (rz <$> l) = validate_postings s e i l.
Proof using Hr.
  revert i. induction l as [|[ip ps] l IH]; intros i; [done|]. rewrite fmap_cons. cbn [validate_postings rz fst snd].
  unfold validate_account_and_currency. rewrite cur_get. change (ps_acc (rps ps)) with (ps_acc ps). change (in_currency (ri ip)) with (r (in_currency ip)).
  destruct (get_valid_account s (ps_acc ps) _); cbn [map_rr]; [|done..]. rewrite cur_validate. destruct (validate_currency _ _ _); [done|]. apply IH.
Qed.
Lemma cur_booked_from i l : booked_postings_from i (rz <$> l) = recur_posting r <$> booked_postings_from i l.
Proof.
  revert i. induction l as [|[ip ps] l IH]; intros i; [done|]. rewrite fmap_cons. cbn [booked_postings_from rz fst snd]. rewrite fmap_app, <- IH. f_equal.
  unfold booked_postings_of. cbn [recur_interpolated in_cost]. destruct (in_cost ip); [|done]. cbn [fmap option_fmap option_map]. 
  rewrite <- !list_fmap_compose. apply list_fmap_ext. by intros _ [? ?] _.
Qed.
Lemma zip_cur ips ps : zip (ri <$> ips) (rps <$> ps) = rz <$> zip ips ps.
Proof. revert ps. induction ips as [|ip ips IH]; intros [|p ps]; try done. rewrite !fmap_cons. cbn [zip zip_with]. rewrite fmap_cons. f_equal. apply IH. Qed.
Lemma cur_update s e l : update_inventory (rs s) e ((λ x, (x.1, f x.2)) <$> l) = (rs (update_inventory s e l).1, (update_inventory s e l).2).
Proof.
  revert s. induction l as [|[n p] l IH]; intros s; [done|]. rewrite fmap_cons. cbn [update_inventory fst snd].
  rewrite cur_get. destruct (get_valid_account s n e) as [a| |]; cbn [map_rr]; [|done..]. 
  change (set_positions (ra a) (f p)) with (ra (set_positions a p)). by rewrite <- rs_put, IH.
Qed.
Definition alike {A B} (g : A → B) (x : rr A) (x' : rr B) : Prop :=
  match x, x' with ROk a, ROk a' => a' = g a | RErr e, RErr e' => same_but_text e e' | RPanic _, RPanic _ => True | _, _ => False end.
Lemma same_refl e : same_but_text e e.
Proof. done. Qed.
Lemma cur_txn s dt ps e :
  (book_txn L' (rs s) dt (rps <$> ps) e).1 = rs (book_txn L s dt ps e).1 ∧
  alike (fmap (recur_posting r)) (book_txn L s dt ps e).2 (book_txn L' (rs s) dt (rps <$> ps) e).2.
Proof using HL Hr.
  unfold book_txn.
  set (inv := λ name, a_positions <$> s_accounts s !! name). set (bk := λ name, match s_accounts s !! name with Some a => a_booking a | None => s_default_booking s end).
  set (inv' := λ name, a_positions <$> s_accounts (rs s) !! name). set (bk' := λ name, match s_accounts (rs s) !! name with Some a => a_booking a | None => s_default_booking (rs s) end).
  assert (∀ a, inv' a = f <$> inv a) as Hinv.
  { intros a. unfold inv', inv. cbn [rs s_accounts]. rewrite lookup_fmap. by destruct (s_accounts s !! a). }
  assert (∀ a, bk' a = bk a) as Hbk.
  { intros a. unfold bk', bk. cbn [rs s_accounts]. rewrite lookup_fmap. by destruct (s_accounts s !! a). }
  pose proof (lr_book _ _ _ _ HL dt ps inv inv' bk bk' Hinv Hbk) as HB.
  destruct (lib_book L dt ps inv bk) as [ips upd|m|k m] eqn:Eb.
  2,3: revert HB; destruct (lib_book L' dt (rps <$> ps) inv' bk') as [ips upd|m'|k' m']; intros HB; try done; by destruct (HB ips upd).
  rewrite HB. rewrite zip_cur, cur_validate_postings. destruct (validate_postings s e 0 (zip ips ps)); [|done..].
  rewrite cur_update. destruct (update_inventory s e upd) as [s1 r1]. cbn [fst snd]. destruct r1; [|done..]. split; [done|]. cbn. by rewrite cur_booked_from.
Qed.

(** ** Balance assertions *)
Local Notation rb := (recur_booked r).
Local Notation rv := (recur_booked_variant r).
Lemma cur_adjust a c u adj : adjust_account_to_match_balance L' (ra a) (r c) u adj = ra (adjust_account_to_match_balance L a c u adj).
Proof using HL. unfold adjust_account_to_match_balance, set_positions, ra. cbn. by rewrite (lr_accumulate _ _ _ _ HL). Qed.
Lemma cur_tolerance b : effective_tolerance L' (recur_balance r b) = effective_tolerance L b.
Proof using HL. unfold effective_tolerance. cbn. by rewrite (lr_multiplier _ _ _ _ HL). Qed.
Lemma cur_balance s b e bds :
  (balance_dct L' ord' (rs s) (recur_balance r b) e (rb <$> bds)).1.1 = rs (balance_dct L ord s b e bds).1.1 ∧
  (balance_dct L' ord' (rs s) (recur_balance r b) e (rb <$> bds)).1.2 = rb <$> (balance_dct L ord s b e bds).1.2 ∧
  alike rv (balance_dct L ord s b e bds).2 (balance_dct L' ord' (rs s) (recur_balance r b) e (rb <$> bds)).2 ∧
  (∀ v, (balance_dct L ord s b e bds).2 = ROk v → ∃ bb, v = BVBalance bb).
Proof using HL Hr Hord Hord'.
  unfold balance_dct. rewrite cur_tolerance. cbn [recur_balance bal_acc bal_cur bal_units].
  rewrite cur_rollup, cur_get. destruct (get_valid_account s (bal_acc b) e) as [a| |]; cbn [map_rr]; [|done..].
  rewrite cur_validate. destruct (validate_currency a (bal_cur b) e); [done|]. rewrite fmap_length. change (a_window (ra a)) with (a_window a).
  set (w := match a_window a with Some (_, o) => _ | None => _ end).
  change (set_pad (set_window (ra a) (Some w)) None) with (ra (set_pad (set_window a (Some w)) None)).
  destruct (calculate_balance_margin _ _ _) as [margin|].
  2: { cbn [fst snd]. rewrite rs_put. split_and!; [done|done|done|]. intros v [= <-]. by eexists. }
  change (a_pad (set_window (ra a) (Some w))) with (a_pad a). change (a_pad (set_window a (Some w))) with (a_pad a).
  rewrite cur_adjust, <- rs_put. set (s1 := put_account s _ _).
  destruct (a_pad a) as [[k u]|]; [|cbn; split_and!; [done..|]; intros v [= <-]; by eexists].
  rewrite list_lookup_fmap. destruct (bds !! k) as [padd|] eqn:Ek; [|done]. cbn [fmap option_fmap option_map].
  change (b_variant (rb padd)) with (rv (b_variant padd)).
  destruct (b_variant padd) as [| | | | | |p| | | | |] eqn:Ev; cbn [recur_booked_variant]; try done.
  rewrite list_lookup_fmap. destruct (bds !! S k) as [txnd|] eqn:Et; [|done]. cbn [fmap option_fmap option_map].
  change (b_variant (rb txnd)) with (rv (b_variant txnd)).
  destruct (b_variant txnd) as [t| | | | | | | | | | |] eqn:Ev'; cbn [recur_booked_variant]; try done.
  change (s_accounts (rs s1)) with (ra <$> s_accounts s1). rewrite lookup_fmap.
  set (y := set_variant txnd _).
  assert (rb <$> <[S k:=y]> bds = <[S k := set_variant (rb txnd) (BVTransaction (set_postings (BTransaction (bt_flag t) (bt_payee t) (bt_narration t) (recur_posting r <$> bt_postings t))
    (calculate_balance_pad_postings (r (bal_cur b)) margin (bal_acc b) (pad_source p))))]> (rb <$> bds)) as Ei by by rewrite list_fmap_insert.
  destruct (s_accounts s1 !! pad_source p) as [pa|] eqn:Ep; cbn [fmap option_fmap option_map fst snd].
  2: { by rewrite Ei. }
  rewrite cur_adjust, rs_put, Ei. split_and!; [done..|]. intros v [= <-]. by eexists.
Qed.

(** *** The report of one which fails *)
Lemma cur_report_postings base d d' t t' qs x : b_date d' = b_date d → bt_payee t' = bt_payee t → bt_narration t' = bt_narration t →
  fold_left (report_posting base d' t') (recur_posting r <$> qs) x = fold_left (report_posting base d t) qs x.
Proof.
  intros E1 E2 E3. revert x. induction qs as [|q qs IH]; intros x; [done|]. rewrite fmap_cons. cbn [fold_left]. rewrite IH. f_equal.
  destruct x as [[? ?] ?]. unfold report_posting. cbn [p_acc p_units recur_posting]. by rewrite E1, E2, E3.
Qed.
Lemma cur_report_window base bs x : fold_left (report_directive base) (rb <$> bs) x = fold_left (report_directive base) bs x.
Proof.
  revert x. induction bs as [|b bs IH]; intros x; [done|]. rewrite fmap_cons. cbn [fold_left]. rewrite IH. f_equal.
  unfold report_directive. change (b_variant (rb b)) with (rv (b_variant b)). destruct (b_variant b); try done. cbn [recur_booked_variant bt_postings]. by apply cur_report_postings.
Qed.
Lemma eqb_r a b : String.eqb (r a) (r b) = String.eqb a b.
Proof using Hr.
  destruct (String.eqb_spec a b) as [->|Hne]; [apply String.eqb_refl|]. apply String.eqb_neq. intros E. by apply Hne, Hr.
Qed.
Definition alike_report (x x' : rr report) : Prop :=
  match x, x' with ROk e, ROk e' | RErr e, RErr e' => same_but_text e e' | RPanic _, RPanic _ => True | _, _ => False end.
Lemma cur_report s base m c e bds : alike_report (balance_report s base m c e bds) (balance_report (rs s) base m (r c) e (rb <$> bds)).
Proof using Hr.
  unfold balance_report. change (s_accounts (rs s)) with (ra <$> s_accounts s). rewrite lookup_fmap. destruct (s_accounts s !! base) as [a|]; [|done].
  cbn [fmap option_fmap option_map ra a_window]. destruct (a_window a) as [[ws we]|]; [|done]. rewrite fmap_length. destruct (_ && _); [|done]. rewrite list_lookup_fmap.
  set (X := match bds !! ws with Some d => _ | None => _ end). set (Y := match rb <$> bds !! ws with Some d => _ | None => _ end).
  assert (Y = X) as ->.
  { unfold X, Y. destruct (bds !! ws) as [d|]; [|done]. cbn [fmap option_fmap option_map]. change (b_variant (rb d)) with (rv (b_variant d)). destruct (b_variant d); try done.
    cbn [recur_booked_variant bb_raw recur_balance bal_cur bal_units]. by rewrite eqb_r. }
  rewrite <- fmap_drop, <- fmap_take, cur_report_window. by destruct (fold_left _ _ (X, _, _)) as [[? ?] ?].
Qed.

(** ** The other directives *)
Lemma cur_open_dct s o e : (open_dct L' (rs s) (recur_open r o) e).1 = rs (open_dct L s o e).1 ∧
  alike rv (open_dct L s o e).2 (open_dct L' (rs s) (recur_open r o) e).2 ∧ (∀ v, (open_dct L s o e).2 = ROk v → v = BVOpen o).
Proof using HL.
  unfold open_dct. cbn [recur_open op_acc op_currencies op_booking rs s_open]. destruct (s_open s !! op_acc o); [done|].
  set (s1 := set_open s _). set (s1' := set_open _ _). change s1' with (rs s1). clearbody s1. clear s1'.
  change (s_closed (rs s1)) with (s_closed s1). destruct (s_closed s1 !! op_acc o); [done|].
  change (s_default_booking (rs s1)) with (s_default_booking s1).
  set (bk := match op_booking o with Some b => _ | None => _ end).
  rewrite (lr_supported _ _ _ _ HL), (lr_default _ _ _ _ HL), !(lr_show _ _ _ _ HL).
  assert (∀ s2 bk', put_account (rs s2) (op_acc o) (account_new L' (match match op_currencies o with Some l => Some (set_map r l) | None => None end with Some cs => cs | None => ∅ end) bk' e)
    = rs (put_account s2 (op_acc o) (account_new L (match op_currencies o with Some cs => cs | None => ∅ end) bk' e))) as Hput.
  { intros s2 bk'. rewrite rs_put. f_equal. unfold account_new, ra. cbn. rewrite (lr_empty _ _ _ _ HL). f_equal. destruct (op_currencies o); [done|]. cbn. by rewrite set_map_empty. }
  assert (∀ s2 w, push_warning (rs s2) w = rs (push_warning s2 w)) as Hpush by done.
  destruct (lib_supported L bk); cbn [negb]; rewrite ?Hpush, Hput; destruct (op_booking o) as [b|]; rewrite ?(lr_supported _ _ _ _ HL); try destruct (lib_supported L (booking_into b)); split_and!; try done; by intros v [= <-].
Qed.
Lemma cur_close_dct s a e : (close_dct (rs s) a e).1 = rs (close_dct s a e).1 ∧ alike rv (close_dct s a e).2 (close_dct (rs s) a e).2 ∧ (∀ v, (close_dct s a e).2 = ROk v → v = BVClose a).
Proof.
  unfold close_dct. change (s_open (rs s)) with (s_open s). change (s_closed (rs s)) with (s_closed s). destruct (s_open s !! a); [|done]. destruct (s_closed s !! a); [done|].
  split_and!; try done. by intros v [= <-].
Qed.
Lemma cur_pad_dct s p i e : (pad_dct (rs s) p i e).1 = rs (pad_dct s p i e).1 ∧ alike id (pad_dct s p i e).2 (pad_dct (rs s) p i e).2 ∧
  (∀ v, (pad_dct s p i e).2 = ROk v → v = (BVPad p, Some (BVTransaction (BTransaction PAD_FLAG None None [])))).
Proof.
  unfold pad_dct. rewrite cur_get. destruct (get_valid_account s (pad_acc p) e) as [a| |]; cbn [map_rr]; [|done..].
  change (a_pad (ra a)) with (a_pad a). destruct (a_pad a) as [[? ?]|]; cbn [fst snd]; rewrite rs_put; split_and!; try done; by intros v [= <-].
Qed.

(** ** The whole run *)
Definition cur_c (c : @cst P) (c' : @cst P') : Prop :=
  c_acc c' = rs (c_acc c) ∧ c_booked c' = rb <$> c_booked c ∧ Forall2 same_but_text (c_errors c) (c_errors c').
Definition cur_res (x : @cres P) (x' : @cres P') : Prop :=
  match x, x' with CRun c, CRun c' => cur_c c c' | CPanic _, CPanic _ => True | _, _ => False end.
Lemma cur_step i d c c' : cur_c c c' → cur_res (collect_step L ord i d c) (collect_step L' ord' i (recur r d) c').
Proof using HL Hr Hord Hord'.
  intros (H&Eb&He). unfold collect_step. destruct c as [s es bds], c' as [s' es' bds']. cbn [c_acc c_booked c_errors] in *. subst bds' s'.
  assert (∀ (s1 : accst P) v v' xs xs', v' = rv v → Forall2 same_but_text xs xs' →
    cur_c (CSt s1 xs (bds ++ [booked_of i d v] ++ [])) (CSt (rs s1) xs' ((rb <$> bds) ++ [booked_of i (recur r d) v'] ++ []))) as Hplain.
  { intros s1 v v' xs xs' -> Hxs. split; [done|]. cbn [c_booked c_errors]. split; [by rewrite fmap_app|done]. }
  assert (∀ (s1 : accst P) er er' b1, same_but_text er er' → cur_c (CSt s1 (es ++ [er]) b1) (CSt (rs s1) (es' ++ [er']) (rb <$> b1))) as Herr.
  { intros s1 er er' b1 Hx. split; [done|]. cbn [c_booked c_errors]. split; [done|]. apply Forall2_app; [done|]. constructor; [done|constructor]. }
  unfold directive_dct. cbn [recur d_variant d_date].
  destruct (d_variant d) as [t|p|b|o|a|cur|p|a p|a n|t x|n q|cu] eqn:Ev; cbn [recur_variant].
  - unfold transaction_dct. cbn [tx_postings tx_flag tx_payee tx_narration].
    destruct (cur_txn s (d_date d) (tx_postings t) (eidx_of_nat i)) as [H1 HR].
    destruct (book_txn L s _ _ _) as [s1 [l|er|]], (book_txn L' (rs s) _ _ _) as [s1' [l'|er'|]]; cbn in H1, HR; subst; try done.
    + by apply Hplain.
    + by apply Herr.
  - by apply Hplain.
  - destruct (cur_balance s b (eidx_of_nat i) bds) as (H1&E1&HR&Hv).
    destruct (balance_dct L ord s b _ bds) as [[s1 b1] [v|er|]], (balance_dct L' ord' (rs s) (recur_balance r b) _ _) as [[s1' b1'] [v'|er'|]]; cbn in H1, E1, HR, Hv; subst; try done.
    + destruct (Hv v eq_refl) as [bb ->]. cbn [with_none recur_booked_variant].
      assert (∀ xs xs', Forall2 same_but_text xs xs' → cur_res
        (CRun (CSt s1 xs (b1 ++ [booked_of i d (BVBalance bb)] ++ [])))
        (CRun (CSt (rs s1) xs' ((rb <$> b1) ++ [booked_of i (recur r d) (rv (BVBalance bb))] ++ [])))) as Hfin.
      { intros xs xs' Hxs. split; [done|]. cbn [c_booked c_errors]. by rewrite fmap_app. }
      cbn [bb_raw bb_unused_pad bb_margin recur_balance bal_acc bal_cur].
      assert (Forall2 same_but_text (es ++ match bb_unused_pad bb with Some u => [mk_report u "unused, no balance adjustment required"] | None => [] end)
        (es' ++ match bb_unused_pad bb with Some u => [mk_report u "unused, no balance adjustment required"] | None => [] end)) as Hes.
      { apply Forall2_app; [done|]. destruct (bb_unused_pad bb); [constructor; [done|constructor]|constructor]. }
      destruct bb as [raw up mg]. cbn [recur_booked_variant bb_raw bb_unused_pad bb_margin] in *. destruct mg as [m|]; [|exact (Hfin _ _ Hes)].
      pose proof (cur_report s1 (bal_acc raw) m (bal_cur raw) (eidx_of_nat i) b1) as HB.
      destruct (balance_report s1 _ _ _ _ _), (balance_report (rs s1) _ _ _ _ _); try done; (refine (Hfin _ _ _); apply Forall2_app; [exact Hes|constructor; [done|constructor]]).
    + by apply Herr.
  - destruct (cur_open_dct s o (eidx_of_nat i)) as (H1&HR&Hv).
    destruct (open_dct L s _ _) as [s1 [v|er|]], (open_dct L' (rs s) _ _) as [s1' [v'|er'|]]; cbn in H1, HR, Hv; subst; try done.
    + rewrite (Hv v eq_refl). by apply Hplain.
    + by apply Herr.
  - destruct (cur_close_dct s a (eidx_of_nat i)) as (H1&HR&Hv).
    destruct (close_dct s _ _) as [s1 [v|er|]], (close_dct (rs s) _ _) as [s1' [v'|er'|]]; cbn in H1, HR, Hv; subst; try done.
    + rewrite (Hv v eq_refl). by apply Hplain.
    + by apply Herr.
  - by apply Hplain.
  - rewrite fmap_length. destruct (cur_pad_dct s p (length bds) (eidx_of_nat i)) as (H1&HR&Hv).
    destruct (pad_dct s _ _ _) as [s1 [v|er|]], (pad_dct (rs s) _ _ _) as [s1' [v'|er'|]]; cbn in H1, HR, Hv; subst; try done.
    + rewrite (Hv v eq_refl). cbn [id]. split; [done|]. cbn [c_booked c_errors]. split; [by rewrite fmap_app|done].
    + by apply Herr.
  - by apply Hplain.
  - by apply Hplain.
  - by apply Hplain.
  - by apply Hplain.
  - by apply Hplain.
Qed.
Lemma cur_loop i ds c c' : cur_c c c' → cur_res (collect_loop L ord i ds c) (collect_loop L' ord' i (recur r <$> ds) c').
Proof using HL Hr Hord Hord'.
  revert i c c'. induction ds as [|d ds IH]; intros i c c' H; [done|]. rewrite fmap_cons. cbn [collect_loop].
  pose proof (cur_step i d c c' H) as HR. destruct (collect_step L ord i d c), (collect_step L' ord' i _ c'); try done. by apply IH.
Qed.
Lemma cur_unused s : unused_pad_reports ord' (s_accounts (rs s)) ≡ₚ unused_pad_reports ord (s_accounts s).
Proof using Hord Hord'.
  unfold unused_pad_reports. cbn [rs s_accounts]. rewrite Hord', map_to_list_fmap, Hord.
  induction (map_to_list (s_accounts s)) as [|x l IH]; [done|]. rewrite fmap_cons. cbn [omap list_omap]. change (a_pad (prod_map id ra x).2) with (a_pad x.2). destruct (a_pad x.2) as [[? ?]|]; [|done]. by apply perm_skip.
Qed.
Lemma cur_book opt ds :
  match book L ord opt ds, book L' ord' opt (recur r <$> ds) with
  | BookSuccess bs ws, BookSuccess bs' ws' => bs' = rb <$> bs ∧ ws' = ws
  | BookFailure es, BookFailure es' => ∃ es1, es1 ≡ₚ es ∧ Forall2 same_but_text es1 es'
  | BookPanic _, BookPanic _ => True
  | _, _ => False
  end.
Proof using HL Hr Hord Hord'.
  unfold book, collect. 
  assert (default_booking_option L' opt = default_booking_option L opt) as ->.
  { unfold default_booking_option. rewrite (lr_default _ _ _ _ HL). destruct opt; [|done]. by rewrite (lr_supported _ _ _ _ HL). }
  pose proof (cur_loop 0 ds (CSt (acc_new (default_booking_option L opt)) [] []) (CSt (acc_new (default_booking_option L opt)) [] [])) as HR.
  specialize (HR ltac:(split; [unfold acc_new, rs; cbn; by rewrite fmap_empty|split; [done|constructor]])).
  destruct (collect_loop L ord 0 ds _) as [c|], (collect_loop L' ord' 0 _ _) as [c'|]; try done. destruct HR as (H&Eb&He).
  unfold validate. rewrite H. pose proof (cur_unused (c_acc c)) as Hp.
  assert (∃ es1, es1 ≡ₚ c_errors c ++ unused_pad_reports ord (s_accounts (c_acc c)) ∧ Forall2 same_but_text es1 (c_errors c' ++ unused_pad_reports ord' (s_accounts (rs (c_acc c))))) as (es1&Hes&HF).
  { exists (c_errors c ++ unused_pad_reports ord' (s_accounts (rs (c_acc c)))). split; [by rewrite Hp|]. apply Forall2_app; [done|]. apply Forall_Forall2_diag, Forall_forall. intros x _. done. }
  destruct (c_errors c ++ unused_pad_reports ord (s_accounts (c_acc c))) as [|x l], (c_errors c' ++ unused_pad_reports ord' (s_accounts (rs (c_acc c)))) as [|x' l'].
  - by rewrite Eb.
  - symmetry in Hes; apply Permutation_nil in Hes; subst. inversion HF.
  - inversion HF; subst. by apply Permutation_nil_cons in Hes.
  - by exists es1.
Qed.
End Commodity.
