(** Booking does not depend on the hash iteration order, and depends on the
    numbering of directives only by renaming. *)
From Coq Require Import Ascii QArith.
From stdpp Require Import prelude gmap strings pretty.
From Verif Require Import DecModel DecProofs LedgerTypes BookModel BookSpec BookLib BookSteps.
Local Open Scope nat_scope.

Definition ren_e (f : nat → nat) (e : eidx) : eidx := EIdx (f (ei_directive e)) (ei_posting e).
Definition ren_r (f : nat → nat) (r : report) : report :=
  Report (r_reason r) (ren_e f (r_idx r)) (fmap (M:=list) (ren_e f) <$> r_related r) (r_annotation r).
Definition ren_v (f : nat → nat) (v : bvariant) : bvariant :=
  match v with
  | BVBalance b => BVBalance (BBalance (bb_raw b) (ren_e f <$> bb_unused_pad b) (bb_margin b))
  | _ => v
  end.
Definition ren_b (f : nat → nat) (b : bdirective) : bdirective :=
  BDirective (f (b_idx b)) (b_date b) (b_tags b) (b_links b) (b_metadata b) (ren_v f (b_variant b)).

Section Ren.
Context {P : Type} (f : nat → nat).

Definition ren_a (a : account P) : account P :=
  Account (a_allowed a) (a_positions a) (ren_e f (a_opened a))
    ((λ x : nat * eidx, (x.1, ren_e f x.2)) <$> a_pad a) (a_window a) (a_booking a).
Definition ren_s (s : accst P) : accst P :=
  AccSt (ren_e f <$> s_open s) (ren_e f <$> s_closed s) (ren_a <$> s_accounts s)
    (s_default_booking s) (ren_r f <$> s_warnings s).
Definition ren_rr {A B} (g : A → B) (r : rr A) : rr B :=
  match r with ROk a => ROk (g a) | RErr e => RErr (ren_r f e) | RPanic w => RPanic w end.

Lemma ren_mk e m : ren_r f (mk_report e m) = mk_report (ren_e f e) m.
Proof. done. Qed.
Lemma ren_related r e : ren_r f (related_to r e) = related_to (ren_r f r) (ren_e f e).
Proof. destruct r as [m i [l|] a]; unfold ren_r, related_to; cbn; by rewrite ?fmap_app. Qed.

Lemma sim_validate_account s n e :
  validate_account (ren_s s) n (ren_e f e) = ren_r f <$> validate_account s n e.
Proof.
  unfold validate_account. cbn. rewrite !lookup_fmap.
  destruct (s_open s !! n); [done|]. destruct (s_closed s !! n); cbn; by rewrite ?ren_related.
Qed.

Lemma sim_validate_currency a cur e :
  validate_currency (ren_a a) cur (ren_e f e) = ren_r f <$> validate_currency a cur e.
Proof.
  unfold validate_currency. change (is_currency_valid (ren_a a) cur) with (is_currency_valid a cur).
  destruct (is_currency_valid a cur); [done|]. cbn [fmap option_fmap option_map]. by rewrite ren_related.
Qed.

Lemma sim_get_valid s n e :
  get_valid_account (ren_s s) n (ren_e f e) = ren_rr ren_a (get_valid_account s n e).
Proof.
  unfold get_valid_account. rewrite sim_validate_account.
  destruct (validate_account s n e); [done|]. cbn. rewrite lookup_fmap.
  by destruct (s_accounts s !! n).
Qed.

Lemma sim_validate_ac s n cur e :
  validate_account_and_currency (ren_s s) n cur (ren_e f e) =
  ren_rr id (validate_account_and_currency s n cur e).
Proof.
  unfold validate_account_and_currency. rewrite sim_get_valid.
  destruct (get_valid_account s n e) as [a|err|w]; [|done|done]. cbn.
  rewrite sim_validate_currency. by destruct (validate_currency a cur e).
Qed.

Lemma sim_validate_postings s e i l :
  validate_postings (ren_s s) (ren_e f e) i l = ren_rr id (validate_postings s e i l).
Proof.
  revert i. induction l as [|[ip ps] l IH]; intros i; [done|]. cbn [validate_postings].
  change (eidx_with_posting (ren_e f e) i) with (ren_e f (eidx_with_posting e i)).
  rewrite sim_validate_ac. destruct (validate_account_and_currency s _ _ _); [apply IH|done|done].
Qed.

Lemma sim_put s n a : put_account (ren_s s) n (ren_a a) = ren_s (put_account s n a).
Proof. unfold put_account, set_accounts, ren_s. cbn. by rewrite fmap_insert. Qed.

Lemma sim_update s e l :
  update_inventory (ren_s s) (ren_e f e) l =
  (ren_s (update_inventory s e l).1, ren_rr id (update_inventory s e l).2).
Proof.
  revert s. induction l as [|[n p] l IH]; intros s; [done|]. cbn [update_inventory].
  rewrite sim_get_valid. destruct (get_valid_account s n e) as [a|err|w]; [|done|done]. cbn [ren_rr].
  change (set_positions (ren_a a) p) with (ren_a (set_positions a p)). rewrite sim_put. apply IH.
Qed.

Context (L : booking_lib P) (Hext : lib_ext L).
Context (ord1 ord2 : gmap string (account P) → list (string * account P)).
Context (Hord1 : ∀ m, ord1 m ≡ₚ map_to_list m) (Hord2 : ∀ m, ord2 m ≡ₚ map_to_list m).

Lemma sim_book_txn s dt ps e :
  book_txn L (ren_s s) dt ps (ren_e f e) =
  ((ren_s (book_txn L s dt ps e).1), ren_rr id (book_txn L s dt ps e).2).
Proof.
  unfold book_txn.
  rewrite (Hext dt ps (λ name, a_positions <$> s_accounts (ren_s s) !! name) (λ name, a_positions <$> s_accounts s !! name)
    (λ name, match s_accounts (ren_s s) !! name with
             | Some a => a_booking a | None => s_default_booking (ren_s s) end)
    (λ name, match s_accounts s !! name with
             | Some a => a_booking a | None => s_default_booking s end)).
  2,3: intros a; cbn; rewrite lookup_fmap; by destruct (s_accounts s !! a).
  destruct (lib_book _ _ _ _ _) as [ips upd|msg|i msg]; [|done..].
  rewrite sim_validate_postings. destruct (validate_postings s e 0 _) as [u|err|w]; [|done..]. cbn [ren_rr].
  rewrite sim_update. destruct (update_inventory s e upd) as [s' [u'|err|w]]; done.
Qed.

Lemma sim_rollup s base cur :
  total_rollup_units_for_currency L ord2 (ren_s s) base cur = total_rollup_units_for_currency L ord1 s base cur.
Proof.
  unfold total_rollup_units_for_currency, account_and_subaccounts. apply dec_sum_perm.
  rewrite (Hord2 (s_accounts (ren_s s))), (Hord1 (s_accounts s)). cbn. rewrite map_to_list_fmap.
  set (l := map_to_list (s_accounts s)). clearbody l. 
  induction l as [|[n a] l IH]; [done|]. rewrite fmap_cons, !filter_cons. cbn [prod_map fst snd].
  destruct (decide _); [rewrite !fmap_cons; cbn [snd]; apply Permutation_skip; exact IH|exact IH].
Qed.

Lemma sim_adjust a cur u adj :
  adjust_account_to_match_balance L (ren_a a) cur u adj = ren_a (adjust_account_to_match_balance L a cur u adj).
Proof. done. Qed.

Lemma ren_v_balance v b : ren_v f v = BVBalance b → ∃ b', v = BVBalance b' ∧ bb_raw b = bb_raw b'.
Proof. destruct v; try done. intros [= <-]. eauto. Qed.

Lemma sim_balance s b e bds :
  balance_dct L ord2 (ren_s s) b (ren_e f e) (ren_b f <$> bds) =
  (let '(s', bds', r) := balance_dct L ord1 s b e bds in
   (ren_s s', ren_b f <$> bds', ren_rr (ren_v f) r)).
Proof.
  unfold balance_dct. rewrite sim_rollup, sim_get_valid.
  destruct (get_valid_account s (bal_acc b) e) as [a|err|w]; [|done..]. cbn [ren_rr].
  rewrite sim_validate_currency. destruct (validate_currency a (bal_cur b) e); [done|]. cbn [fmap option_fmap option_map].
  rewrite fmap_length.
  set (W := match a_window a with Some (_, old_end) => (old_end, length bds) | None => (0, length bds) end).
  change (match a_window (ren_a a) with Some (_, old_end) => (old_end, length bds) | None => (0, length bds) end) with W.
  clearbody W.
  change (set_pad (set_window (ren_a a) (Some W)) None) with (ren_a (set_pad (set_window a (Some W)) None)).
  destruct (calculate_balance_margin _ _ _) as [m|].
  2: { rewrite sim_put. f_equal. f_equal. cbn. f_equal. f_equal. f_equal. by destruct (a_pad a) as [[? ?]|]. }
  rewrite sim_adjust, sim_put. cbn [a_pad set_window set_pad ren_a].
  destruct (a_pad a) as [[k u]|]; cbn [fmap option_fmap option_map fst snd]; [|done].
  rewrite list_lookup_fmap. destruct (bds !! k) as [padd|]; cbn [fmap option_fmap option_map fst]; [|done].
  cbn [b_variant ren_b]. destruct (b_variant padd); cbn [ren_v]; try done.
  rewrite list_lookup_fmap. destruct (bds !! S k) as [txnd|]; cbn [fmap option_fmap option_map fst]; [|done].
  cbn [b_variant ren_b]. destruct (b_variant txnd); cbn [ren_v]; try done.
  set (s1 := put_account s (bal_acc b) _). clearbody s1.
  change (s_accounts (ren_s s1) !! pad_source p) with ((ren_a <$> s_accounts s1) !! pad_source p).
  rewrite lookup_fmap. destruct (s_accounts s1 !! pad_source p) as [pa|]; cbn [fmap option_fmap option_map].
  - rewrite sim_adjust, sim_put, list_fmap_insert. done.
  - rewrite list_fmap_insert. done.
Qed.

Lemma sim_report_directive base acc d : report_directive base acc (ren_b f d) = report_directive base acc d.
Proof. unfold report_directive. cbn. by destruct (b_variant d). Qed.

Lemma sim_report_fold base l acc :
  fold_left (report_directive base) (ren_b f <$> l) acc = fold_left (report_directive base) l acc.
Proof. revert acc. induction l as [|d l IH]; intros acc; [done|]. cbn. rewrite sim_report_directive. apply IH. Qed.

Lemma sim_balance_report s base m cur e bds :
  balance_report (ren_s s) base m cur (ren_e f e) (ren_b f <$> bds) =
  ren_rr (ren_r f) (balance_report s base m cur e bds) ∧
  match balance_report s base m cur e bds with ROk r => True | RErr r => False | RPanic _ => True end.
Proof.
  unfold balance_report. cbn [ren_s s_accounts]. rewrite lookup_fmap.
  destruct (s_accounts s !! base) as [a|]; [|done]. cbn [fmap option_fmap option_map].
  cbn [a_window ren_a]. destruct (a_window a) as [[ws we]|]; [|done].
  rewrite fmap_length. destruct (_ && _); [|done].
  assert (match (ren_b f <$> bds) !! ws with
          | Some d => match b_variant d with
                      | BVBalance bal => if String.eqb (bal_cur (bb_raw bal)) cur then bal_units (bb_raw bal) else dec_zero
                      | _ => dec_zero end
          | None => dec_zero end =
          match bds !! ws with
          | Some d => match b_variant d with
                      | BVBalance bal => if String.eqb (bal_cur (bb_raw bal)) cur then bal_units (bb_raw bal) else dec_zero
                      | _ => dec_zero end
          | None => dec_zero end) as ->.
  { rewrite list_lookup_fmap. destruct (bds !! ws) as [d|]; [|done]. cbn. by destruct (b_variant d). }
  rewrite <- fmap_drop, <- fmap_take, sim_report_fold.
  destruct (fold_left _ _ _) as [[tot diags] accs]. done.
Qed.

Lemma sim_open s o e :
  open_dct L (ren_s s) o (ren_e f e) = (ren_s (open_dct L s o e).1, ren_rr (ren_v f) (open_dct L s o e).2).
Proof.
  unfold open_dct. cbn [ren_s s_open]. rewrite lookup_fmap.
  destruct (s_open s !! op_acc o); cbn [fmap option_fmap option_map]; [cbn [fst snd ren_rr]; by rewrite ren_related|].
  cbn [s_closed set_open ren_s]. rewrite lookup_fmap.
  destruct (s_closed s !! op_acc o); cbn [fmap option_fmap option_map fst snd].
  { unfold set_open, ren_s. cbn. by rewrite fmap_insert, ren_related. }
  cbn [s_default_booking set_open ren_s].
  destruct (lib_supported L _); cbn [negb fst snd]; destruct (op_booking o) as [bk|];
    try destruct (lib_supported L (booking_into bk)); unfold push_warning, put_account, set_accounts, set_open, ren_s;
    cbn; by rewrite !fmap_insert, ?fmap_app.
Qed.

Lemma sim_close s a e :
  close_dct (ren_s s) a (ren_e f e) = (ren_s (close_dct s a e).1, ren_rr (ren_v f) (close_dct s a e).2).
Proof.
  unfold close_dct. cbn [ren_s s_open s_closed]. rewrite !lookup_fmap.
  destruct (s_open s !! a); cbn [fmap option_fmap option_map]; [|done].
  destruct (s_closed s !! a); cbn [fmap option_fmap option_map]; [cbn [fst snd ren_rr]; by rewrite ren_related|].
  unfold set_closed, set_open, ren_s. cbn. by rewrite fmap_insert, fmap_delete.
Qed.

Lemma sim_pad s p k e :
  pad_dct (ren_s s) p k (ren_e f e) =
  (ren_s (pad_dct s p k e).1, ren_rr (λ x, (ren_v f x.1, ren_v f <$> x.2)) (pad_dct s p k e).2).
Proof.
  unfold pad_dct. rewrite sim_get_valid. destruct (get_valid_account s (pad_acc p) e) as [a|err|w]; [|done..].
  cbn [ren_rr a_pad ren_a]. destruct (a_pad a) as [[j u]|]; cbn [fmap option_fmap option_map fst snd].
  - change (set_pad (ren_a a) None) with (ren_a (set_pad a None)). rewrite sim_put. cbn [ren_rr].
    by rewrite ren_related.
  - change (set_pad (ren_a a) (Some (k, ren_e f e))) with (ren_a (set_pad a (Some (k, e)))). by rewrite sim_put.
Qed.

Lemma sim_directive s d i bds :
  directive_dct L ord2 (ren_s s) d (eidx_of_nat (f i)) (ren_b f <$> bds) =
  (let '(s', bds', r) := directive_dct L ord1 s d (eidx_of_nat i) bds in
   (ren_s s', ren_b f <$> bds', ren_rr (λ x, (ren_v f x.1, ren_v f <$> x.2)) r)).
Proof.
  change (eidx_of_nat (f i)) with (ren_e f (eidx_of_nat i)).
  unfold directive_dct. destruct (d_variant d); try done.
  - unfold transaction_dct. rewrite sim_book_txn.
    by destruct (book_txn L s _ _ _) as [s' [l|err|w]].
  - rewrite sim_balance. by destruct (balance_dct L ord1 s b _ bds) as [[s' bds'] [v|err|w]].
  - rewrite sim_open. by destruct (open_dct L s o _) as [s' [v|err|w]].
  - rewrite sim_close. by destruct (close_dct s acc _) as [s' [v|err|w]].
  - rewrite fmap_length, sim_pad. by destruct (pad_dct s p _ _) as [s' [v|err|w]].
Qed.

Lemma sim_step i d s errs errs' bds :
  match collect_step L ord1 i d (CSt s errs bds) with
  | CPanic w => collect_step L ord2 (f i) d (CSt (ren_s s) errs' (ren_b f <$> bds)) = CPanic w
  | CRun c => ∃ new, c_errors c = errs ++ new ∧
      collect_step L ord2 (f i) d (CSt (ren_s s) errs' (ren_b f <$> bds)) =
        CRun (CSt (ren_s (c_acc c)) (errs' ++ (ren_r f <$> new)) (ren_b f <$> c_booked c))
  end.
Proof.
  unfold collect_step. cbn [c_acc c_errors c_booked]. rewrite sim_directive.
  destruct (directive_dct L ord1 s d _ bds) as [[s' bds'] [[v t]|err|w]]; cbn [ren_rr fst snd]; [| |done].
  2: { exists [err]. done. }
  assert (∀ w, ren_b f <$> (bds' ++ [booked_of i d w] ++ match t with Some t => [booked_of i d t] | None => [] end) =
    (ren_b f <$> bds') ++ [booked_of (f i) d (ren_v f w)] ++
      match ren_v f <$> t with Some t => [booked_of (f i) d t] | None => [] end) as Hb.
  { intros w. rewrite !fmap_app. f_equal. f_equal. by destruct t. }
  destruct v; try (exists []; rewrite !app_nil_r; cbn [c_errors c_acc c_booked]; rewrite Hb; done).
  cbn [ren_v bb_unused_pad bb_margin bb_raw].
  destruct (bb_margin b) as [m|] eqn:Em.
  - destruct (sim_balance_report s' (bal_acc (bb_raw b)) m (bal_cur (bb_raw b)) (eidx_of_nat i) bds') as [Hr Hr'].
    change (eidx_of_nat (f i)) with (ren_e f (eidx_of_nat i)). rewrite Hr.
    destruct (balance_report s' _ _ _ _ bds') as [r|r|w]; [|done|done]. cbn [ren_rr c_errors c_acc c_booked].
    rewrite Hb. cbn [ren_v]. rewrite Em. eexists (_ ++ [r]). rewrite (app_assoc errs). split; [reflexivity|].
    rewrite fmap_app, (app_assoc errs'). destruct (bb_unused_pad b); done.
  - cbn [c_errors c_acc c_booked]. eexists. split; [reflexivity|]. rewrite Hb. cbn [ren_v]. rewrite Em.
    by destruct (bb_unused_pad b).
Qed.

Lemma sim_loop i i' ds s errs errs' bds :
  (∀ j, j < length ds → f (i + j) = i' + j) →
  match collect_loop L ord1 i ds (CSt s errs bds) with
  | CPanic w => collect_loop L ord2 i' ds (CSt (ren_s s) errs' (ren_b f <$> bds)) = CPanic w
  | CRun c => ∃ new, c_errors c = errs ++ new ∧
      collect_loop L ord2 i' ds (CSt (ren_s s) errs' (ren_b f <$> bds)) =
        CRun (CSt (ren_s (c_acc c)) (errs' ++ (ren_r f <$> new)) (ren_b f <$> c_booked c))
  end.
Proof.
  revert i i' s errs errs' bds. induction ds as [|d ds IH]; intros i i' s errs errs' bds Hf; cbn [collect_loop].
  { exists []. by rewrite !app_nil_r. }
  pose proof (sim_step i d s errs errs' bds) as Hs.
  assert (f i = i') as Hi by (rewrite <- (Nat.add_0_r i) at 1; rewrite Hf; cbn; lia). rewrite Hi in Hs.
  destruct (collect_step L ord1 i d _) as [[s1 e1 b1]|w]; [|by rewrite Hs].
  destruct Hs as (new & He & ->). cbn in He. subst e1. cbn [c_acc c_errors c_booked].
  specialize (IH (S i) (S i') s1 (errs ++ new) (errs' ++ (ren_r f <$> new)) b1).
  assert (∀ j, j < length ds → f (S i + j) = S i' + j) as Hf'.
  { intros j Hj. replace (S i + j) with (i + S j) by lia. rewrite Hf; cbn; lia. }
  specialize (IH Hf').
  destruct (collect_loop L ord1 (S i) ds _) as [c|w]; [|done].
  destruct IH as (new' & He & ->). exists (new ++ new'). rewrite He, app_assoc. split; [done|].
  by rewrite fmap_app, app_assoc.
Qed.

Lemma sim_unused s :
  unused_pad_reports ord2 (s_accounts (ren_s s)) ≡ₚ ren_r f <$> unused_pad_reports ord1 (s_accounts s).
Proof.
  unfold unused_pad_reports. rewrite (Hord1 (s_accounts s)), (Hord2 (s_accounts (ren_s s))).
  cbn. rewrite map_to_list_fmap. set (l := map_to_list _). clearbody l.
  induction l as [|[n a] l IH]; [done|]. rewrite fmap_cons. cbn.
  destruct (a_pad a) as [[k u]|]; cbn; by rewrite IH.
Qed.
End Ren.

(** Renaming by the identity. *)
Lemma ren_e_id e : ren_e id e = e.
Proof. by destruct e. Qed.
Lemma ren_r_id r : ren_r id r = r.
Proof.
  destruct r as [m i [l|] a]; unfold ren_r; cbn; rewrite ren_e_id; [|done]. f_equal. f_equal.
  rewrite <- (list_fmap_id l) at 2. apply list_fmap_ext. intros _ x _. apply ren_e_id.
Qed.
Lemma ren_b_id b : ren_b id b = b.
Proof.
  destruct b as [? ? ? ? ? v]. unfold ren_b. cbn. f_equal. destruct v as [| |[r u m]| | | | | | | | |]; try done.
  cbn. f_equal. f_equal. destruct u; [cbn; by rewrite ren_e_id|done].
Qed.
Lemma fmap_id_list {A} (g : A → A) (l : list A) : (∀ x, g x = x) → g <$> l = l.
Proof. intros H. rewrite <- (list_fmap_id l) at 2. apply list_fmap_ext. intros _ x _. apply H. Qed.
