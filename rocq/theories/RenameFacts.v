(** Booking a ledger whose accounts have other names. *)
From Coq Require Import Ascii QArith Qabs.
From stdpp Require Import prelude gmap strings pretty.
From Verif Require Import DecModel DecProofs LedgerTypes BookModel BookSpec BookLib BookUnits BookFacts CljModel InventoryModel ClientModel RenameSpec.
Local Open Scope nat_scope.

Lemma under_refl a : under a a = true.
Proof. unfold under. by rewrite String.eqb_refl. Qed.
Lemma prefix_length a b : String.prefix a b = true → String.length a ≤ String.length b.
Proof.
  revert b. induction a as [|x a IH]; intros [|y b] H; cbn; try lia; try done.
  cbn in H. destruct (ascii_dec x y); [|done]. specialize (IH b H). lia.
Qed.
Lemma length_colon a : String.length (a +:+ ":") = S (String.length a).
Proof. induction a as [|x a IH]; [done|]. change (S (String.length (a +:+ ":")) = S (S (String.length a))). by rewrite IH. Qed.
Lemma under_antisym a b : under a b = true → under b a = true → a = b.
Proof.
  unfold under. intros [H1%String.eqb_eq|H1]%orb_true_iff [H2%String.eqb_eq|H2]%orb_true_iff; try done.
  exfalso. apply prefix_length in H1, H2. rewrite length_colon in H1, H2. lia.
Qed.

Section Rename.
Context {P : Type} (L : booking_lib P) (HL : lib_ok L) (Hn : lib_nameless L).
Context (ord ord' : gmap string (account P) → list (string * account P)) (Hord : ∀ m, ord m ≡ₚ map_to_list m) (Hord' : ∀ m, ord' m ≡ₚ map_to_list m).
Context (r : string → string) (N : string → Prop) (Hu : ∀ a b, N a → N b → under (r a) (r b) = under a b).

Lemma r_inj a b : N a → N b → r a = r b → a = b.
Proof using Hu.
  intros Ha Hb E. apply under_antisym; [rewrite <- Hu by done|rewrite <- Hu by done]; rewrite E; apply under_refl.
Qed.

Record ren (s s' : accst P) : Prop := {
  rn_open : ∀ n, N n → s_open s' !! r n = s_open s !! n;
  rn_closed : ∀ n, N n → s_closed s' !! r n = s_closed s !! n;
  rn_acc : ∀ n, N n → s_accounts s' !! r n = s_accounts s !! n;
  rn_default : s_default_booking s' = s_default_booking s;
  rn_warnings : s_warnings s' = s_warnings s;
  rn_in : ∀ n x, s_accounts s !! n = Some x → N n;
  rn_out : ∀ m x, s_accounts s' !! m = Some x → ∃ n, N n ∧ m = r n }.
Lemma ren_insert {A} (m m' : gmap string A) k x : N k → (∀ n, N n → m' !! r n = m !! n) → ∀ n, N n → <[r k := x]> m' !! r n = <[k := x]> m !! n.
Proof using Hu.
  intros Hk H n Hn'. destruct (decide (k = n)) as [->|Hne]; [by rewrite !lookup_insert|].
  rewrite !lookup_insert_ne; [by apply H|done|]. intros E. by apply Hne, r_inj.
Qed.
Lemma ren_delete {A} (m m' : gmap string A) k : N k → (∀ n, N n → m' !! r n = m !! n) → ∀ n, N n → delete (r k) m' !! r n = delete k m !! n.
Proof using Hu.
  intros Hk H n Hn'. destruct (decide (k = n)) as [->|Hne]; [by rewrite !lookup_delete|].
  rewrite !lookup_delete_ne; [by apply H|done|]. intros E. by apply Hne, r_inj.
Qed.
Lemma ren_put s s' n a : ren s s' → N n → ren (put_account s n a) (put_account s' (r n) a).
Proof using Hu.
  intros [Ho Hc Ha Hd Hw Hi Hout] Hn'. constructor; cbn; try done.
  - by apply ren_insert.
  - intros m x. destruct (decide (n = m)) as [->|Hne]; [done|]. rewrite lookup_insert_ne by done. apply Hi.
  - intros m x. destruct (decide (r n = m)) as [<-|Hne]; [by exists n|]. rewrite lookup_insert_ne by done. apply Hout.
Qed.
Lemma ren_validate s s' n e : ren s s' → N n → validate_account s' (r n) e = validate_account s n e.
Proof. intros H Hn'. unfold validate_account. by rewrite (rn_open _ _ H n Hn'), (rn_closed _ _ H n Hn'). Qed.
Lemma ren_get s s' n e : ren s s' → N n → get_valid_account s' (r n) e = get_valid_account s n e.
Proof. intros H Hn'. unfold get_valid_account. by rewrite (ren_validate s s' n e H Hn'), (rn_acc _ _ H n Hn'). Qed.

Lemma ren_list s s' : ren s s' → map_to_list (s_accounts s') ≡ₚ (λ x, (r x.1, x.2)) <$> map_to_list (s_accounts s).
Proof using Hu.
  intros H. apply NoDup_Permutation; [apply NoDup_map_to_list| |].
  - apply NoDup_fmap_2_strong; [|apply NoDup_map_to_list]. intros [n x] [m y] Hx%elem_of_map_to_list Hy%elem_of_map_to_list [= E ->]. f_equal.
    apply r_inj; [by eapply rn_in|by eapply rn_in|done].
  - intros [m x]. rewrite elem_of_map_to_list, elem_of_list_fmap. split.
    + intros Hx. destruct (rn_out _ _ H _ _ Hx) as (n&HN&->). exists (n, x). split; [done|]. apply elem_of_map_to_list. by rewrite <- (rn_acc _ _ H n HN).
    + intros ([n y]&[= -> ->]&Hy%elem_of_map_to_list). rewrite (rn_acc _ _ H n); [done|by eapply rn_in].
Qed.
Lemma filter_renamed base (l : list (string * account P)) : N base → (∀ x, x ∈ l → N x.1) →
  snd <$> filter (λ x, is_nonstrict_subaccount (r base) x.1 = true) ((λ x, (r x.1, x.2)) <$> l) = snd <$> filter (λ x, is_nonstrict_subaccount base x.1 = true) l.
Proof using Hu.
  intros Hb. induction l as [|x l IH]; intros Hl; [done|]. rewrite fmap_cons, !filter_cons. cbn [fst snd].
  rewrite !is_nonstrict_subaccount_under, Hu; [|done|apply Hl; by left]. rewrite <- !is_nonstrict_subaccount_under.
  specialize (IH ltac:(intros y Hy; apply Hl; by right)). destruct (decide _); [|done]. rewrite !fmap_cons. by f_equal.
Qed.
Lemma ren_rollup s s' base cur : ren s s' → N base → total_rollup_units_for_currency L ord' s' (r base) cur = total_rollup_units_for_currency L ord s base cur.
Proof using Hu Hord Hord'.
  intros H Hb. unfold total_rollup_units_for_currency, account_and_subaccounts. apply dec_sum_perm, fmap_Permutation.
  rewrite Hord', (ren_list s s' H), Hord. rewrite filter_renamed; [done|done|].
  intros [n x] Hx%elem_of_map_to_list. by eapply rn_in.
Qed.

(** ** Transactions *)
Lemma ren_validate_postings s s' e i l : ren s s' → Forall (λ x : interpolated * posting_spec, N (ps_acc x.2)) l →
  validate_postings s' e i ((λ x, (x.1, rename_posting r x.2)) <$> l) = validate_postings s e i l.
Proof.
  intros H Hl. revert i. induction Hl as [|[ip ps] l Hp Hl IH]; intros i; [done|]. rewrite fmap_cons. cbn [validate_postings fst snd ps_acc rename_posting].
  unfold validate_account_and_currency. rewrite (ren_get s s' _ _ H Hp). destruct (get_valid_account _ _ _); [|done..]. destruct (validate_currency _ _ _); [done|]. apply IH.
Qed.
Lemma ren_booked_from i l : booked_postings_from i ((λ x, (x.1, rename_posting r x.2)) <$> l) = rename_booked_posting r <$> booked_postings_from i l.
Proof.
  revert i. induction l as [|[ip ps] l IH]; intros i; [done|]. rewrite fmap_cons. cbn [booked_postings_from fst snd]. rewrite fmap_app, <- IH. f_equal.
  unfold booked_postings_of. destruct (in_cost ip); [|done]. rewrite <- list_fmap_compose. apply list_fmap_ext. by intros _ [? ?] _.
Qed.
Lemma from_names i ips ps q : q ∈ booked_postings_from i (zip ips ps) → Forall (λ x, N (ps_acc x)) ps → N (p_acc q).
Proof.
  intros Hq Hps. revert i ps Hps Hq. induction ips as [|ip ips IH]; intros i [|p ps] Hps Hq; try by apply elem_of_nil in Hq.
  cbn [zip zip_with booked_postings_from] in Hq. inversion Hps as [|? ? Hp Hps']; subst. apply elem_of_app in Hq as [Hq|Hq]; [|by eapply IH].
  unfold booked_postings_of in Hq. destruct (in_cost ip).
  - apply elem_of_list_fmap in Hq as ([? ?]&->&_). done.
  - by apply elem_of_list_singleton in Hq as ->.
Qed.
Definition alike_r {A} (R : A → A → Prop) (x x' : rr A) : Prop :=
  match x, x' with ROk a, ROk a' => R a a' | RErr e, RErr e' => same_place e e' | RPanic _, RPanic _ => True | _, _ => False end.
Lemma same_place_refl e : same_place e e.
Proof. done. Qed.
Lemma ren_update s s' e l : ren s s' → Forall (λ x : string * P, N x.1) l →
  ren (update_inventory s e l).1 (update_inventory s' e ((λ x, (r x.1, x.2)) <$> l)).1 ∧
  (update_inventory s' e ((λ x, (r x.1, x.2)) <$> l)).2 = (update_inventory s e l).2.
Proof using Hu.
  intros H Hl. revert s s' H. induction Hl as [|[n p] l Hp Hl IH]; intros s s' H; [done|]. rewrite fmap_cons. cbn [update_inventory fst snd].
  rewrite (ren_get s s' _ _ H Hp). destruct (get_valid_account _ _ _); [|done..]. apply IH. by apply ren_put.
Qed.
Lemma zip_renamed (ips : list interpolated) ps : zip ips (rename_posting r <$> ps) = (λ x, (x.1, rename_posting r x.2)) <$> zip ips ps.
Proof. revert ps. induction ips as [|ip ips IH]; intros [|p ps]; try done. rewrite fmap_cons. cbn [zip zip_with]. rewrite fmap_cons. f_equal. apply IH. Qed.
Lemma zip_names (ips : list interpolated) ps : Forall (λ ps, N (ps_acc ps)) ps → Forall (λ x : interpolated * posting_spec, N (ps_acc x.2)) (zip ips ps).
Proof.
  intros Hps. revert ips. induction Hps as [|p ps Hp Hps IH]; intros [|ip ips]; try by constructor.
Qed.
Lemma ren_txn s s' dt ps e : ren s s' → Forall (λ ps, N (ps_acc ps)) ps →
  ren (book_txn L s dt ps e).1 (book_txn L s' dt (rename_posting r <$> ps) e).1 ∧
  alike_r (λ l l', l' = rename_booked_posting r <$> l ∧ Forall (λ q, N (p_acc q)) l) (book_txn L s dt ps e).2 (book_txn L s' dt (rename_posting r <$> ps) e).2.
Proof using HL Hn Hu.
  intros H Hps. unfold book_txn.
  assert (∀ a, a ∈ ps_acc <$> ps → N a) as HN by (intros a (x&->&Hx)%elem_of_list_fmap; by eapply Forall_forall in Hps).
  set (inv := λ name, a_positions <$> s_accounts s !! name). set (bk := λ name, match s_accounts s !! name with Some a => a_booking a | None => s_default_booking s end).
  set (inv' := λ name, a_positions <$> s_accounts s' !! name). set (bk' := λ name, match s_accounts s' !! name with Some a => a_booking a | None => s_default_booking s' end).
  assert (∀ a, a ∈ ps_acc <$> ps → inv' (r a) = inv a ∧ bk' (r a) = bk a) as Hinv.
  { intros a Ha. unfold inv', inv, bk', bk. by rewrite (rn_acc _ _ H a (HN a Ha)), (rn_default _ _ H). }
  pose proof (Hn r dt ps inv inv' bk bk' (λ a b Ha Hb, r_inj a b (HN a Ha) (HN b Hb)) Hinv) as HB.
  destruct (lib_book L dt ps inv bk) as [ips upd|m|k m] eqn:Eb.
  2,3: revert HB; destruct (lib_book L dt (rename_posting r <$> ps) inv' bk') as [ips upd|m'|k' m']; intros HB; try done; by destruct (HB ips upd).
  rewrite HB. rewrite zip_renamed, (ren_validate_postings s s' e 0 _ H (zip_names _ _ Hps)).
  destruct (validate_postings s e 0 (zip ips ps)); [|done..].
  assert (Forall (λ x : string * P, N x.1) upd) as Hupd.
  { apply Forall_forall. intros x Hx. apply HN. destruct (lk_names L HL _ _ _ _ _ _ Eb) as [_ Hnames]. apply Hnames. by apply elem_of_list_fmap_1. }
  destruct (ren_update s s' e upd H Hupd) as [Hr He]. destruct (update_inventory s e upd) as [s1 r1], (update_inventory s' e _) as [s1' r1']. cbn in Hr, He. subst r1'.
  destruct r1; cbn; [|done..]. split; [done|]. rewrite ren_booked_from. split; [done|]. apply Forall_forall. intros q Hq. by eapply from_names.
Qed.

(** ** Balance assertions *)
Definition ok_b (b : bdirective) : Prop :=
  match b_variant b with
  | BVTransaction t => Forall (λ q, N (p_acc q)) (bt_postings t)
  | BVPad p => N (pad_source p)
  | _ => True
  end.
Local Notation rb := (rename_booked r).
Local Notation rv := (rename_booked_variant r).
Definition rbal (b : balance) : balance := Balance (r (bal_acc b)) (bal_units b) (bal_cur b) (bal_tolerance b).

Lemma ren_balance s s' b e bds : ren s s' → N (bal_acc b) → Forall ok_b bds →
  ren (balance_dct L ord s b e bds).1.1 (balance_dct L ord' s' (rbal b) e (rb <$> bds)).1.1 ∧
  (balance_dct L ord' s' (rbal b) e (rb <$> bds)).1.2 = rb <$> (balance_dct L ord s b e bds).1.2 ∧
  Forall ok_b (balance_dct L ord s b e bds).1.2 ∧
  alike_r (λ v v', v' = rv v ∧ ∃ bb, v = BVBalance bb ∧ bb_raw bb = b) (balance_dct L ord s b e bds).2 (balance_dct L ord' s' (rbal b) e (rb <$> bds)).2.
Proof using Hu Hord Hord'.
  intros H Hb Hbds. unfold balance_dct. cbn [rbal bal_acc bal_cur bal_units].
  change (effective_tolerance L (rbal b)) with (effective_tolerance L b).
  rewrite (ren_rollup s s' _ _ H Hb), (ren_get s s' _ _ H Hb). destruct (get_valid_account s (bal_acc b) e) as [a| |]; [|done..].
  destruct (validate_currency a (bal_cur b) e); [done|]. rewrite fmap_length.
  destruct (calculate_balance_margin _ _ _) as [margin|].
  2: { cbn [fst snd]. split; [by apply ren_put|]. split; [done|]. split; [done|]. cbn. split; [done|]. by eexists. }
  cbn [a_pad set_window set_pad]. set (a1 := adjust_account_to_match_balance _ _ _ _ _). 
  assert (ren (put_account s (bal_acc b) a1) (put_account s' (r (bal_acc b)) a1)) as H1 by by apply ren_put.
  destruct (a_pad a) as [[k u]|]; [|cbn; do 4 (split; [done|]); by eexists].
  rewrite list_lookup_fmap. destruct (bds !! k) as [padd|] eqn:Ek; [|done]. cbn [fmap option_fmap option_map].
  pose proof (proj1 (Forall_lookup _ _) Hbds _ _ Ek) as Hk. unfold ok_b in Hk. change (b_variant (rb padd)) with (rv (b_variant padd)).
  destruct (b_variant padd) as [| | | | | |p| | | | |] eqn:Ev; cbn [rename_booked_variant]; try done.
  rewrite list_lookup_fmap. destruct (bds !! S k) as [txnd|] eqn:Et; [|done]. cbn [fmap option_fmap option_map].
  change (b_variant (rb txnd)) with (rv (b_variant txnd)).
  destruct (b_variant txnd) as [t| | | | | | | | | | |] eqn:Ev'; cbn [rename_booked_variant]; try done.
  cbn [pad_source]. rewrite (rn_acc _ _ H1 _ Hk).
  set (y := set_variant txnd _).
  assert (rb <$> <[S k:=y]> bds = <[S k := set_variant (rb txnd) (BVTransaction (set_postings (BTransaction (bt_flag t) (bt_payee t) (bt_narration t) (rename_booked_posting r <$> bt_postings t))
    (calculate_balance_pad_postings (bal_cur b) margin (r (bal_acc b)) (r (pad_source p)))))]> (rb <$> bds)) as Ei by by rewrite list_fmap_insert.
  assert (Forall ok_b (<[S k:=y]> bds)) as Hok. { apply Forall_insert; [done|]. unfold ok_b, y. cbn. by repeat constructor. }
  destruct (s_accounts (put_account s (bal_acc b) a1) !! pad_source p) as [pa|] eqn:Ep; cbn [fst snd].
  2: { by rewrite Ei. }
  split; [by apply ren_put|]. rewrite Ei. split; [done|]. split; [done|]. cbn. split; [done|]. by eexists.
Qed.

(** *** The report of one which fails *)
Definition row5 (x : date * string * dec * dec * option string) : date * dec * dec * option string :=
  let '(dt, _, u, t, d) := x in (dt, u, t, d).
Definition acc_rel (x x' : dec * list (date * string * dec * dec * option string) * gset string) : Prop :=
  x'.1.1 = x.1.1 ∧ row5 <$> x'.1.2 = row5 <$> x.1.2 ∧
  ∃ l, NoDup l ∧ Forall N l ∧ x.2 = list_to_set l ∧ x'.2 = list_to_set (r <$> l).
Lemma ren_report_posting base d d' t t' x x' q : N base → N (p_acc q) → b_date d' = b_date d → bt_payee t' = bt_payee t → bt_narration t' = bt_narration t →
  acc_rel x x' → acc_rel (report_posting base d t x q) (report_posting (r base) d' t' x' (rename_booked_posting r q)).
Proof using Hu.
  intros Hb Hq E1 E2 E3 (H1&H2&l&Hl&HN&E&E'). destruct x as [[tot ds] a], x' as [[tot' ds'] a']. cbn in H1, H2, E, E'. subst tot' a a'.
  unfold report_posting. cbn [p_acc rename_booked_posting p_units]. rewrite !is_nonstrict_subaccount_under, Hu by done.
  destruct (under base (p_acc q)); [|split_and!; [done|done|by exists l]]. split; [done|]. cbn [fst snd]. split.
  { rewrite !fmap_app, H2. cbn. by rewrite E1, E2, E3. }
  destruct (decide (p_acc q ∈ l)) as [Hin|Hin].
  - exists l. split_and!; [done|done| |].
    + apply leibniz_equiv. intros z. rewrite elem_of_union, elem_of_singleton, elem_of_list_to_set. split; [by intros [->|]|by right].
    + apply leibniz_equiv. intros z. rewrite elem_of_union, elem_of_singleton, elem_of_list_to_set. split; [|by right]. intros [->|]; [|done]. by apply elem_of_list_fmap_1.
  - exists (p_acc q :: l). split_and!; [by constructor|by constructor|done|done].
Qed.
Lemma ren_report_postings base d d' t t' qs x x' : N base → Forall (λ q, N (p_acc q)) qs → b_date d' = b_date d → bt_payee t' = bt_payee t → bt_narration t' = bt_narration t →
  acc_rel x x' → acc_rel (fold_left (report_posting base d t) qs x) (fold_left (report_posting (r base) d' t') (rename_booked_posting r <$> qs) x').
Proof using Hu.
  intros Hb Hq E1 E2 E3. revert x x'. induction Hq as [|q qs Hq Hqs IH]; intros x x' H; [done|]. rewrite fmap_cons. cbn [fold_left]. apply IH. by apply ren_report_posting.
Qed.
Lemma ren_report_window base bs x x' : N base → Forall ok_b bs → acc_rel x x' → acc_rel (fold_left (report_directive base) bs x) (fold_left (report_directive (r base)) (rb <$> bs) x').
Proof using Hu.
  intros Hb Hbs. revert x x'. induction Hbs as [|b bs Hob Hbs IH]; intros x x' H; [done|]. rewrite fmap_cons. cbn [fold_left]. apply IH.
  unfold report_directive, ok_b in *. change (b_variant (rb b)) with (rv (b_variant b)). destruct (b_variant b); try done. cbn [rename_booked_variant bt_postings]. by apply ren_report_postings.
Qed.
Lemma ren_report s s' base m cur e bds : ren s s' → N base → Forall ok_b bds →
  alike_r same_place (balance_report s base m cur e bds) (balance_report s' (r base) m cur e (rb <$> bds)).
Proof using Hu.
  intros H Hb Hbds. unfold balance_report. rewrite (rn_acc _ _ H _ Hb). destruct (s_accounts s !! base) as [a|]; [|done].
  destruct (a_window a) as [[ws we]|]; [|done]. rewrite fmap_length. destruct (_ && _); [|done]. rewrite list_lookup_fmap.
  assert (∀ X Y : dec, X = Y →
    acc_rel (fold_left (report_directive base) (take (we - ws) (drop ws bds)) (X, [], ∅)) (fold_left (report_directive (r base)) (take (we - ws) (drop ws (rb <$> bds))) (Y, [], ∅))) as Hf.
  { intros X Y <-. rewrite <- fmap_drop, <- fmap_take. apply ren_report_window; [done|by apply Forall_take, Forall_drop|].
    split; [done|]. split; [done|]. exists []. split_and!; [constructor|constructor|done|done]. }
  set (X := match bds !! ws with Some d => _ | None => _ end). set (Y := match rb <$> bds !! ws with Some d => _ | None => _ end).
  assert (X = Y) as EXY. { unfold X, Y. destruct (bds !! ws) as [d|]; [|done]. cbn [fmap option_fmap option_map]. unfold rename_booked. cbn [b_variant]. by destruct (b_variant d). }
  specialize (Hf X Y EXY). destruct (fold_left _ _ (X, _, _)) as [[t ds] accs], (fold_left _ _ (Y, _, _)) as [[t' ds'] accs'].
  destruct Hf as (Et&Ed&l&Hl&HN&E&E'). cbn in Et, Ed, E, E'. subst t' accs accs'. 
  assert (size (list_to_set (r <$> l) : gset string) = size (list_to_set l : gset string)) as Es.
  { rewrite !size_list_to_set; [by rewrite fmap_length|done|]. apply NoDup_fmap_2_strong; [|done]. rewrite Forall_forall in HN. intros x y Hx Hy. apply r_inj; by apply HN. }
  rewrite Es. generalize (Nat.ltb 1 (size (list_to_set l : gset string))). intros mb. cbn [alike_r]. split; [done|]. split; [done|]. cbn. f_equal.
  clear -Ed. revert ds' Ed. induction ds as [|[[[[d1 d2] d3] d4] d5] ds IH]; intros [|[[[[e1 e2] e3] e4] e5] ds'] Ed; try done.
  rewrite !fmap_cons in Ed. cbn [row5] in Ed. injection Ed as -> -> -> -> Ed. rewrite !fmap_cons. cbn [map]. f_equal; [|by apply IH].
  unfold row_but_account. cbn. by destruct mb.
Qed.

(** ** The other directives *)
Lemma ren_push s s' w : ren s s' → ren (push_warning s w) (push_warning s' w).
Proof. intros [Ho Hc Ha Hd Hw Hi Hout]. constructor; cbn; try done. by rewrite Hw. Qed.
Lemma ren_open_dct s s' o e : ren s s' → N (op_acc o) →
  ren (open_dct L s o e).1 (open_dct L s' (Open (r (op_acc o)) (op_currencies o) (op_booking o)) e).1 ∧
  alike_r (λ v v', v = BVOpen o ∧ v' = rv v) (open_dct L s o e).2 (open_dct L s' (Open (r (op_acc o)) (op_currencies o) (op_booking o)) e).2.
Proof using Hu.
  intros H Hn'. unfold open_dct. cbn [op_acc op_currencies op_booking]. rewrite (rn_open _ _ H _ Hn'). destruct (s_open s !! op_acc o); [done|].
  assert (ren (set_open s (<[op_acc o := e]> (s_open s))) (set_open s' (<[r (op_acc o) := e]> (s_open s')))) as H1.
  { destruct H as [Ho Hc Ha Hd Hw Hi Hout]. constructor; cbn; try done. by apply ren_insert. }
  change (s_closed (set_open s' (<[r (op_acc o):=e]> (s_open s')))) with (s_closed s'). change (s_closed (set_open s (<[op_acc o:=e]> (s_open s)))) with (s_closed s).
  rewrite (rn_closed _ _ H _ Hn'). destruct (s_closed s !! op_acc o); [done|].
  rewrite (rn_default _ _ H1). 
  destruct (negb (lib_supported L (match op_booking o with Some b => booking_into b | None => s_default_booking (set_open s (<[op_acc o:=e]> (s_open s))) end))).
  - destruct (op_booking o) as [bk|] eqn:Eo; [destruct (lib_supported L (booking_into bk))|]; cbn [fst snd]; (split; [|cbn; by rewrite Eo]); repeat first [apply ren_put; [|done] | apply ren_push | done].
  - destruct (op_booking o) as [bk|] eqn:Eo; [destruct (lib_supported L (booking_into bk))|]; cbn [fst snd]; (split; [|cbn; by rewrite Eo]); repeat first [apply ren_put; [|done] | apply ren_push | done].
Qed.
Lemma ren_close_dct s s' a e : ren s s' → N a →
  ren (close_dct s a e).1 (close_dct s' (r a) e).1 ∧ alike_r (λ v v', v = BVClose a ∧ v' = rv v) (close_dct s a e).2 (close_dct s' (r a) e).2.
Proof using Hu.
  intros H Hn'. unfold close_dct. rewrite (rn_open _ _ H _ Hn'). destruct (s_open s !! a); [|done]. rewrite (rn_closed _ _ H _ Hn'). destruct (s_closed s !! a); [done|].
  split; [|done]. destruct H as [Ho Hc Ha Hd Hw Hi Hout]. constructor; cbn; try done; [by apply ren_delete|by apply ren_insert].
Qed.
Lemma ren_pad_dct s s' p i e : ren s s' → N (pad_acc p) →
  ren (pad_dct s p i e).1 (pad_dct s' (Pad (r (pad_acc p)) (r (pad_source p))) i e).1 ∧
  alike_r (λ v v', v = (BVPad p, Some (BVTransaction (BTransaction PAD_FLAG None None []))) ∧ v' = (rv v.1, v.2))
    (pad_dct s p i e).2 (pad_dct s' (Pad (r (pad_acc p)) (r (pad_source p))) i e).2.
Proof using Hu.
  intros H Hn'. unfold pad_dct. cbn [pad_acc]. rewrite (ren_get s s' _ _ H Hn'). destruct (get_valid_account s (pad_acc p) e) as [a| |]; [|done..].
  destruct (a_pad a) as [[? ?]|]; cbn; (split; [by apply ren_put|done]).
Qed.

(** ** The whole run *)
Definition ren_c (c c' : cst) : Prop :=
  ren (c_acc c) (c_acc c') ∧ c_booked c' = rb <$> c_booked c ∧ Forall ok_b (c_booked c) ∧ Forall2 same_place (c_errors c) (c_errors c').
Definition ren_res (x x' : @cres P) : Prop :=
  match x, x' with CRun c, CRun c' => ren_c c c' | CPanic _, CPanic _ => True | _, _ => False end.
Lemma ren_step i d c c' : (∀ a, a ∈ names_of d → N a) → ren_c c c' → ren_res (collect_step L ord i d c) (collect_step L ord' i (rename r d) c').
Proof using HL Hn Hu Hord Hord'.
  intros Hd (H&Eb&Hok&He). unfold collect_step. destruct c as [s es bds], c' as [s' es' bds']. cbn [c_acc c_booked c_errors] in *. subst bds'.
  assert (∀ (s1 s1' : accst P) v, ren s1 s1' → (∀ bb, v ≠ BVBalance bb) → ok_b (booked_of i d v) →
    ren_c (CSt s1 es (bds ++ [booked_of i d v] ++ [])) (CSt s1' es' ((rb <$> bds) ++ [booked_of i (rename r d) (rv v)] ++ []))) as Hplain.
  { intros s1 s1' v H1 _ Hv. split; [done|]. cbn [c_booked c_errors]. split; [by rewrite fmap_app|]. split; [|done]. apply Forall_app_2; [done|]. by repeat constructor. }
  assert (∀ (s1 s1' : accst P) er er', ren s1 s1' → same_place er er' → ren_c (CSt s1 (es ++ [er]) bds) (CSt s1' (es' ++ [er']) (rb <$> bds))) as Herr.
  { intros s1 s1' er er' H1 Hr. split; [done|]. cbn [c_booked c_errors]. split; [done|]. split; [done|]. apply Forall2_app; [done|]. constructor; [done|constructor]. }
  unfold directive_dct. cbn [rename d_variant d_date]. unfold names_of in Hd.
  destruct (d_variant d) as [t|p|b|o|a|cur|p|a p|a n|t x|n q|cu] eqn:Ev; cbn [rename_variant].
  - assert (Forall (λ ps, N (ps_acc ps)) (tx_postings t)) as Hps by (apply Forall_forall; intros x Hx; by apply Hd, elem_of_list_fmap_1).
    unfold transaction_dct. cbn [tx_postings tx_flag tx_payee tx_narration].
    destruct (ren_txn s s' (d_date d) (tx_postings t) (eidx_of_nat i) H Hps) as [H1 HR].
    destruct (book_txn L s _ _ _) as [s1 [l|er|]], (book_txn L s' _ _ _) as [s1' [l'|er'|]]; cbn in H1, HR; try done.
    + destruct HR as [-> HN]. cbn [with_none]. exact (Hplain s1 s1' (BVTransaction (BTransaction (tx_flag t) (tx_payee t) (tx_narration t) l)) H1 ltac:(done) HN).
    + by apply Herr.
  - by apply (Hplain s s' (BVPrice p)).
  - destruct (ren_balance s s' b (eidx_of_nat i) bds H ltac:(apply Hd; by left) Hok) as (H1&E1&Hok1&HR). change (Balance (r (bal_acc b)) (bal_units b) (bal_cur b) (bal_tolerance b)) with (rbal b).
    destruct (balance_dct L ord s b _ bds) as [[s1 b1] [v|er|]], (balance_dct L ord' s' (rbal b) _ _) as [[s1' b1'] [v'|er'|]]; cbn in H1, E1, Hok1, HR; subst; try done.
    + destruct HR as (->&[raw up mg]&->&Hraw). cbn in Hraw. subst raw. set (bb := BBalance b up mg). cbn [with_none rename_booked_variant bal_acc bal_cur].
      assert (∀ xs xs', Forall2 same_place xs xs' → ren_res
        (CRun (CSt s1 xs (b1 ++ [booked_of i d (BVBalance bb)] ++ [])))
        (CRun (CSt s1' xs' ((rb <$> b1) ++ [booked_of i (rename r d) (rv (BVBalance bb))] ++ [])))) as Hfin.
      { intros xs xs' Hxs. split; [done|]. cbn [c_booked c_errors]. split; [by rewrite fmap_app|]. split; [|done]. apply Forall_app_2; [done|]. by repeat constructor. }
      assert (Forall2 same_place (es ++ match bb_unused_pad bb with Some u => [mk_report u "unused, no balance adjustment required"] | None => [] end)
        (es' ++ match bb_unused_pad bb with Some u => [mk_report u "unused, no balance adjustment required"] | None => [] end)) as Hes.
      { apply Forall2_app; [done|]. destruct (bb_unused_pad bb); [constructor; [done|constructor]|constructor]. }
      subst bb. cbn [bb_raw bb_unused_pad bb_margin] in *. destruct mg as [m|]; [|exact (Hfin _ _ Hes)].
      pose proof (ren_report s1 s1' (bal_acc b) m (bal_cur b) (eidx_of_nat i) b1 H1 ltac:(apply Hd; by left) Hok1) as HB.
      destruct (balance_report s1 _ _ _ _ _), (balance_report s1' _ _ _ _ _); try done; (refine (Hfin _ _ _); apply Forall2_app; [exact Hes|constructor; [done|constructor]]).
    + split; [done|]. cbn [c_booked c_errors]. split; [done|]. split; [done|]. apply Forall2_app; [done|]. constructor; [done|constructor].
  - destruct (ren_open_dct s s' o (eidx_of_nat i) H ltac:(apply Hd; by left)) as [H1 HR].
    destruct (open_dct L s _ _) as [s1 [v|er|]], (open_dct L s' _ _) as [s1' [v'|er'|]]; cbn in H1, HR; try done.
    + destruct HR as [-> ->]. by apply (Hplain s1 s1' (BVOpen o)).
    + by apply Herr.
  - destruct (ren_close_dct s s' a (eidx_of_nat i) H ltac:(apply Hd; by left)) as [H1 HR].
    destruct (close_dct s _ _) as [s1 [v|er|]], (close_dct s' _ _) as [s1' [v'|er'|]]; cbn in H1, HR; try done.
    + destruct HR as [-> ->]. by apply (Hplain s1 s1' (BVClose a)).
    + by apply Herr.
  - by apply (Hplain s s' (BVCommodity cur)).
  - rewrite fmap_length. destruct (ren_pad_dct s s' p (length bds) (eidx_of_nat i) H ltac:(apply Hd; by left)) as [H1 HR].
    destruct (pad_dct s _ _ _) as [s1 [v|er|]], (pad_dct s' _ _ _) as [s1' [v'|er'|]]; cbn in H1, HR; try done.
    + destruct HR as [-> ->]. cbn [fst snd rename_booked_variant]. split; [done|]. cbn [c_booked c_errors]. split; [by rewrite fmap_app|]. split; [|done].
      apply Forall_app_2; [done|]. repeat constructor. apply Hd. by right; left.
    + by apply Herr.
  - by apply (Hplain s s' (BVDocument a p)).
  - by apply (Hplain s s' (BVNote a n)).
  - by apply (Hplain s s' (BVEvent t x)).
  - by apply (Hplain s s' (BVQuery n q)).
  - by apply (Hplain s s' (BVCustom cu)).
Qed.
Lemma ren_loop i ds c c' : (∀ a, a ∈ ds ≫= names_of → N a) → ren_c c c' → ren_res (collect_loop L ord i ds c) (collect_loop L ord' i (rename r <$> ds) c').
Proof using HL Hn Hu Hord Hord'.
  revert i c c'. induction ds as [|d ds IH]; intros i c c' Hd H; [done|]. rewrite fmap_cons. cbn [collect_loop].
  assert (∀ a, a ∈ names_of d → N a) as H1 by (intros a Ha; apply Hd; rewrite bind_cons; by apply elem_of_app; left).
  assert (∀ a, a ∈ ds ≫= names_of → N a) as H2 by (intros a Ha; apply Hd; rewrite bind_cons; by apply elem_of_app; right).
  pose proof (ren_step i d c c' H1 H) as HR. destruct (collect_step L ord i d c), (collect_step L ord' i _ c'); try done. by apply IH.
Qed.
Lemma ren_unused s s' : ren s s' → unused_pad_reports ord' (s_accounts s') ≡ₚ unused_pad_reports ord (s_accounts s).
Proof using Hu Hord Hord'.
  intros H. unfold unused_pad_reports. rewrite Hord', (ren_list s s' H), Hord.
  induction (map_to_list (s_accounts s)) as [|x l IH]; [done|]. rewrite fmap_cons. cbn [omap list_omap snd]. destruct (a_pad x.2) as [[? ?]|]; [|done]. by apply perm_skip.
Qed.
Lemma ren_new bk : ren (acc_new bk) (acc_new bk).
Proof. constructor; cbn; try done; intros; try by rewrite !lookup_empty. all: by rewrite lookup_empty in *. Qed.
Lemma ren_book opt ds : (∀ a, a ∈ ds ≫= names_of → N a) →
  match book L ord opt ds, book L ord' opt (rename r <$> ds) with
  | BookSuccess bs ws, BookSuccess bs' ws' => bs' = rb <$> bs ∧ ws' = ws ∧ Forall ok_b bs
  | BookFailure es, BookFailure es' => ∃ es1, es1 ≡ₚ es ∧ Forall2 same_place es1 es'
  | BookPanic _, BookPanic _ => True
  | _, _ => False
  end.
Proof using HL Hn Hu Hord Hord'.
  intros Hd. unfold book, collect. pose proof (ren_loop 0 ds (CSt (acc_new (default_booking_option L opt)) [] []) (CSt (acc_new (default_booking_option L opt)) [] []) Hd) as HR.
  specialize (HR ltac:(split; [apply ren_new|split; [done|split; constructor]])).
  destruct (collect_loop L ord 0 ds _) as [c|], (collect_loop L ord' 0 _ _) as [c'|]; try done. destruct HR as (H&Eb&Hok&He).
  unfold validate. pose proof (ren_unused _ _ H) as Hp.
  assert (∃ es1, es1 ≡ₚ c_errors c ++ unused_pad_reports ord (s_accounts (c_acc c)) ∧ Forall2 same_place es1 (c_errors c' ++ unused_pad_reports ord' (s_accounts (c_acc c')))) as (es1&Hes&HF).
  { exists (c_errors c ++ unused_pad_reports ord' (s_accounts (c_acc c'))). split; [by rewrite Hp|]. apply Forall2_app; [done|]. apply Forall_Forall2_diag, Forall_forall. intros x _. done. }
  destruct (c_errors c ++ unused_pad_reports ord (s_accounts (c_acc c))) as [|x l], (c_errors c' ++ unused_pad_reports ord' (s_accounts (c_acc c'))) as [|x' l'].
  - by rewrite (rn_warnings _ _ H).
  - symmetry in Hes; apply Permutation_nil in Hes; subst. inversion HF.
  - inversion HF; subst. by apply Permutation_nil_cons in Hes.
  - by exists es1.
Qed.
End Rename.
