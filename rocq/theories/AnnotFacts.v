(** Booking ledgers which are the same but for annotations goes the same way. *)
From Coq Require Import Ascii QArith.
From stdpp Require Import prelude gmap strings pretty.
From Verif Require Import DecModel LedgerTypes BookModel BookSteps AnnotSpec.
Local Open Scope nat_scope.

Lemma cons_eq_inv {A} (x y : A) l k : x :: l = y :: k → x = y ∧ l = k.
Proof. by intros [= -> ->]. Qed.

Section Annot.
Context {P : Type} (L : booking_lib P) (HL : lib_blind L).
Context (ord : gmap string (account P) → list (string * account P)).

(** ** Transactions *)
Lemma bare_validate s e i ips ps ps' : bare_posting <$> ps = bare_posting <$> ps' →
  validate_postings (P:=P) s e i (zip ips ps) = validate_postings s e i (zip ips ps').
Proof.
  revert i ips ps'. induction ps as [|x ps IH]; intros i [|ip ips] [|x' ps'] H; try done. cbn in H. injection H as Hx _ _ _ _ H. cbn. rewrite Hx. destruct (validate_account_and_currency _ _ _ _); [|done..].
  by apply IH.
Qed.
Lemma bare_postings_of i ip ps ps' : bare_posting ps = bare_posting ps' →
  bare_booked_posting <$> booked_postings_of i ip ps = bare_booked_posting <$> booked_postings_of i ip ps'.
Proof.
  intros [= H _ _ _ _]. unfold booked_postings_of. destruct (in_cost ip) as [costs|]; [|cbn; unfold bare_booked_posting; cbn; by rewrite H].
  rewrite <- !list_fmap_compose. apply list_fmap_ext. intros j [c pc] _. cbn. unfold bare_booked_posting; cbn. by rewrite H.
Qed.
Lemma bare_postings_from i ips ps ps' : bare_posting <$> ps = bare_posting <$> ps' →
  bare_booked_posting <$> booked_postings_from i (zip ips ps) = bare_booked_posting <$> booked_postings_from i (zip ips ps').
Proof.
  revert i ips ps'. induction ps as [|x ps IH]; intros i [|ip ips] [|x' ps'] H; try done. rewrite !fmap_cons in H. apply cons_eq_inv in H as [Hx H].
  cbn [zip zip_with booked_postings_from]. rewrite !fmap_app. f_equal; [by apply bare_postings_of|by apply IH].
Qed.
Definition like_rr {A} (R : A → A → Prop) (a b : rr A) : Prop :=
  match a, b with ROk x, ROk y => R x y | RErr x, RErr y => x = y | RPanic x, RPanic y => x = y | _, _ => False end.
Lemma bare_book_txn s dt ps ps' e : bare_posting <$> ps = bare_posting <$> ps' →
  (book_txn L s dt ps e).1 = (book_txn L s dt ps' e).1 ∧
  like_rr (λ l l', bare_booked_posting <$> l = bare_booked_posting <$> l') (book_txn L s dt ps e).2 (book_txn L s dt ps' e).2.
Proof using HL.
  intros H. unfold book_txn. rewrite (HL dt ps ps' _ _ H). destruct (lib_book L dt ps' _ _) as [ips upd|msg|j msg]; [|done..].
  cbn zeta. rewrite (bare_validate s e 0 ips ps ps' H). destruct (validate_postings _ _ _ _); [|done..].
  destruct (update_inventory s e upd) as [s' [u| |]]; [|done..]. split; [done|]. cbn. by apply bare_postings_from.
Qed.

(** ** Balances *)
Lemma bare_lookup (bds bds' : list bdirective) (k : nat) b : bare_booked <$> bds = bare_booked <$> bds' → bds !! k = Some b → ∃ b', bds' !! k = Some b' ∧ bare_booked b = bare_booked b'.
Proof.
  intros H Hk. assert ((bare_booked <$> bds) !! k = Some (bare_booked b)) as E by (rewrite list_lookup_fmap, Hk; done).
  rewrite H, list_lookup_fmap in E. destruct (bds' !! k) as [b'|]; [|done]. apply (inj Some) in E. eauto.
Qed.
Lemma bare_lookup_none (bds bds' : list bdirective) (k : nat) : bare_booked <$> bds = bare_booked <$> bds' → bds !! k = None → bds' !! k = None.
Proof. intros H. apply (f_equal length) in H. rewrite !fmap_length in H. rewrite !lookup_ge_None. lia. Qed.
Lemma bare_variant b b' : bare_booked b = bare_booked b' →
  match b_variant b, b_variant b' with
  | BVTransaction t, BVTransaction t' => bare_booked_posting <$> bt_postings t = bare_booked_posting <$> bt_postings t'
  | BVBalance x, BVBalance x' => x = x'
  | BVOpen x, BVOpen x' => x = x'
  | BVClose x, BVClose x' => x = x'
  | BVPad x, BVPad x' => x = x'
  | (BVTransaction _ | BVBalance _ | BVOpen _ | BVClose _ | BVPad _), _ => False
  | _, (BVTransaction _ | BVBalance _ | BVOpen _ | BVClose _ | BVPad _) => False
  | _, _ => True
  end ∧ b_idx b = b_idx b' ∧ b_date b = b_date b'.
Proof. unfold bare_booked. intros [= Hi Hd Hv]. by destruct (b_variant b), (b_variant b'); try discriminate Hv; simplify_eq. Qed.

Lemma bare_balance s b e bds bds' : bare_booked <$> bds = bare_booked <$> bds' →
  let x := balance_dct L ord s b e bds in let y := balance_dct L ord s b e bds' in
  x.1.1 = y.1.1 ∧ bare_booked <$> x.1.2 = bare_booked <$> y.1.2 ∧ x.2 = y.2.
Proof.
  intros H. unfold balance_dct. cbn zeta.
  assert (length bds = length bds') as Hlen by (apply (f_equal length) in H; by rewrite !fmap_length in H).
  destruct (get_valid_account s (bal_acc b) e) as [a| |]; [|done..]. destruct (validate_currency a (bal_cur b) e); [done|]. rewrite Hlen.
  destruct (calculate_balance_margin _ _ _) as [m|]; [|done]. destruct (a_pad (set_window a _)) as [[k u]|]; [|done].
  destruct (bds !! k) as [pd|] eqn:Ek; [|by rewrite (bare_lookup_none _ _ _ H Ek)].
  destruct (bare_lookup _ _ _ _ H Ek) as (pd'&->&Hpd). apply bare_variant in Hpd as [Hpd _].
  destruct (b_variant pd) as [| | | | | |p| | | | |], (b_variant pd') as [| | | | | |p'| | | | |]; try done. subst p'.
  destruct (bds !! S k) as [td|] eqn:Et; [|by rewrite (bare_lookup_none _ _ _ H Et)].
  destruct (bare_lookup _ _ _ _ H Et) as (td'&->&Htd). apply bare_variant in Htd as (Htd&Hi&Hd).
  destruct (b_variant td) as [t| | | | | | | | | | |], (b_variant td') as [t'| | | | | | | | | | |]; try done.
  set (s' := put_account _ _ _).
  assert (∀ l, bare_booked <$> <[S k:=set_variant td (BVTransaction (set_postings t l))]> bds =
    bare_booked <$> <[S k:=set_variant td' (BVTransaction (set_postings t' l))]> bds') as Hins.
  { intros l. rewrite !list_fmap_insert, H. f_equal. unfold bare_booked, set_variant. cbn. by rewrite Hi, Hd. }
  destruct (s_accounts s' !! pad_source p); split_and!; cbn; try done; apply Hins.
Qed.

(** ** The report of a failed balance *)
Notation diag := (date * string * dec * dec * option string)%type.
Definition bare_diag (x : diag) : diag := (x.1, None).
Definition bare_scan (x : dec * list diag * gset string) : dec * list diag * gset string := (x.1.1, bare_diag <$> x.1.2, x.2).
Lemma bare_report_posting base d d' t t' x x' q q' : b_date d = b_date d' → bare_scan x = bare_scan x' → bare_booked_posting q = bare_booked_posting q' →
  bare_scan (report_posting base d t x q) = bare_scan (report_posting base d' t' x' q').
Proof.
  intros Hd Hx [= Hi Ha Hu Hc Hco Hp]. destruct x as [[tot di] ac], x' as [[tot' di'] ac']. unfold bare_scan in Hx. cbn in Hx.
  injection Hx as -> Hdi ->. unfold report_posting. rewrite Ha, Hu, Hd. destruct (is_nonstrict_subaccount base (p_acc q')); unfold bare_scan; cbn.
  - by rewrite !fmap_app, Hdi.
  - by rewrite Hdi.
Qed.
Lemma bare_report_directive base x x' d d' : bare_scan x = bare_scan x' → bare_booked d = bare_booked d' →
  bare_scan (report_directive base x d) = bare_scan (report_directive base x' d').
Proof.
  intros Hx Hd. apply bare_variant in Hd as (Hv&_&Hd). unfold report_directive. destruct (b_variant d) as [t| | | | | | | | | | |], (b_variant d') as [t'| | | | | | | | | | |]; try done.
  remember (bt_postings t) as l eqn:E. clear E. remember (bt_postings t') as l' eqn:E. clear E. revert x x' l' Hx Hv. induction l as [|q l IH]; intros x x' [|q' l'] Hx Hv; try done.
  rewrite !fmap_cons in Hv. apply cons_eq_inv in Hv as [Hq Hv]. cbn. apply IH; [|done]. by apply bare_report_posting.
Qed.
Lemma bare_fold base l l' x x' : bare_scan x = bare_scan x' → bare_booked <$> l = bare_booked <$> l' →
  bare_scan (fold_left (report_directive base) l x) = bare_scan (fold_left (report_directive base) l' x').
Proof.
  revert x x' l'. induction l as [|d l IH]; intros x x' [|d' l'] Hx H; try done. rewrite !fmap_cons in H. apply cons_eq_inv in H as [Hd H].
  cbn. apply IH; [|done]. by apply bare_report_directive.
Qed.
Lemma bare_balance_report s base m cur e bds bds' : bare_booked <$> bds = bare_booked <$> bds' →
  like_rr (λ r r', bare_report r = bare_report r') (balance_report (P:=P) s base m cur e bds) (balance_report s base m cur e bds').
Proof.
  intros H. assert (length bds = length bds') as Hlen by (apply (f_equal length) in H; by rewrite !fmap_length in H).
  unfold balance_report. destruct (s_accounts s !! base) as [a|]; [|done]. destruct (a_window a) as [[ws we]|]; [|done]. rewrite <- Hlen.
  set (tot := match bds !! ws with Some d => _ | None => _ end). set (tot' := match bds' !! ws with Some d => _ | None => _ end).
  assert (tot = tot') as <-.
  { unfold tot, tot'. destruct (bds !! ws) as [d|] eqn:E; [|by rewrite (bare_lookup_none _ _ _ H E)].
    destruct (bare_lookup _ _ _ _ H E) as (d'&->&Hd). apply bare_variant in Hd as [Hd _]. destruct (b_variant d), (b_variant d'); try done. by subst. }
  destruct (_ && _); [|done].
  assert (bare_booked <$> take (we - ws) (drop ws bds) = bare_booked <$> take (we - ws) (drop ws bds')) as Hw by by rewrite !fmap_take, !fmap_drop, H.
  pose proof (bare_fold base _ _ (tot, [], ∅) (tot, [], ∅) eq_refl Hw) as Hf.
  destruct (fold_left _ (take _ (drop _ bds)) _) as [[t di] ac], (fold_left _ (take _ (drop _ bds')) _) as [[t' di'] ac'].
  unfold bare_scan in Hf. cbn in Hf. injection Hf as -> Hdi ->. cbn. unfold bare_report, with_annotation, mk_report. cbn. do 2 f_equal.
  clear -Hdi. revert di' Hdi. induction di as [|x di IH]; intros [|x' di'] Hdi; try done. rewrite !fmap_cons in Hdi. apply cons_eq_inv in Hdi as [Hx Hdi].
  cbn. rewrite (IH di' Hdi). f_equal. destruct x as [[[[? ?] ?] ?] ?], x' as [[[[? ?] ?] ?] ?]. unfold bare_diag in Hx. cbn in Hx. injection Hx as -> -> -> ->. done.
Qed.

(** ** One directive *)
Record like_c (c c' : cst (P:=P)) : Prop := {
  lc_acc : c_acc c = c_acc c'; lc_errors : bare_report <$> c_errors c = bare_report <$> c_errors c';
  lc_booked : bare_booked <$> c_booked c = bare_booked <$> c_booked c' }.
Definition like_res (x y : cres (P:=P)) : Prop := match x, y with CRun c, CRun c' => like_c c c' | CPanic w, CPanic w' => w = w' | _, _ => False end.

Lemma bare_directive d d' : bare d = bare d' → d_date d = d_date d' ∧
  match d_variant d, d_variant d' with
  | DTransaction t, DTransaction t' => bare_posting <$> tx_postings t = bare_posting <$> tx_postings t'
  | DBalance x, DBalance x' => x = x'
  | DOpen x, DOpen x' => x = x'
  | DClose x, DClose x' => x = x'
  | DPad x, DPad x' => x = x'
  | (DTransaction _ | DBalance _ | DOpen _ | DClose _ | DPad _), _ => False
  | _, (DTransaction _ | DBalance _ | DOpen _ | DClose _ | DPad _) => False
  | _, _ => True
  end.
Proof. unfold bare. intros [= Hd Hv]. by destruct (d_variant d), (d_variant d'); try discriminate Hv; simplify_eq. Qed.

Lemma bare_step i d d' c c' : bare d = bare d' → like_c c c' → like_res (collect_step L ord i d c) (collect_step L ord i d' c').
Proof using HL.
  intros Hd [Ha He Hb]. apply bare_directive in Hd as [Hdt Hv]. unfold collect_step, directive_dct. rewrite <- Ha. set (e := eidx_of_nat i). set (s := c_acc c).
  assert (length (c_booked c) = length (c_booked c')) as Hlen by (apply (f_equal length) in Hb; by rewrite !fmap_length in Hb).
  assert (∀ l l', bare_booked <$> l = bare_booked <$> l' → bare_booked <$> c_booked c ++ l = bare_booked <$> c_booked c' ++ l') as Happ by (intros; by rewrite !fmap_app, Hb; f_equal).
  assert (∀ x, bare_report <$> c_errors c ++ x = bare_report <$> c_errors c' ++ x) as Herr by (intros; by rewrite !fmap_app, He).
  destruct (d_variant d) as [t|p|b|o|a|cu|pd|a1 a2|a1 a2|a1 a2|a1 a2|cu], (d_variant d') as [t'|p'|b'|o'|a'|cu'|pd'|a1' a2'|a1' a2'|a1' a2'|a1' a2'|cu']; try done.
  all: try (cbn; split; [done|done|apply Happ; cbn; unfold bare_booked, booked_of; cbn; by rewrite Hdt]).
  - unfold transaction_dct. rewrite <- Hdt. pose proof (bare_book_txn s (d_date d) _ _ e Hv) as [H1 H2].
    destruct (book_txn L s (d_date d) (tx_postings t) e) as [s1 r1], (book_txn L s (d_date d) (tx_postings t') e) as [s2 r2]. cbn in H1, H2. subst s2.
    destruct r1, r2; try done; cbn.
    + split; [done|done|]. apply Happ. cbn. unfold bare_booked, booked_of; cbn. by rewrite Hdt, H2.
    + cbn in H2. subst. split; [done|apply Herr|done].
  - subst b'. pose proof (bare_balance s b e _ _ Hb) as (H1&H2&H3). destruct (balance_dct L ord s b e (c_booked c)) as [[s1 l1] r1], (balance_dct L ord s b e (c_booked c')) as [[s2 l2] r2].
    cbn in H1, H2, H3. subst s2 r2. destruct r1 as [v| |]; cbn; [|split; [done|apply Herr|done]|done].
    assert (∀ v, bare_booked <$> l1 ++ [booked_of i d v] = bare_booked <$> l2 ++ [booked_of i d' v]) as Hl.
    { intros w. rewrite !fmap_app, H2. f_equal. cbn. unfold bare_booked, booked_of; cbn. by rewrite Hdt. }
    destruct v as [| |bb| | | | | | | | |]; try (split; [done|done|apply Hl]).
    destruct (bb_margin bb) as [m|]; [|split; [done|apply Herr|apply Hl]].
    pose proof (bare_balance_report s1 (bal_acc (bb_raw bb)) m (bal_cur (bb_raw bb)) e l1 l2 H2) as Hr.
    destruct (balance_report _ _ _ _ _ l1), (balance_report _ _ _ _ _ l2); try done; cbn in *.
    + split; cbn; [done| |apply Hl]. rewrite !(fmap_app bare_report (_ ++ _)), Herr. f_equal. cbn. by rewrite Hr.
    + split; cbn; [done| |apply Hl]. rewrite !(fmap_app bare_report (_ ++ _)), Herr. f_equal. cbn. by rewrite Hr.
  - subst o'. destruct (open_dct L s o e) as [s1 [v| |]] eqn:Eo; cbn; [|split; [done|apply Herr|done]|done].
    assert (v = BVOpen o) as ->.
    { unfold open_dct in Eo. destruct (s_open s !! op_acc o); [done|]. cbn in Eo. destruct (s_closed s !! op_acc o); [done|]. destruct (negb _) in Eo; by injection Eo as _ <-. }
    split; [done|done|]. apply Happ. cbn. unfold bare_booked, booked_of; cbn. by rewrite Hdt.
  - subst a'. destruct (close_dct s a e) as [s1 [v| |]] eqn:Eo; cbn; [|split; [done|apply Herr|done]|done].
    assert (v = BVClose a) as ->.
    { unfold close_dct in Eo. destruct (s_open s !! a); [|done]. destruct (s_closed s !! a); [done|]. by injection Eo as _ <-. }
    split; [done|done|]. apply Happ. cbn. unfold bare_booked, booked_of; cbn. by rewrite Hdt.
  - subst pd'. rewrite <- Hlen. destruct (pad_dct s pd (length (c_booked c)) e) as [s1 [[v w]| |]] eqn:Eo; cbn; [|split; [done|apply Herr|done]|done].
    assert (v = BVPad pd ∧ w = Some (BVTransaction (BTransaction PAD_FLAG None None []))) as [-> ->].
    { unfold pad_dct in Eo. destruct (get_valid_account s (pad_acc pd) e) as [x| |]; [|done..]. destruct (a_pad x) as [[? ?]|]; [done|]. by injection Eo as _ <- <-. }
    split; [done|done|]. apply Happ. cbn. unfold bare_booked, booked_of; cbn. by rewrite Hdt.
Qed.
Lemma bare_loop i ds ds' c c' : bare <$> ds = bare <$> ds' → like_c c c' → like_res (collect_loop L ord i ds c) (collect_loop L ord i ds' c').
Proof using HL.
  revert i ds' c c'. induction ds as [|d ds IH]; intros i [|d' ds'] c c' H Hc; try done. rewrite !fmap_cons in H. apply cons_eq_inv in H as [Hd H].
  cbn [collect_loop]. pose proof (bare_step i d d' c c' Hd Hc) as Hs. destruct (collect_step L ord i d c), (collect_step L ord i d' c'); try done. by apply IH.
Qed.
Lemma bare_book opt ds ds' : bare <$> ds = bare <$> ds' → bare_result (book L ord opt ds) = bare_result (book L ord opt ds').
Proof using HL.
  intros H. unfold book, collect. pose proof (bare_loop 0 ds ds' (CSt (acc_new (default_booking_option L opt)) [] []) _ H ltac:(by split)) as HR.
  destruct (collect_loop L ord 0 ds _) as [c|], (collect_loop L ord 0 ds' _) as [c'|]; try done; cbn in *; [|by subst].
  destruct HR as [Ha He Hb]. unfold validate. rewrite <- Ha.
  assert (bare_report <$> (c_errors c ++ unused_pad_reports ord (s_accounts (c_acc c))) = bare_report <$> (c_errors c' ++ unused_pad_reports ord (s_accounts (c_acc c)))) as E by (by rewrite !fmap_app, He).
  destruct (c_errors c ++ _), (c_errors c' ++ _); try done; cbn; [by rewrite Hb, Ha|]. by rewrite !fmap_cons in E; f_equal.
Qed.

(** ** Places *)
Lemma bare_unplaced d : bare (unplaced d) = bare d.
Proof. unfold bare, unplaced. cbn. destruct (d_variant d); cbn; try done. do 3 f_equal. by rewrite <- list_fmap_compose. Qed.
Lemma unplaced_from i ips ps : booked_postings_from i (zip ips (unplaced_posting <$> ps)) = booked_postings_from i (zip ips ps).
Proof. revert i ips. induction ps as [|x ps IH]; intros i [|ip ips]; try done. cbn. by rewrite IH. Qed.
Lemma unplaced_validate s e i ips ps : validate_postings (P:=P) s e i (zip ips (unplaced_posting <$> ps)) = validate_postings s e i (zip ips ps).
Proof. revert i ips. induction ps as [|x ps IH]; intros i [|ip ips]; try done. cbn. by rewrite IH. Qed.
Lemma unplaced_txn s dt ps e : book_txn L s dt (unplaced_posting <$> ps) e = book_txn L s dt ps e.
Proof using HL.
  unfold book_txn. rewrite (HL dt (unplaced_posting <$> ps) ps) by by rewrite <- list_fmap_compose.
  destruct (lib_book L dt ps _ _) as [ips upd|msg|j msg]; [|done..]. cbn zeta. by rewrite unplaced_validate, unplaced_from.
Qed.
Lemma unplaced_step i d c : collect_step L ord i (unplaced d) c = collect_step L ord i d c.
Proof using HL.
  assert (directive_dct L ord (c_acc c) (unplaced d) (eidx_of_nat i) (c_booked c) = directive_dct L ord (c_acc c) d (eidx_of_nat i) (c_booked c)) as E.
  { unfold directive_dct, unplaced, transaction_dct. cbn. destruct (d_variant d); try done. cbn. by rewrite unplaced_txn. }
  unfold collect_step. by rewrite E.
Qed.
Lemma unplaced_book opt ds : book L ord opt (unplaced <$> ds) = book L ord opt ds.
Proof using HL.
  unfold book, collect. assert (∀ i c, collect_loop L ord i (unplaced <$> ds) c = collect_loop L ord i ds c) as ->; [|done].
  induction ds as [|d ds IH]; intros i c; [done|]. cbn. rewrite unplaced_step. destruct (collect_step L ord i d c); [|done]. apply IH.
Qed.
End Annot.
