(** Invariants of the booking loop. *)
From Coq Require Import Ascii QArith.
From stdpp Require Import prelude gmap strings pretty.
From Verif Require Import DecModel LedgerTypes BookModel BookSpec BookSteps.
Local Open Scope nat_scope.

(** ** Facts about the specification vocabulary *)

Lemma opens_at_lt ds i a o : opens_at ds i a o → i < length ds.
Proof. intros (d & H & _). by eapply lookup_lt_Some. Qed.
Lemma closes_at_lt ds i a : closes_at ds i a → i < length ds.
Proof. intros (d & H & _). by eapply lookup_lt_Some. Qed.

Lemma opens_at_app ds ds' i a o : opens_at ds i a o → opens_at (ds ++ ds') i a o.
Proof. intros (d & H & ?). exists d. split; [|done]. by apply lookup_app_l_Some. Qed.
Lemma closes_at_app ds ds' i a : closes_at ds i a → closes_at (ds ++ ds') i a.
Proof. intros (d & H & ?). exists d. split; [|done]. by apply lookup_app_l_Some. Qed.
Lemma opens_at_app_inv ds ds' i a o : i < length ds → opens_at (ds ++ ds') i a o → opens_at ds i a o.
Proof. intros ? (d & H & ?). exists d. split; [|done]. by rewrite lookup_app_l in H. Qed.
Lemma closes_at_app_inv ds ds' i a : i < length ds → closes_at (ds ++ ds') i a → closes_at ds i a.
Proof. intros ? (d & H & ?). exists d. split; [|done]. by rewrite lookup_app_l in H. Qed.

Lemma open_before_app ds ds' k a i o :
  k <= length ds → open_before ds k a i o → open_before (ds ++ ds') k a i o.
Proof.
  intros Hk (H1 & H2 & H3). split; [done|]. split; [by apply opens_at_app|].
  intros j ?? Hc. eapply H3; [done|done|]. eapply closes_at_app_inv; [|done]. lia.
Qed.

Lemma snoc_lookup {A} (l : list A) x i y :
  (l ++ [x]) !! i = Some y → (i < length l ∧ l !! i = Some y) ∨ (i = length l ∧ y = x).
Proof.
  intros H. destruct (decide (i < length l)).
  - left. split; [done|]. by rewrite lookup_app_l in H by done.
  - right. rewrite lookup_app_r in H by lia.
    destruct (i - length l) as [|m] eqn:E; cbn in H; [|done].
    injection H as ->. split; [lia|done].
Qed.

Lemma opens_at_snoc ds d i a o :
  opens_at (ds ++ [d]) i a o → opens_at ds i a o ∨ (i = length ds ∧ d_variant d = DOpen o ∧ op_acc o = a).
Proof.
  intros (d' & H & Hv & Ha). apply snoc_lookup in H as [[? H]|[-> ->]].
  - left. by exists d'.
  - by right.
Qed.

Lemma closes_at_snoc ds d i a :
  closes_at (ds ++ [d]) i a → closes_at ds i a ∨ (i = length ds ∧ d_variant d = DClose a).
Proof.
  intros (d' & H & Hv). apply snoc_lookup in H as [[? H]|[-> ->]].
  - left. by exists d'.
  - by right.
Qed.

(** Mirroring is preserved by appending, and by rewriting the postings of a
    transaction. *)
Lemma mirrors_app i ds ds' bs bs' :
  mirrors i ds bs → mirrors (i + length ds) ds' bs' → mirrors i (ds ++ ds') (bs ++ bs').
Proof.
  intros H. revert ds' bs'. induction H as [i|i d ds b bs Hp Hh Hc _ IH|i d ds b b' bs Hp Hh Hc Ht _ IH];
    intros ds' bs' H'; cbn in *.
  - by rewrite Nat.add_0_r in H'.
  - apply mirrors_plain; [done..|]. apply IH. rewrite Nat.add_succ_r in H'. exact H'.
  - apply mirrors_pad; [done..|]. apply IH. rewrite Nat.add_succ_r in H'. exact H'.
Qed.

Lemma mirrors_plain_one i d v :
  ¬ is_pad d → same_content (d_variant d) v → mirrors i [d] [booked_of i d v].
Proof. intros. apply mirrors_plain; [done|done|done|]. constructor. Qed.

Lemma mirrors_insert i ds bs j x t l :
  mirrors i ds bs → bs !! j = Some x → b_variant x = BVTransaction t →
  mirrors i ds (<[j := set_variant x (BVTransaction (set_postings t l))]> bs).
Proof.
  intros H. revert j. induction H as [i|i d ds b bs Hp Hh Hc Hm IH|i d ds b b' bs Hp Hh Hc Ht Hm IH];
    intros j Hj Hv; cbn in *.
  - done.
  - destruct j as [|j]; cbn in *.
    + injection Hj as ->. apply mirrors_plain; [done| |  |done].
      * done.
      * cbn. rewrite Hv in Hc. inversion Hc as [t0 l0 E1 E2| | | | | | | | | | | ]; subst.
        apply SC_txn.
    + apply mirrors_plain; [done..|]. by apply IH.
  - destruct j as [|[|j]]; cbn in *.
    + injection Hj as ->. destruct Hp as [p Hp]. rewrite Hp, Hv in Hc. inversion Hc.
    + injection Hj as ->. apply mirrors_pad; [done..| |done].
      destruct Ht as (Hh' & l' & Ht). split; [done|]. rewrite Hv in Ht. injection Ht as ->.
      eexists. reflexivity.
    + apply mirrors_pad; [done..|]. by apply IH.
Qed.

Lemma passive_same_content v bv : passive_copy v = Some bv → same_content v bv.
Proof. destruct v; cbn; intros [= <-]; constructor. Qed.
Lemma passive_not_pad d bv : passive_copy (d_variant d) = Some bv → ¬ is_pad d.
Proof. intros H [p Hp]. by rewrite Hp in H. Qed.

Section Inv.
Context {P : Type} (L : booking_lib P).
Context (ord : gmap string (account P) → list (string * account P)).
Notation run := (run L ord).

(** *** Errors accumulate *)

Lemma step_errors_prefix i d c c' :
  step_rel L ord i d c c' → c_errors c `prefix_of` c_errors c'.
Proof. destruct 1; cbn; first [by apply prefix_app_r | done]. Qed.

Lemma loop_errors_prefix i ds c c' :
  collect_loop L ord i ds c = CRun c' → c_errors c `prefix_of` c_errors c'.
Proof.
  revert i c. induction ds as [|d ds IH]; intros i c; cbn.
  - by intros [= ->].
  - destruct (collect_step L ord i d c) as [c1|] eqn:E; [|done]. intros H.
    etrans; [|by eapply IH]. eapply step_errors_prefix, collect_step_rel, E.
Qed.

Lemma run_errors_prefix opt ds1 ds2 c1 c :
  run opt ds1 = CRun c1 → run opt (ds1 ++ ds2) = CRun c → c_errors c1 `prefix_of` c_errors c.
Proof.
  intros H1 H2. apply run_app_inv in H2 as (c1' & H1' & H2).
  rewrite H1 in H1'. injection H1' as <-. by eapply loop_errors_prefix.
Qed.

(** A successful run, seen at any directive. *)
Lemma run_split opt ds k d c :
  run opt ds = CRun c → ds !! k = Some d →
  ∃ c1 c2, run opt (take k ds) = CRun c1 ∧ step_rel L ord k d c1 c2 ∧
    run opt (take (S k) ds) = CRun c2 ∧
    c_errors c1 `prefix_of` c_errors c2 ∧ c_errors c2 `prefix_of` c_errors c.
Proof.
  intros Hrun Hd.
  assert (length (take k ds) = k) as Hlen.
  { apply take_length_le. apply lookup_lt_Some in Hd. lia. }
  rewrite <- (take_drop_middle ds k d Hd) in Hrun.
  assert (run opt (take (S k) ds) = run opt (take k ds ++ [d])) as HS.
  { by rewrite (take_S_r ds k d Hd). }
  replace (take k ds ++ d :: drop (S k) ds) with (take (S k) ds ++ drop (S k) ds) in Hrun.
  2: { rewrite (take_S_r ds k d Hd). by rewrite <- app_assoc. }
  apply run_app_inv in Hrun as (c2 & H2 & H3).
  pose proof H2 as H2'.
  rewrite HS, run_snoc in H2. destruct (run opt (take k ds)) as [c1|] eqn:E1; [|done].
  rewrite Hlen in H2. apply collect_step_rel in H2.
  exists c1, c2. repeat split; [done|done| |].
  - by eapply step_errors_prefix.
  - by eapply loop_errors_prefix.
Qed.

(** *** Shape of the booked list *)

Definition inv_mirror (ds : list directive) (c : cst (P:=P)) : Prop :=
  c_errors c = [] → mirrors 0 ds (c_booked c).

Lemma inv_mirror_run opt ds c : run opt ds = CRun c → inv_mirror ds c.
Proof.
  revert ds c. eapply run_ind.
  - intros _. constructor.
  - intros ds d c c' _ IH Hstep He. apply collect_step_rel in Hstep.
    assert (c_errors c = []) as He0.
    { pose proof (step_errors_prefix _ _ _ _ Hstep) as Hp. rewrite He in Hp.
      by apply prefix_nil_inv in Hp. }
    specialize (IH He0).
    destruct Hstep; cbn in *;
      try (by destruct (c_errors c); done);
      try (apply mirrors_app; [done|]; cbn).
    + apply mirrors_plain_one; [by eapply passive_not_pad|by apply passive_same_content].
    + apply mirrors_plain_one; [intros [? E]; congruence|]. rewrite H. constructor.
    + apply mirrors_plain_one; [intros [? E]; congruence|]. rewrite H. constructor.
    + apply mirrors_plain_one; [intros [? E]; congruence|]. rewrite H. constructor.
    + apply mirrors_pad; [by exists p|done|by rewrite H; constructor| |constructor].
      split; [done|]. eexists. reflexivity.
    + apply mirrors_plain_one; [intros [? E]; congruence|]. rewrite H. constructor.
    + apply mirrors_app; [by apply mirrors_insert|].
      apply mirrors_plain_one; [intros [? E]; congruence|]. rewrite H. constructor.
Qed.

(** *** What booking a transaction can do to the state *)

Definition only_positions (s s' : accst P) : Prop :=
  s_open s' = s_open s ∧ s_closed s' = s_closed s ∧
  s_default_booking s' = s_default_booking s ∧ s_warnings s' = s_warnings s ∧
  ∀ a, match s_accounts s !! a, s_accounts s' !! a with
       | Some x, Some y => ∃ p, y = set_positions x p
       | None, None => True
       | _, _ => False
       end.

Lemma set_positions_id (x : account P) : set_positions x (a_positions x) = x.
Proof. by destruct x. Qed.

Lemma only_positions_refl s : only_positions s s.
Proof.
  repeat split; try done. intros a. destruct (s_accounts s !! a) as [x|]; [|done].
  exists (a_positions x). by rewrite set_positions_id.
Qed.

Lemma only_positions_trans s1 s2 s3 :
  only_positions s1 s2 → only_positions s2 s3 → only_positions s1 s3.
Proof.
  intros (?&?&?&?&HA) (?&?&?&?&HB). repeat split; try congruence.
  intros a. specialize (HA a). specialize (HB a).
  destruct (s_accounts s1 !! a), (s_accounts s2 !! a), (s_accounts s3 !! a); try done.
  destruct HA as [p1 ->], HB as [p2 ->]. by exists p2.
Qed.

Lemma only_positions_put s a x p :
  s_accounts s !! a = Some x → only_positions s (put_account s a (set_positions x p)).
Proof.
  intros Hx. repeat split; try done. intros b. cbn.
  destruct (decide (a = b)) as [->|Hne].
  - rewrite Hx, lookup_insert. by exists p.
  - rewrite lookup_insert_ne by done. destruct (s_accounts s !! b) as [y|]; [|done].
    exists (a_positions y). by rewrite set_positions_id.
Qed.

Lemma validate_account_open s a e : validate_account (P:=P) s a e = None → is_Some (s_open s !! a).
Proof. unfold validate_account. destruct (s_open s !! a); [done|]. by destruct (s_closed s !! a). Qed.

Lemma validate_account_err s a e err :
  validate_account (P:=P) s a e = Some err →
  s_open s !! a = None ∧
  ((∃ k, s_closed s !! a = Some k ∧ err = related_to (mk_report e "account was closed") k) ∨
   (s_closed s !! a = None ∧ err = mk_report e "account not open")).
Proof.
  unfold validate_account. destruct (s_open s !! a); [done|].
  destruct (s_closed s !! a) as [k|]; intros [= <-]; eauto.
Qed.

Lemma update_inventory_only s e l s' r :
  update_inventory (P:=P) s e l = (s', r) → only_positions s s'.
Proof.
  revert s. induction l as [|[n p] l IH]; intros s; cbn.
  - intros [= <- _]. apply only_positions_refl.
  - unfold get_valid_account. destruct (validate_account s n e) as [err|].
    { intros [= <- _]. apply only_positions_refl. }
    destruct (s_accounts s !! n) as [x|] eqn:E.
    + intros H. apply IH in H. eapply only_positions_trans; [|done]. by apply only_positions_put.
    + intros [= <- _]. apply only_positions_refl.
Qed.

Lemma book_txn_only s dt ps e s' r :
  book_txn L s dt ps e = (s', r) → only_positions s s'.
Proof.
  unfold book_txn. destruct (lib_book _ _ _ _ _) as [ips upd|msg|idx msg].
  - destruct (validate_postings _ _ _ _); try (intros [= <- _]; apply only_positions_refl).
    destruct (update_inventory s e upd) as [s1 r1] eqn:E. apply update_inventory_only in E.
    destruct r1; intros [= <- _]; done.
  - intros [= <- _]; apply only_positions_refl.
  - intros [= <- _]; apply only_positions_refl.
Qed.

(** *** Well-formedness, for every run *)

(** An element index which exists in the ledger. *)
Definition valid_ref (ds : list directive) (e : eidx) : Prop :=
  ∃ d, ds !! ei_directive e = Some d ∧
    match ei_posting e with
    | None => True
    | Some j => ∃ t, d_variant d = DTransaction t ∧ j < length (tx_postings t)
    end.

Definition valid_report (ds : list directive) (r : report) : Prop :=
  valid_ref ds (r_idx r) ∧
  match r_related r with None => True | Some l => Forall (valid_ref ds) l end.

Lemma valid_ref_app ds ds' e : valid_ref ds e → valid_ref (ds ++ ds') e.
Proof. intros (d & H & ?). exists d. split; [by apply lookup_app_l_Some|done]. Qed.
Lemma valid_report_app ds ds' r : valid_report ds r → valid_report (ds ++ ds') r.
Proof.
  intros [H1 H2]. split; [by apply valid_ref_app|]. destruct (r_related r); [|done].
  eapply Forall_impl; [done|]. intros. by apply valid_ref_app.
Qed.

Lemma valid_ref_last ds d : valid_ref (ds ++ [d]) (eidx_of_nat (length ds)).
Proof. exists d. cbn. split; [|done]. rewrite lookup_app_r by lia. by rewrite Nat.sub_diag. Qed.

(** A pending pad: its booked directive and the empty transaction after it. *)
Definition pending_pad (ds : list directive) (bs : list bdirective) (a : string) (k : nat) (u : eidx) : Prop :=
  ∃ i d p, u = eidx_of_nat i ∧ ds !! i = Some d ∧ d_variant d = DPad p ∧ pad_acc p = a ∧
    bs !! k = Some (booked_of i d (BVPad p)) ∧
    bs !! S k = Some (booked_of i d (BVTransaction (BTransaction PAD_FLAG None None []))).

Definition is_balance_of (a : string) (b : bdirective) : Prop :=
  ∃ bb, b_variant b = BVBalance bb ∧ bal_acc (bb_raw bb) = a.

Definition window_ok (bs : list bdirective) (a : string) (w : option (nat * nat)) : Prop :=
  match w with
  | None => ∀ j b, bs !! j = Some b → ¬ is_balance_of a b
  | Some (s, e) =>
      s <= e ∧ (∃ b, bs !! e = Some b ∧ is_balance_of a b) ∧
      ∀ j b, e < j → bs !! j = Some b → ¬ is_balance_of a b
  end.

Definition account_ok (ds : list directive) (bs : list bdirective) (a : string) (x : account P) : Prop :=
  (∃ i o, a_opened x = eidx_of_nat i ∧ opens_at ds i a o ∧
     a_allowed x = match op_currencies o with Some cs => cs | None => ∅ end) ∧
  (∀ k u, a_pad x = Some (k, u) → pending_pad ds bs a k u) ∧
  window_ok bs a (a_window x).

Record wf (ds : list directive) (c : cst (P:=P)) : Prop := {
  wf_dom : ∀ a, is_Some (s_accounts (c_acc c) !! a) ↔
                is_Some (s_open (c_acc c) !! a) ∨ is_Some (s_closed (c_acc c) !! a);
  wf_open : ∀ a e, s_open (c_acc c) !! a = Some e → ∃ i o, e = eidx_of_nat i ∧ opens_at ds i a o;
  wf_closed : ∀ a e, s_closed (c_acc c) !! a = Some e → ∃ i, e = eidx_of_nat i ∧ closes_at ds i a;
  wf_account : ∀ a x, s_accounts (c_acc c) !! a = Some x → account_ok ds (c_booked c) a x;
  wf_nonempty : ∀ a x, s_accounts (c_acc c) !! a = Some x → c_booked c ≠ [];
  wf_first : ∀ b a, c_booked c !! 0 = Some b → ¬ is_balance_of a b;
  wf_errors : Forall (valid_report ds) (c_errors c);
  wf_balacc : ∀ b a, b ∈ c_booked c → is_balance_of a b → is_Some (s_accounts (c_acc c) !! a)
}.

(** The booked list after a step: possibly one rewritten transaction, plus new
    directives. *)
Lemma pending_pad_app ds d bs bs' a k u :
  pending_pad ds bs a k u → pending_pad (ds ++ [d]) (bs ++ bs') a k u.
Proof.
  intros (i & d' & p & ? & ? & ? & ? & ? & ?). exists i, d', p.
  repeat split; try done; by apply lookup_app_l_Some.
Qed.

Lemma window_ok_app bs bs' a w :
  window_ok bs a w → (∀ b, b ∈ bs' → ¬ is_balance_of a b) → window_ok (bs ++ bs') a w.
Proof.
  intros Hw Hn. destruct w as [[s e]|]; cbn in *.
  - destruct Hw as (? & (b & Hb & ?) & Hl). split; [done|]. split.
    + exists b. split; [by apply lookup_app_l_Some|done].
    + intros j b' Hj Hb'. apply lookup_app_Some in Hb' as [Hb'|[? Hb']].
      * by eapply Hl.
      * apply Hn. by eapply elem_of_list_lookup_2.
  - intros j b Hb. apply lookup_app_Some in Hb as [Hb|[? Hb]]; [by eapply Hw|].
    apply Hn. by eapply elem_of_list_lookup_2.
Qed.

Lemma account_ok_app ds d bs bs' a x :
  account_ok ds bs a x → (∀ b, b ∈ bs' → ¬ is_balance_of a b) →
  account_ok (ds ++ [d]) (bs ++ bs') a x.
Proof.
  intros ((i & o & ? & ? & ?) & Hp & Hw) Hn. split; [|split].
  - exists i, o. eauto using opens_at_app.
  - intros k u Hk. apply pending_pad_app. eauto.
  - by apply window_ok_app.
Qed.

Lemma account_ok_positions ds bs a x p : account_ok ds bs a x → account_ok ds bs a (set_positions x p).
Proof. done. Qed.

(** Rewriting the postings of the transaction of another pending pad. *)
Lemma account_ok_insert ds bs a x k a' u' txnd txn l :
  (a ≠ a' ∨ a_pad x = None) → pending_pad ds bs a' k u' →
  bs !! S k = Some txnd → b_variant txnd = BVTransaction txn →
  account_ok ds bs a x →
  account_ok ds (<[S k := set_variant txnd (BVTransaction (set_postings txn l))]> bs) a x.
Proof.
  intros Hne Hpp Hk Hv (Ho & Hp & Hw). split; [done|]. split.
  - intros j u Hj. destruct Hne as [Hne|Hne]; [|congruence]. apply Hp in Hj as (i & d & p & ? & ? & ? & Ha & Hb & Hb').
    destruct Hpp as (i' & d' & p' & ? & ? & ? & Ha' & Hc & Hc').
    assert (j ≠ k).
    { intros ->. rewrite Hb in Hc. injection Hc. intros. congruence. }
    assert (j ≠ S k).
    { intros ->. rewrite Hb in Hc'. discriminate. }
    exists i, d, p. repeat split; try done.
    + by rewrite list_lookup_insert_ne by lia.
    + by rewrite list_lookup_insert_ne by lia.
  - assert (∀ j b, <[S k:=set_variant txnd (BVTransaction (set_postings txn l))]> bs !! j = Some b →
        is_balance_of a b → bs !! j = Some b) as Hback.
    { intros j b Hj [bb [Hbb _]]. apply list_lookup_insert_Some in Hj as [(<- & <- & _)|[_ ?]]; [|done].
      cbn in Hbb. discriminate. }
    destruct (a_window x) as [[s e]|]; cbn in *.
    + destruct Hw as (? & (b & Hb & Hbal) & Hl). split; [done|]. split.
      * exists b. split; [|done]. rewrite list_lookup_insert_ne; [done|].
        intros <-. rewrite Hk in Hb. injection Hb as <-. destruct Hbal as [? [? _]]. congruence.
      * intros j b' Hj Hb' Hbal'. eapply Hl; [done| |done]. by eapply Hback.
    + intros j b Hj Hbal. eapply Hw; [|done]. by eapply Hback.
Qed.

Lemma not_balance_of_one a i d v b :
  (∀ bb, v ≠ BVBalance bb) → b ∈ [booked_of i d v] → ¬ is_balance_of a b.
Proof. intros Hv ->%elem_of_list_singleton [bb [H _]]. by eapply Hv. Qed.

Lemma valid_report_mk ds e msg : valid_ref ds e → valid_report ds (mk_report e msg).
Proof. done. Qed.
Lemma valid_report_related ds e msg e' :
  valid_ref ds e → valid_ref ds e' → valid_report ds (related_to (mk_report e msg) e').
Proof. intros ??. split; [done|]. cbn. by apply Forall_singleton. Qed.

Lemma valid_ref_opens ds i a o : opens_at ds i a o → valid_ref ds (eidx_of_nat i).
Proof. intros (d & ? & _). by exists d. Qed.
Lemma valid_ref_closes ds i a : closes_at ds i a → valid_ref ds (eidx_of_nat i).
Proof. intros (d & ? & _). by exists d. Qed.

Lemma validate_account_err_valid ds c a e err :
  wf ds c → valid_ref ds e → validate_account (c_acc c) a e = Some err → valid_report ds err.
Proof.
  intros Hwf He H. apply validate_account_err in H as [_ [(k & Hk & ->)|[_ ->]]].
  - apply valid_report_related; [done|]. apply (wf_closed _ _ Hwf) in Hk as (i & -> & Hi).
    by eapply valid_ref_closes.
  - by apply valid_report_mk.
Qed.

Lemma validate_currency_err_valid ds bs a x cur e err :
  account_ok ds bs a x → valid_ref ds e → validate_currency x cur e = Some err → valid_report ds err.
Proof.
  intros ((i & o & Ho & Hoa & _) & _) He. unfold validate_currency.
  destruct (is_currency_valid x cur); [done|]. intros [= <-].
  apply valid_report_related; [done|]. rewrite Ho. by eapply valid_ref_opens.
Qed.

Lemma wf_snoc_errors ds d c : wf ds c → Forall (valid_report (ds ++ [d])) (c_errors c).
Proof. intros Hwf. eapply Forall_impl; [by apply (wf_errors _ _ Hwf)|]. intros. by apply valid_report_app. Qed.

Lemma validate_postings_err_valid ds c d t (pre : nat) l err :
  wf ds c → d_variant d = DTransaction t → pre + length l <= length (tx_postings t) →
  validate_postings (c_acc c) (eidx_of_nat (length ds)) pre l = RErr err →
  valid_report (ds ++ [d]) err.
Proof.
  intros Hwf Hv. revert pre. induction l as [|[ip ps] l IH]; intros pre Hlen; cbn; [done|].
  cbn in Hlen.
  assert (valid_ref (ds ++ [d]) (eidx_with_posting (eidx_of_nat (length ds)) pre)) as Href.
  { exists d. cbn. split; [by rewrite lookup_app_r, Nat.sub_diag by lia|].
    exists t. split; [done|]. lia. }
  unfold validate_account_and_currency, get_valid_account.
  destruct (validate_account _ _ _) as [err'|] eqn:Ea.
  { intros [= <-]. apply validate_account_err in Ea as [_ [(k & Hk & ->)|[_ ->]]].
    - apply valid_report_related; [done|]. apply (wf_closed _ _ Hwf) in Hk as (i & -> & Hi).
      apply valid_ref_app. by eapply valid_ref_closes.
    - by apply valid_report_mk. }
  destruct (s_accounts (c_acc c) !! ps_acc ps) as [x|] eqn:Ex; [|done].
  destruct (validate_currency _ _ _) as [err'|] eqn:Ec.
  { intros [= <-]. pose proof (wf_account _ _ Hwf _ _ Ex) as ((i & o & Ho & Hoa & _) & _).
    unfold validate_currency in Ec. destruct (is_currency_valid x (in_currency ip)); [done|].
    injection Ec as <-. apply valid_report_related; [done|]. rewrite Ho.
    apply valid_ref_app. by eapply valid_ref_opens. }
  apply IH. lia.
Qed.

Lemma update_inventory_err s e l s' err :
  update_inventory (P:=P) s e l = (s', RErr err) →
  ∃ n s1, only_positions s s1 ∧ validate_account s1 n e = Some err.
Proof.
  revert s. induction l as [|[n p] l IH]; intros s; cbn; [done|].
  unfold get_valid_account. destruct (validate_account s n e) as [err'|] eqn:Ev.
  { intros [= <- <-]. exists n, s. split; [apply only_positions_refl|done]. }
  destruct (s_accounts s !! n) as [x|] eqn:E; [|done].
  intros H. apply IH in H as (n' & s1 & H1 & H2). exists n', s1. split; [|done].
  eapply only_positions_trans; [|done]. by apply only_positions_put.
Qed.

Lemma book_txn_err_valid ds c d t s' err :
  wf ds c → d_variant d = DTransaction t →
  book_txn L (c_acc c) (d_date d) (tx_postings t) (eidx_of_nat (length ds)) = (s', RErr err) →
  valid_report (ds ++ [d]) err.
Proof.
  intros Hwf Hv. unfold book_txn. destruct (lib_book _ _ _ _ _) as [ips upd|msg|idx msg].
  - destruct (validate_postings _ _ _ _) as [u|err'|w] eqn:Evp; [| |done].
    + destruct (update_inventory _ _ upd) as [s1 [?|err'|?]] eqn:E; intros [= <- <-].
      apply update_inventory_err in E as (n & s2 & (Hop & Hcl & _) & Hva).
      apply validate_account_err in Hva as [_ [(k & Hk & ->)|[_ ->]]].
      * apply valid_report_related; [apply valid_ref_last|]. rewrite Hcl in Hk.
        apply (wf_closed _ _ Hwf) in Hk as (i & -> & Hi).
        apply valid_ref_app. by eapply valid_ref_closes.
      * apply valid_report_mk, valid_ref_last.
    + intros [= <- <-]. eapply validate_postings_err_valid; [done|done| |done].
      rewrite zip_with_length. lia.
  - intros [= <- <-]. apply valid_report_mk, valid_ref_last.
  - intros [= <- <-]. apply valid_report_mk, valid_ref_last.
Qed.

Lemma balance_report_valid s base m cur e bds rep :
  balance_report (P:=P) s base m cur e bds = ROk rep → r_idx rep = e ∧ r_related rep = None.
Proof. unfold balance_report. repeat case_match; try done; intros [= <-]; done. Qed.

End Inv.
