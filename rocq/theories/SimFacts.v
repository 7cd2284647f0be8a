(** Consequences of the simulation: iteration order, and directives without
    effect. *)
From Coq Require Import Ascii QArith.
From stdpp Require Import prelude gmap strings pretty.
From Verif Require Import DecModel DecProofs LedgerTypes BookModel BookSpec ReportSpec BookLib
  BookSteps BookInv BookWf BookLife BookUnits BookPend BookSuccess BookPads BookFacts BookReports BookLocate ReportFacts BookSim.
Local Open Scope nat_scope.

Section SimFacts.
Context {P : Type} (L : booking_lib P) (Hext : lib_ext L).

Lemma ren_init f (b : lbooking) : ren_s f (acc_new (P:=P) b) = acc_new b.
Proof. unfold ren_s, acc_new. cbn. by rewrite !fmap_empty. Qed.

Lemma unused_pad_reason (ord : gmap string (account P) → list (string * account P)) m r :
  r ∈ unused_pad_reports ord m → r_reason r = "unused, no balance directive".
Proof.
  unfold unused_pad_reports. intros ([n a] & _ & Hr)%elem_of_list_omap. cbn in Hr.
  destruct (a_pad a) as [[k u]|]; [|done]. by injection Hr as <-.
Qed.

Lemma order_independent (ord1 ord2 : gmap string (account P) → list (string * account P)) opt ds :
  (∀ m, ord1 m ≡ₚ map_to_list m) → (∀ m, ord2 m ≡ₚ map_to_list m) →
  match book L ord1 opt ds, book L ord2 opt ds with
  | BookSuccess bs ws, BookSuccess bs' ws' => bs = bs' ∧ ws = ws'
  | BookFailure e, BookFailure e' => ∃ es t t', e = es ++ t ∧ e' = es ++ t' ∧ t ≡ₚ t' ∧
      ∀ r, r ∈ t → r_reason r = "unused, no balance directive"
  | BookPanic w, BookPanic w' => w = w'
  | _, _ => False
  end.
Proof.
  intros H1 H2. rewrite !book_run.
  pose proof (sim_loop id L Hext ord1 ord2 H1 H2 0 0 ds (acc_new (default_booking_option L opt)) [] [] []) as Hsim.
  rewrite ren_init in Hsim. specialize (Hsim (λ j _, eq_refl)). cbn [fmap list_fmap] in Hsim.
  unfold run. destruct (collect_loop L ord1 0 ds _) as [c|w]; [|by rewrite Hsim].
  destruct Hsim as (new & He & ->). cbn in He. rewrite app_nil_l, !(fmap_id_list (ren_r id)) by apply ren_r_id.
  rewrite (fmap_id_list (ren_b id)) by apply ren_b_id.
  pose proof (sim_unused id ord1 ord2 H1 H2 (c_acc c)) as Hu.
  rewrite (fmap_id_list (ren_r id)) in Hu by apply ren_r_id.
  unfold validate. cbn [c_errors c_acc c_booked]. rewrite He.
  pose proof (unused_pad_reason ord1 (s_accounts (c_acc c))) as Hreason.
  set (t1 := unused_pad_reports ord1 _) in *. set (t2 := unused_pad_reports ord2 _) in *.
  destruct (new ++ t1) as [|x l] eqn:E1.
  - apply app_eq_nil in E1 as [-> E1]. rewrite E1 in Hu. symmetry in Hu. apply Permutation_nil in Hu as ->.
    cbn. unfold ren_s. cbn. by rewrite (fmap_id_list (ren_r id)) by apply ren_r_id.
  - destruct (new ++ t2) as [|x' l'] eqn:E2.
    + apply app_eq_nil in E2 as [-> E2]. rewrite E2 in Hu. apply Permutation_nil in Hu. by rewrite Hu in E1.
    + exists new, t1, t2. rewrite E1, E2. split_and!; try done.
Qed.

Context (ord : gmap string (account P) → list (string * account P)).
Context (Hord : ∀ m, ord m ≡ₚ map_to_list m).
Notation run := (run L ord).
Notation book := (book L ord).

Lemma ren_shift n r : ren_r (shift_index n) r = shift_report n r.
Proof. done. Qed.

(** A step which only adds an error can be left out. *)
Lemma no_effect opt ds d ds' c r :
  run opt ds = CRun c →
  collect_step L ord (length ds) d c = CRun (CSt (c_acc c) (c_errors c ++ [r]) (c_booked c)) →
  match book opt (ds ++ ds') with
  | BookPanic w => book opt (ds ++ d :: ds') = BookPanic w
  | res => ∃ errs, book opt (ds ++ d :: ds') = BookFailure errs ∧
             errs ≡ₚ r :: (shift_report (length ds) <$> errors_of res)
  end.
Proof.
  intros Hrun Hstep. set (f := shift_index (length ds)).
  (* the prefix is not renamed *)
  pose proof (sim_loop f L Hext ord ord Hord Hord 0 0 ds (acc_new (default_booking_option L opt)) [] [] []) as Hsim.
  rewrite ren_init in Hsim. cbn [fmap list_fmap] in Hsim.
  assert (∀ j, j < length ds → f (0 + j) = 0 + j) as Hf.
  { intros j Hj. unfold f, shift_index. change (0 + j) with j. destruct (Nat.ltb_spec j (length ds)); lia. }
  specialize (Hsim Hf). unfold run in Hrun. rewrite Hrun in Hsim.
  destruct Hsim as (new0 & He0 & Heq). cbn in He0. subst new0. rewrite app_nil_l in Heq.
  destruct c as [s errs bds]. cbn [c_acc c_errors c_booked] in *. injection Heq as Hs Hes Hbs.
  (* the rest *)
  pose proof (sim_loop f L Hext ord ord Hord Hord (length ds) (S (length ds)) ds' s errs (errs ++ [r]) bds) as Hsim.
  assert (∀ j, j < length ds' → f (length ds + j) = S (length ds) + j) as Hf'.
  { intros j Hj. unfold f, shift_index. destruct (Nat.ltb_spec (length ds + j) (length ds)); lia. }
  specialize (Hsim Hf'). rewrite <- Hs, <- Hbs in Hsim.
  rewrite !book_run. unfold BookSteps.run. rewrite !collect_loop_app, Hrun. cbn [collect_loop]. cbn [Nat.add].
  rewrite Hstep. destruct (collect_loop L ord (length ds) ds' _) as [c|w] eqn:Ec.
  2: { by rewrite Hsim. }
  destruct Hsim as (new & He & ->).
  pose proof (sim_unused f ord ord Hord Hord (c_acc c)) as Hu.
  assert (errors_of (validate ord c) = c_errors c ++ unused_pad_reports ord (s_accounts (c_acc c))) as Hv.
  { unfold validate. by destruct (c_errors c ++ _). }
  assert (∃ errs', validate ord (CSt (ren_s f (c_acc c)) ((errs ++ [r]) ++ (ren_r f <$> new)) (ren_b f <$> c_booked c)) =
      BookFailure errs' ∧ errs' ≡ₚ r :: (shift_report (length ds) <$> errors_of (validate ord c))) as (errs' & HF & Hp).
  { exists (((errs ++ [r]) ++ (ren_r f <$> new)) ++ unused_pad_reports ord (s_accounts (ren_s f (c_acc c)))).
    unfold validate at 1. cbn [c_errors c_acc c_booked]. split.
    - by destruct errs.
    - rewrite Hv, He, Hu, !fmap_app. fold f in Hes. change (shift_report (length ds)) with (ren_r f).
      rewrite <- Hes, <- !(assoc_L (++)). cbn [app]. symmetry. apply Permutation_middle. }
  destruct (validate ord c) eqn:Evc; [eauto|eauto|]. unfold validate in Evc. by destruct (c_errors c ++ _).
Qed.

Lemma refused_step opt ds d c c' :
  run opt ds = CRun c → step_rel L ord (length ds) d c c' → refused ds (d_variant d) →
  ∃ r, ei_directive (r_idx r) = length ds ∧ c' = CSt (c_acc c) (c_errors c ++ [r]) (c_booked c).
Proof.
  intros Hrun Hs Hr. pose proof (life_run _ _ _ _ _ Hrun) as Hl.
  pose proof (lf_open _ _ _ _ Hl) as Hlo. pose proof (lf_closed _ _ _ _ Hl) as Hlc.
  pose proof (λ a e, validate_account_life _ _ _ _ _ a e Hrun) as Hva0.
  remember (d_variant d) as v0 eqn:Ev. symmetry in Ev.
  destruct Hr as [o Hu|a Hne|p Hu|b r0 Hu];
  step_cases Hs; rewrite Ev in Hv; simplify_eq/=; try (by eexists; split; [|reflexivity]).
  all: try done.
  - rewrite Hlo in Ho. by destruct (life ds (op_acc o0)).
  - rewrite Hlo in Ho. by destruct (life ds (op_acc o0)).
  - rewrite Hlo in Ho. rewrite Hlc in Hc. destruct (life ds a0) as [|i| |]; naive_solver.
  - exists err. split; [by apply validate_account_err_idx in Hva as ->|done].
  - rewrite Hva0 in Hva. by destruct (life ds (pad_acc p0)).
  - rewrite Hva0 in Hva. by destruct (life ds (pad_acc p0)).
  - exists err. split; [by apply validate_account_err_idx in Hva as ->|done].
  - exists err. split; [|done]. unfold validate_currency in Hvc. destruct (is_currency_valid _ _); [done|]. by injection Hvc as <-.
  - rewrite (currency_report _ _ _ _ _ _ _ _ _ Hrun Ha Hva) in Hvc. unfold eidx_of_nat, at_directive in *. congruence.
  - rewrite (currency_report _ _ _ _ _ _ _ _ _ Hrun Ha Hva) in Hvc. unfold eidx_of_nat, at_directive in *. congruence.
  - rewrite (currency_report _ _ _ _ _ _ _ _ _ Hrun Ha Hva) in Hvc. unfold eidx_of_nat, at_directive in *. congruence.
Qed.

(** Refused directives never panic. *)
Lemma run_of_errors opt ds : errors_of (book opt ds) ≠ [] → ∃ c, run opt ds = CRun c.
Proof. rewrite book_run. destruct (run opt ds); [eauto|done]. Qed.

Lemma rejected_no_effect opt ds d ds' :
  lib_ok L →
  (∃ t, d_variant d = DTransaction t) ∨ refused ds (d_variant d) →
  reports_at (length ds) (errors_of (book opt (ds ++ [d]))) ≠ [] →
  ∃ r, reports_at (length ds) (errors_of (book opt (ds ++ [d]))) = [r] ∧
  match book opt (ds ++ ds') with
  | BookPanic w => book opt (ds ++ d :: ds') = BookPanic w
  | res => ∃ errs, book opt (ds ++ d :: ds') = BookFailure errs ∧
             errs ≡ₚ r :: (shift_report (length ds) <$> errors_of res)
  end.
Proof.
  intros Hlib Hd Hne.
  assert (∃ c', run opt (ds ++ [d]) = CRun c') as [c' Hc'].
  { apply run_of_errors. intros Hx. by rewrite Hx in Hne. }
  assert (∀ w, book opt (ds ++ [d]) ≠ BookPanic w) as Hnp.
  { intros w Hx. by rewrite Hx in Hne. }
  pose proof Hc' as Hc2. rewrite run_snoc in Hc2.
  destruct (run opt ds) as [c|] eqn:Hrun; [|done].
  assert ((ds ++ [d]) !! length ds = Some d) as Hlook by (rewrite lookup_app_r, Nat.sub_diag by lia; done).
  assert (take (length ds) (ds ++ [d]) = ds) as Ht by apply take_app.
  assert (take (S (length ds)) (ds ++ [d]) = ds ++ [d]) as Ht' by (apply take_ge; rewrite app_length; cbn; lia).
  pose proof (collect_step_rel _ _ _ _ _ _ Hc2) as Hs.
  assert (∀ new, c_errors c' = c_errors c ++ new → (∀ p, d_variant d = DPad p → usable (life ds (pad_acc p)) = false) →
     reports_at (length ds) (errors_of (book opt (ds ++ [d]))) = reports_at (length ds) new) as Hrep.
  { intros new Hn Hpad. destruct (result_at L ord Hord opt (ds ++ [d]) (length ds) d Hnp Hlook) as (c1 & c2 & new' & H1 & _ & H2 & Hn' & Hr).
    rewrite Ht in H1. rewrite Ht' in H2. rewrite Hrun in H1. injection H1 as <-. rewrite Hc' in H2. injection H2 as <-.
    rewrite Hn in Hn'. apply app_inv_head in Hn' as <-. apply Hr. rewrite Ht'.
    intros a (x & p & Hx & Hv & <- & Hu & _)%pending_is_pad. rewrite Hlook in Hx. injection Hx as <-.
    rewrite Ht in Hu. rewrite (Hpad _ Hv) in Hu. done. }
  assert (∃ r, ei_directive (r_idx r) = length ds ∧ c' = CSt (c_acc c) (c_errors c ++ [r]) (c_booked c)) as (r & Hri & Hc).
  { destruct Hd as [[t Ht0]|Href]; [|by eapply refused_step].
    destruct (txn_errors L ord _ _ _ _ _ _ Hlib Hrun Hs Ht0) as [He Hst].
    assert (txn_reports L c ds d t ≠ []) as Hn.
    { intros Hn. rewrite Hn in He. rewrite (Hrep _ He) in Hne by (intros p; by rewrite Ht0). done. }
    specialize (Hst Hn) as [Hs1 Hs2].
    assert (∃ r, ei_directive (r_idx r) = length ds ∧ txn_reports L c ds d t = [r]) as (r & Hri & Hr1).
    { unfold txn_reports, txn_answer_reports in *. destruct (lib_call _ _ _ _) as [ips upd|m|i m]; [|by eexists; split; [|reflexivity]..].
      destruct (first_use_report _ _ _ _) as [r|] eqn:Ef; [|done]. exists r. split; [|done].
      by eapply first_use_report_idx. }
    exists r. split; [done|]. destruct c' as [sx ex bx]. cbn in *. rewrite He, Hr1, Hs1, Hs2. done. }
  exists r. split.
  - rewrite (Hrep [r]).
    + apply reports_at_all. by constructor.
    + by rewrite Hc.
    + intros p Hp. destruct Hd as [[t Ht0]|Href]; [congruence|]. rewrite Hp in Href. by inversion Href.
  - apply (no_effect opt ds d ds' c r Hrun). by rewrite Hc2, Hc.
Qed.
End SimFacts.
