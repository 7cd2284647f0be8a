(** Conversion of booking errors to spanned reports. *)
From Coq Require Import Ascii QArith.
From stdpp Require Import prelude gmap strings.
From Verif Require Import DecModel LedgerTypes BookModel BookSpec ReportSpec SpanModel SpanSpec BookOutput.
Local Open Scope nat_scope.

Lemma resolve_found ds e : spans_present ds → element_of ds e →
  ∃ x, resolve_indexed_element e ds = Some x ∧ found_at ds e x.
Proof.
  intros Hs (d & Hd & He). destruct e as [k pj]. cbn in *. unfold resolve_indexed_element. cbn. rewrite Hd.
  destruct (Hs d) as [[sp Hsp] Hps]; [by eapply elem_of_list_lookup_2|].
  destruct pj as [j|].
  - destruct He as (t & Hv & Hlt). rewrite Hv.
    destruct (lookup_lt_is_Some_2 _ _ Hlt) as [p Hp]. rewrite Hp.
    destruct (Hps t p Hv) as [psp Hpsp]; [by eapply elem_of_list_lookup_2|].
    rewrite Hpsp. cbn. eexists. split; [done|]. by eapply Found_posting.
  - exists (variant_name (d_variant d), sp). rewrite Hsp. split; [by destruct (d_variant d)|].
    by apply Found_directive.
Qed.

Lemma create_report_spans ds r :
  spans_present ds → element_of ds (r_idx r) →
  (∀ l e, r_related r = Some l → e ∈ l → element_of ds e) →
  ∃ s, create_report ds r = Some s ∧ spans_report ds r s.
Proof.
  intros Hs He Hr. unfold create_report.
  destruct (resolve_found ds _ Hs He) as ([name sp] & Hres & Hf). rewrite Hres.
  assert (Hrel : ∃ rel, match r_related r with
                 | None => Some None
                 | Some l => Some <$> mapM (λ i, resolve_indexed_element i ds) l
                 end = Some rel ∧
            match r_related r with
            | None => rel = None
            | Some l => ∃ l', rel = Some l' ∧ Forall2 (found_at ds) l l'
            end).
  { destruct (r_related r) as [l|]; [|by exists None].
    specialize (Hr l). assert (Hl : ∀ e, e ∈ l → element_of ds e) by (intros; by apply Hr). clear Hr.
    assert (∃ l', mapM (λ i, resolve_indexed_element i ds) l = Some l' ∧ Forall2 (found_at ds) l l')
      as (l' & Hm & Hl').
    { induction l as [|e l IH]; [by exists []|].
      destruct IH as (l' & Hm & Hl'); [intros; apply Hl; by right|].
      destruct (resolve_found ds e Hs) as (x & Hx & Hfx); [apply Hl; by left|].
      exists (x :: l'). cbn. rewrite Hx. cbn. rewrite Hm. split; [done|by constructor]. }
    rewrite Hm. eexists. split; [done|]. by eexists. }
  destruct Hrel as (rel & Hrel & Hrelf).
  destruct (ei_posting (r_idx r)) as [j|] eqn:Hj.
  - destruct He as (d & Hd & He). rewrite Hj in He. destruct He as (t & Hv & Hlt).
    destruct (resolve_found ds (EIdx (ei_directive (r_idx r)) None) Hs) as ([n2 sp2] & H2 & Hf2).
    { by exists d. }
    rewrite H2, Hrel. eexists. split; [done|]. split; [by exists name|]. split; [done|]. split; [done|].
    rewrite Hj. cbn. split; [|done].
    assert (n2 = "transaction") as ->.
    { inversion Hf2; subst. match goal with H : ds !! _ = Some ?x |- _ => rewrite Hd in H; injection H as <- end.
      by rewrite Hv. }
    exists sp2. by split.
  - rewrite Hrel. eexists. split; [done|]. split; [by exists name|]. split; [done|]. split; [done|].
    rewrite Hj. by split.
Qed.

Lemma errors_located {P} (L : booking_lib P) ord opt ds errs :
  (∀ m, ord m ≡ₚ map_to_list m) → book L ord opt ds = BookFailure errs →
  Forall (λ r, element_of ds (r_idx r) ∧ ∀ l e, r_related r = Some l → e ∈ l → element_of ds e) errs ∧
  (spans_present ds →
   ∃ ss, create_reports_from_booking_errors errs ds = Some ss ∧ Forall2 (spans_report ds) errs ss).
Proof.
  intros Hord Hb.
  assert (Hall : Forall (λ r, element_of ds (r_idx r) ∧
            ∀ l e, r_related r = Some l → e ∈ l → element_of ds e) errs).
  { apply Forall_forall. intros r Hr. by eapply errors_valid. }
  split; [done|]. intros Hs. clear Hb.
  induction Hall as [|r errs [He Hrel] Hall IH]; [by exists []|].
  destruct IH as (ss & Hm & Hf). destruct (create_report_spans ds r Hs He Hrel) as (s & Hc & Hsp).
  exists (s :: ss). unfold create_reports_from_booking_errors in *. cbn. rewrite Hc. cbn. rewrite Hm.
  split; [done|by constructor].
Qed.

(** A spanned report determines the error up to the kind of element: one report
    per error, in order. *)
Lemma create_reports_length ds rs ss :
  create_reports_from_booking_errors rs ds = Some ss → length ss = length rs.
Proof. intros H. symmetry. by eapply mapM_length. Qed.
