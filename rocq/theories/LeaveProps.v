(** What only checks or comments may be left out. *)
From Coq Require Import Ascii QArith Qabs.
From stdpp Require Import prelude gmap strings.
From Verif Require Import DecModel DecProofs LedgerTypes IsoModel JsonModel WireModel WireSpec WireFacts BookModel BookLib BookSpec BookProps BookFacts ReportSpec ReportSamples ReportProps SpanModel ParserModel
  JsonText SampleLib SampleLedgers WireSamples ServerModel ServerSpec ServerFacts ServerSamples CljModel InventoryModel InventorySpec InventoryFacts InventoryProps
  ClientModel ClientSpec ClientDecode ClientSamples FormatModel PluginModel PluginSpec LoaderModel
  LoaderSpec LoaderFacts LoaderProps EncodeModel SystemModel SystemFacts SystemLoad SystemSpec SystemErrors SystemTrace SystemProps ViewSpec ViewFacts ViewProps SameSpec SameProps SplitSpec SplitFacts SplitProps
  LeaveSpec LeaveFacts.
Local Open Scope nat_scope.

(** * C108 *)

Section Leave.
Context {P : Type} (L : booking_lib P) (HL : lib_ok L) (Hloc : lib_local L).
Context (ord : gmap string (account P) → list (string * account P)) (Hord : ∀ m, ord m ≡ₚ map_to_list m).

(** A ledger which books still does without its comments and without balance assertions for
    which no pad waits, and what is booked for the rest stays the same but for the numbers of
    the directives. *)
Theorem C108_left_out opt gone ds bs ws :
  (∀ i d, ds !! i = Some d → gone i = true → comment_only d ∨ check_only ds i d) →
  book L ord opt ds = BookSuccess bs ws →
  ∃ bs' ws', book L ord opt (without gone ds) = BookSuccess bs' ws' ∧ unnumbered <$> booked_without gone bs = unnumbered <$> bs'.
Proof using HL Hloc Hord.
  intros Hg (s&Hb&_&Hn)%book_good; [|done]. destruct (leave_start (P:=P) gone ds (default_booking_option L opt)) as (Hp&Hs&Hw).
  destruct (leave_loop L HL Hloc ord Hord gone ds 0 0 ds _ [] _ [] s bs (λ _ _ H, H) Hg Hw Hp Hs Hb) as (s1&b1&Hb1&Hp1).
  exists b1, (s_warnings s1). split; [|by eapply part_booked]. apply book_good; [done|]. exists s1. split; [done|]. split; [done|].
  by apply (pads_same gone _ _ _ _ Hp1).
Qed.
(** Comments do not decide whether the ledger books. *)
Theorem C108_comments opt gone ds : (∀ i d, ds !! i = Some d → gone i = true → comment_only d) →
  (∃ bs ws, book L ord opt ds = BookSuccess bs ws) ↔ (∃ bs ws, book L ord opt (without gone ds) = BookSuccess bs ws).
Proof using HL Hloc Hord.
  intros Hg. split.
  - intros (bs&ws&Hb). destruct (C108_left_out opt gone ds bs ws) as (b1&w1&H1&_); [intros i d Hd Hi; left; by eapply Hg|done|]. by exists b1, w1.
  - intros (bs&ws&(s1&Hb&_&Hn)%book_good); [|done]. destruct (leave_start (P:=P) gone ds (default_booking_option L opt)) as (Hp&Hs&_).
    destruct (comment_loop L HL Hloc ord Hord gone 0 0 ds _ [] _ [] s1 bs Hg Hp Hs Hb) as (s&b&Hb1&Hp1).
    exists b, (s_warnings s). apply book_good; [done|]. exists s. split; [done|]. split; [done|]. by apply (pads_same gone _ _ _ _ Hp1).
Qed.

Lemma left_no_postings gone i ds bs : (∀ j d, ds !! j = Some d → gone (i + j) = true → comment_only d ∨ ∃ b, d_variant d = DBalance b) →
  mirrors i ds bs → ∀ b, b ∈ bs → gone (b_idx b) = true → postings_of b = [].
Proof.
  intros Hg Hm. induction Hm as [i|i d ds b bs Hn Hh Hc Hm IH|i d ds b b' bs Hpad Hh Hc Hpt Hm IH]; intros x Hx Hi; [by apply elem_of_nil in Hx|..].
  - assert (∀ j d0, ds !! j = Some d0 → gone (S i + j) = true → comment_only d0 ∨ ∃ b, d_variant d0 = DBalance b) as Hg'
      by (intros j d0 Hj; replace (S i + j) with (i + S j) by lia; by apply Hg).
    apply elem_of_cons in Hx as [->|Hx]; [|by apply IH].
    destruct Hh as (Hidx&_). rewrite Hidx in Hi. specialize (Hg 0 d eq_refl). rewrite Nat.add_0_r in Hg. specialize (Hg Hi).
    unfold postings_of, comment_only in *. destruct (b_variant b) eqn:Eb; try done. inversion Hc as [t0 l Ed| | | | | | | | | | |]. rewrite <- Ed in Hg. by destruct Hg as [[]|[? ?]].
  - assert (∀ j d0, ds !! j = Some d0 → gone (S i + j) = true → comment_only d0 ∨ ∃ b, d_variant d0 = DBalance b) as Hg'
      by (intros j d0 Hj; replace (S i + j) with (i + S j) by lia; by apply Hg).
    assert (gone i = true → False) as Hno.
    { intros Hi'. specialize (Hg 0 d eq_refl). rewrite Nat.add_0_r in Hg. specialize (Hg Hi'). destruct Hpad as [p Ep]. unfold comment_only in Hg. rewrite Ep in Hg. by destruct Hg as [[]|[? ?]]. }
    apply elem_of_cons in Hx as [->|Hx]; [destruct Hh as (Hidx&_); rewrite Hidx in Hi; by destruct Hno|].
    apply elem_of_cons in Hx as [->|Hx]; [|by apply IH]. destruct Hpt as ((Hidx&_)&_). rewrite Hidx in Hi. by destruct Hno.
Qed.
Lemma entries_without gone bs : (∀ b, b ∈ bs → gone (b_idx b) = true → postings_of b = []) → booked_entries (booked_without gone bs) = booked_entries bs.
Proof.
  unfold booked_without. induction bs as [|b bs IH]; intros H; [done|].
  assert (∀ l, booked_entries (b :: l) = booked_entries [b] ++ booked_entries l) as Hc by (intros l; apply (booked_entries_app [b] l)).
  rewrite (Hc bs), filter_cons. rewrite <- IH by (intros; apply H; [by right|done]). destruct (decide (gone (b_idx b) = false)) as [E|E]; [by rewrite Hc|].
  assert (booked_entries [b] = []) as ->; [|done]. specialize (H b ltac:(by left)). destruct (gone (b_idx b)); [|done]. specialize (H eq_refl).
  unfold booked_entries, postings_of in *. rewrite bind_cons. cbn. destruct (b_variant b); try done. by rewrite H.
Qed.
(** The user's reports do not show whether they are there. *)
Theorem C108_reports opt gone ds bs ws bs' ws' cs cs' co co' o o' filters :
  (∀ l, co_lots co l ≡ₚ l) → (∀ l, co_lots co' l ≡ₚ l) →
  (∀ i d, ds !! i = Some d → gone i = true → comment_only d ∨ check_only ds i d) →
  book L ord opt ds = BookSuccess bs ws → book L ord opt (without gone ds) = BookSuccess bs' ws' →
  Forall2 directive_seen cs bs → Forall2 directive_seen cs' bs' →
  (∀ inv inv', inventory co (Beans cs o) filters = Some inv → inventory co' (Beans cs' o') filters = Some inv' →
     ∀ acc cur, (InventorySpec.held cur (InventorySpec.holding inv acc) == InventorySpec.held cur (InventorySpec.holding inv' acc))%Q) ∧
  (∀ l l', journal co (Beans cs o) filters = Some l → journal co' (Beans cs' o') filters = Some l' →
     length l = length l' ∧
     ∀ n row bal, l !! n = Some (row, bal) → ∃ row' bal', l' !! n = Some (row', bal') ∧
       item_of_posting row = item_of_posting row' ∧ (cn_value (cp_units row) == cn_value (cp_units row'))%Q ∧
       ∀ cur, (InventorySpec.held cur bal == InventorySpec.held cur bal')%Q).
Proof using HL Hloc Hord.
  intros Hco Hco' Hg Hb Hb' Hs Hs'. destruct (C108_left_out opt gone ds bs ws Hg Hb) as (b1&w1&H1&Eb). rewrite Hb' in H1. injection H1 as <- <-.
  assert (entries_selected filters bs = entries_selected filters bs') as E.
  { unfold entries_selected. rewrite <- (entries_unnumbered _ _ Eb), entries_without; [done|].
    eapply left_no_postings; [|by eapply C01_output_mirrors_ledger]. intros j d Hd Hj. destruct (Hg j d Hd Hj) as [?|(b&?&_)]; [by left|right; by exists b]. }
  split.
  - intros inv inv' Hi Hi' acc cur. destruct (C87_inventory _ _ _ _ _ _ Hco Hs Hi) as [X1 _], (C87_inventory _ _ _ _ _ _ Hco' Hs' Hi') as [X2 _].
    rewrite X1, X2, E. reflexivity.
  - intros l l' Hj Hj'. destruct (C87_journal _ _ _ _ _ _ Hco Hs Hj) as [Hl1 X1], (C87_journal _ _ _ _ _ _ Hco' Hs' Hj') as [Hl2 X2].
    rewrite E in *. split; [congruence|]. intros n row bal Hr.
    destruct (lookup_lt_is_Some_2 (entries_selected filters bs') n) as [e He]; [rewrite <- Hl1; by eapply lookup_lt_Some|].
    destruct (X1 n e He) as (row0&bal0&Hr0&I1&[U1 _]&B1). rewrite Hr in Hr0. injection Hr0 as <- <-.
    destruct (X2 n e He) as (row'&bal'&Hr'&I2&[U2 _]&B2). exists row', bal'. split; [done|]. split; [congruence|]. split; [by rewrite U1, U2|].
    intros cur. rewrite B1, B2. reflexivity.
Qed.
End Leave.
Print Assumptions C108_left_out.
Print Assumptions C108_comments.
Print Assumptions C108_reports.

(** The note and two of the assertions of the sample ledger; the first of its assertions is
    the one for which the pad waits. *)
Definition some_gone (i : nat) : bool := bool_decide (i ∈ [7; 9; 11]).
Lemma some_gone_ok i d : ledger1 !! i = Some d → some_gone i = true → comment_only d ∨ check_only ledger1 i d.
Proof.
  intros Hd Hi. unfold some_gone in Hi. apply bool_decide_eq_true in Hi.
  repeat (apply elem_of_cons in Hi as [->|Hi]); [..|by apply elem_of_nil in Hi]; cbn in Hd; injection Hd as <-.
  - right. eexists. split; [reflexivity|]. intros (j&d&p&Hj&Hd&Hv&Ha&Hno).
    do 7 (destruct j as [|j]; [cbn in Hd; injection Hd as <-; cbn in Hv; first [discriminate Hv|injection Hv as <-; discriminate Ha]|]). lia.
  - right. eexists. split; [reflexivity|]. intros (j&d&p&Hj&Hd&Hv&Ha&Hno).
    do 4 (destruct j as [|j]; [cbn in Hd; injection Hd as <-; discriminate Hv|]).
    destruct j as [|j]; [by eapply (Hno 6); [lia|lia|reflexivity|reflexivity|]|].
    do 4 (destruct j as [|j]; [cbn in Hd; injection Hd as <-; discriminate Hv|]). lia.
  - by left.
Qed.
Example C108_example :
  (∀ i d, ledger1 !! i = Some d → some_gone i = true → comment_only d ∨ check_only ledger1 i d) ∧
  length (without some_gone ledger1) = 9 ∧
  let bs := booked_or_nil (sample_run (without some_gone ledger1)) in
  sample_run (without some_gone ledger1) = BookSuccess bs [] ∧ length bs = 10 ∧
  unnumbered <$> booked_without some_gone booked1 = unnumbered <$> bs ∧ b_idx <$> booked_without some_gone booked1 ≠ b_idx <$> bs.
Proof.
  split; [exact some_gone_ok|]. split; [by vm_compute|]. cbv zeta.
  assert (sample_run (without some_gone ledger1) = BookSuccess (booked_or_nil (sample_run (without some_gone ledger1))) []) as B by (vm_compute; reflexivity).
  split; [exact B|]. split; [by vm_compute|]. split; [|vm_compute; discriminate].
  destruct (C108_left_out sample_lib sample_lib_ok sample_local sample_ord sample_ord_perm None some_gone ledger1 booked1 [] some_gone_ok ledger1_books) as (b1&w1&H1&E).
  rewrite E. clear E. change (sample_run (without some_gone ledger1) = BookSuccess b1 w1) in H1. revert H1. generalize (sample_run (without some_gone ledger1)).
  by intros ? ->.
Qed.

(** An assertion for which a pad waits is more than a check: without it, and without a later
    one on the account which would then take the pad, the ledger no longer books. *)
Theorem C108_padded_refuted : ∃ gone d b, ledger1 !! 6 = Some d ∧ d_variant d = DBalance b ∧
  (∀ i d, ledger1 !! i = Some d → gone i = true → i ≠ 6 → comment_only d ∨ check_only ledger1 i d) ∧
  sample_run ledger1 = BookSuccess booked1 [] ∧ ¬ ∃ bs ws, sample_run (without gone ledger1) = BookSuccess bs ws.
Proof.
  exists (λ i, Nat.eqb i 6 || Nat.eqb i 9). eexists _, _. split; [reflexivity|]. split; [reflexivity|]. split.
  { intros i d Hd Hi Hne. apply orb_true_iff in Hi as [Hi|Hi]; apply Nat.eqb_eq in Hi; [done|]. apply some_gone_ok; [done|]. by rewrite Hi. }
  split; [exact ledger1_books|]. intros (bs&ws&H). vm_compute in H. discriminate H.
Qed.
Print Assumptions C108_padded_refuted.
