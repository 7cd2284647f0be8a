(** What the server's answers contain. *)
From Coq Require Import Ascii.
From stdpp Require Import prelude gmap strings.
From Verif Require Import DecModel LedgerTypes IsoModel JsonModel WireModel WireSpec WireFacts ParserModel ParserSpec
  ParserFacts ServerModel OutputSpec.

Local Ltac norm_entries :=
  repeat first
    [ rewrite entries_app
    | rewrite entries_cons_eq
    | rewrite entries_cons_ne by (intros ?; discriminate)
    | rewrite entries_put_eq
    | rewrite entries_put_ne by (intros ?; discriminate)
    | rewrite entries_nil
    | rewrite app_nil_r
    | rewrite app_nil_l ].

Lemma shown_entries {A} (R : json → A → Prop) k fs o (enc : A → json) :
  entries k fs = option_list (enc <$> o) → (∀ x, R (enc x) x) → shown R k fs o.
Proof. intros He HR. destruct o; cbn in *; [eauto|done]. Qed.

Section Out.
Context (ord : hash_order) (Hord : any_order ord).

Lemma put_set_exact X : exact_set (put_set ord X) X.
Proof.
  destruct Hord as [H _]. exists (set_order ord X). split; [done|]. split.
  - rewrite (H X). apply NoDup_elements.
  - intros s. by rewrite (H X), elem_of_elements.
Qed.
Lemma entries_map {A} (f : A → json) (m : gmap string A) l k : l ≡ₚ map_to_list m →
  entries k ((λ kv, (kv.1, f kv.2)) <$> l) = option_list (f <$> m !! k).
Proof.
  intros Hl. rewrite entries_fmap.
  assert (length (entries k l) ≤ 1) as Hle.
  { apply entries_NoDup. rewrite Hl. apply NoDup_fst_map_to_list. }
  assert (∀ v, v ∈ entries k l ↔ m !! k = Some v) as Hin.
  { intros v. by rewrite entries_spec, Hl, elem_of_map_to_list. }
  destruct (m !! k) as [v|]; destruct (entries k l) as [|a [|b es]]; cbn in Hle; try lia; cbn.
  - specialize (Hin v). rewrite elem_of_nil in Hin. tauto.
  - assert (Some v = Some a) as [= <-] by (apply Hin; left). done.
  - done.
  - assert (None = Some a) by (apply Hin; left). done.
Qed.
Lemma put_meta_exact v : exact_meta (put_meta v) v.
Proof. by destruct v. Qed.
Lemma put_metadata_exact m : exact_map exact_meta (put_metadata ord m) m.
Proof.
  destruct Hord as [_ H]. eexists. split; [reflexivity|]. intros k.
  eapply shown_entries; [|apply put_meta_exact]. by apply entries_map.
Qed.
Lemma put_booking_exact b : booking_json (put_booking b) b.
Proof. by destruct b. Qed.

Local Ltac opt := eapply shown_entries; [norm_entries; reflexivity|try done].
Local Ltac one := eexists; split; [norm_entries; reflexivity|try done].

Lemma put_price_exact p : booked_price (put_price p) p.
Proof. eexists. split; [reflexivity|]. split_and!; [one|opt|one]. Qed.
Lemma put_cost_exact c : booked_cost (put_cost c) c.
Proof.
  eexists. split; [reflexivity|]. destruct (c_merge c); cbn [shown]; split_and!; try one; try opt; norm_entries; done.
Qed.
Lemma put_posting_exact p : booked_posting (put_posting ord p) p.
Proof.
  eexists. split; [reflexivity|]. split_and!; try one; opt.
  - apply put_cost_exact.
  - apply put_price_exact.
  - apply put_set_exact.
  - apply put_set_exact.
  - apply put_metadata_exact.
Qed.
Lemma list_exact {A} (R : json → A → Prop) (f : A → json) l : (∀ x, R (f x) x) → list_json R (JArr (f <$> l)) l.
Proof. intros HR. eexists. split; [done|]. apply Forall2_fmap_l, Forall_Forall2_diag, Forall_forall. auto. Qed.

(** Fields before those of the variant. *)
Definition other_fields (pre : fields) : Prop :=
  ∀ k, k ∉ ["idx"; "date"; "tags"; "links"; "metadata"] → entries k pre = [].
Lemma put_bvariant_exact pre v : other_fields pre → booked_variant (pre ++ put_bvariant ord v) v.
Proof.
  intros Hpre.
  assert (∀ k fs, existsb (String.eqb k) ["idx"; "date"; "tags"; "links"; "metadata"] = false →
            entries k (pre ++ fs) = entries k fs) as Hp.
  { intros k fs Hk. rewrite entries_app, Hpre; [done|]. intros Hin. apply not_true_iff_false in Hk. apply Hk.
    apply existsb_exists. exists k. split; [by apply elem_of_list_In|by apply String.eqb_eq]. }
  destruct v; cbn [booked_variant put_bvariant];
    repeat match goal with
    | |- _ ∧ _ => split
    | |- Forall _ [] => apply Forall_nil_2
    | |- Forall _ (_ :: _) => apply Forall_cons_2; cbn [fst snd]
    end;
    try (eexists; split; [rewrite Hp by reflexivity; unfold put_price_dct, put_balance, put_open, put_pad, put_custom;
      norm_entries; reflexivity|try done]);
    try (eapply shown_entries; [rewrite Hp by reflexivity; unfold put_price_dct, put_balance, put_open, put_pad, put_custom;
      norm_entries; reflexivity|try done]).
  - apply list_exact, put_posting_exact.
  - apply put_price_exact.
  - apply put_set_exact.
  - apply list_exact, put_meta_exact.
Qed.

Lemma bvariant_other k v : k ∈ ["idx"; "date"; "tags"; "links"; "metadata"] → entries k (put_bvariant ord v) = [].
Proof.
  intros Hk. assert (∃ i, ["idx"; "date"; "tags"; "links"; "metadata"] !! i = Some k) as [i Hi] by by apply elem_of_list_lookup_1.
  destruct v; cbn [put_bvariant]; unfold put_price_dct, put_balance, put_open, put_pad, put_custom;
  (do 5 (destruct i as [|i]; [injection Hi as <-; norm_entries; done|])); by destruct i.
Qed.

Lemma put_bdirective_exact d : booked_json (put_bdirective ord d) d.
Proof.
  assert (∀ k pre, k ∈ ["idx"; "date"; "tags"; "links"; "metadata"] →
            entries k (pre ++ put_bvariant ord (b_variant d)) = entries k pre) as Hv.
  { intros k pre Hk. rewrite entries_app, bvariant_other by done. apply app_nil_r. }
  unfold put_bdirective. rewrite !app_assoc. eexists. split; [reflexivity|].
  split_and!; [| | | | |apply put_bvariant_exact].
  - eexists. rewrite Hv by (repeat constructor). norm_entries. done.
  - eexists. rewrite Hv by (repeat constructor). norm_entries. done.
  - eapply shown_entries; [rewrite Hv by (repeat constructor); norm_entries; reflexivity|apply put_set_exact].
  - eapply shown_entries; [rewrite Hv by (repeat constructor); norm_entries; reflexivity|apply put_set_exact].
  - eapply shown_entries; [rewrite Hv by (repeat constructor); norm_entries; reflexivity|apply put_metadata_exact].
  - intros k Hk.
    assert ("idx" ≠ k ∧ "date" ≠ k ∧ "tags" ≠ k ∧ "links" ≠ k ∧ "metadata" ≠ k) as (?&?&?&?&?).
    { split_and!; intros <-; apply Hk; repeat constructor. }
    rewrite !entries_app, !entries_cons_ne, !entries_put_ne by done. done.
Qed.
End Out.

(** Objects with many optional fields. *)
Definition flat (l : list (string * option json)) : fields :=
  flat_map (λ kv, match kv.2 with Some v => [(kv.1, v)] | None => [] end) l.
Lemma flat_req k v l : (k, v) :: flat l = flat ((k, Some v) :: l).
Proof. done. Qed.
Lemma flat_opt {A} k (e : A → json) o l : put_opt k e o ++ flat l = flat ((k, e <$> o) :: l).
Proof. by destruct o. Qed.
Lemma flat_last {A} k (e : A → json) o : put_opt k e o = flat [(k, e <$> o)].
Proof. by destruct o. Qed.
Fixpoint pick (k : string) (l : list (string * option json)) : list json :=
  match l with
  | [] => []
  | kv :: l' => if String.eqb kv.1 k then option_list kv.2 ++ pick k l' else pick k l'
  end.
Lemma entries_flat k l : entries k (flat l) = pick k l.
Proof.
  induction l as [|[k' o] l IH]; [done|]. unfold flat in *. cbn [flat_map pick fst snd]. rewrite entries_app, IH.
  destruct (String.eqb_spec k' k) as [->|Hne].
  - destruct o; [|done]. by rewrite entries_cons_eq.
  - destruct o; [|done]. by rewrite entries_cons_ne.
Qed.
Lemma shown_pick {A} (R : json → A → Prop) k l o (enc : A → json) :
  pick k l = option_list (enc <$> o) → (∀ x, R (enc x) x) → shown R k (flat l) o.
Proof. rewrite <- entries_flat. apply shown_entries. Qed.

Definition put_options_flat {P} (h : orders P) (o : options) : list (string * option json) :=
  [("name-assets", Some (JStr (o_name_assets o))); ("name-liabilities", Some (JStr (o_name_liabilities o)));
   ("name-equity", Some (JStr (o_name_equity o))); ("name-income", Some (JStr (o_name_income o)));
   ("name-expenses", Some (JStr (o_name_expenses o)));
   ("title", JStr <$> o_title o);
   ("account-previous-balances", JStr <$> o_account_previous_balances o);
   ("account-previous-earnings", JStr <$> o_account_previous_earnings o);
   ("account-previous-conversions", JStr <$> o_account_previous_conversions o);
   ("account-current-earnings", JStr <$> o_account_current_earnings o);
   ("account-current-conversions", JStr <$> o_account_current_conversions o);
   ("account-unrealized-gains", JStr <$> o_account_unrealized_gains o);
   ("account-rounding", JStr <$> o_account_rounding o);
   ("conversion-currency", JStr <$> o_conversion_currency o);
   ("inferred-tolerance-default",
      (λ m, JObj ((λ kv, (kv.1, put_num kv.2)) <$> or_numbers h m)) <$> o_tolerance_default o);
   ("inferred-tolerance-default-fallback", put_num <$> o_tolerance_fallback o);
   ("inferred-tolerance-multiplier", put_num <$> o_tolerance_multiplier o);
   ("infer-tolerance-from-cost", JBool <$> o_tolerance_from_cost o);
   ("documents", put_set (or_wire h) <$> o_documents o);
   ("operating-currency", put_set (or_wire h) <$> o_operating_currency o);
   ("render-commas", JBool <$> o_render_commas o);
   ("booking-method", put_booking <$> o_booking_method o);
   ("plugin-processing-mode", put_plugin_mode <$> o_plugin_mode o)].
Lemma put_options_is_flat {P} (h : orders P) o : put_options h o = JObj (flat (put_options_flat h o)).
Proof. unfold put_options, put_options_flat. f_equal. cbn [app]. rewrite (flat_last "plugin-processing-mode"), !flat_opt. reflexivity. Qed.

Lemma put_options_exact {P} (h : orders P) o :
  any_order (or_wire h) → (∀ m, or_numbers h m ≡ₚ map_to_list m) →
  options_json (put_options h (from_options o)) o.
Proof.
  intros Hw Hn. rewrite put_options_is_flat. eexists. split; [reflexivity|].
  destruct (options_tolerance o) as (H1 & H2 & H3).
  split_and!.
  - apply Forall_forall. intros [k x] Hin.
    repeat (apply elem_of_cons in Hin as [[= -> ->]|Hin];
      [first [ apply (shown_pick _ _ _ _ JStr); [apply app_nil_r || done | done]
             | apply (shown_pick _ _ _ _ JStr); [|done]; cbn [fst snd]; cbn; destruct (po_plugin_mode o) as [[]|]; done]|]).
    by apply elem_of_nil in Hin.
  - apply Forall_forall. intros [k x] Hin.
    repeat (apply elem_of_cons in Hin as [[= -> ->]|Hin]; [apply (shown_pick _ _ _ _ JBool); [apply app_nil_r|done]|]).
    by apply elem_of_nil in Hin.
  - apply (shown_pick _ _ _ _ put_num); [apply app_nil_r|done].
  - apply (shown_pick _ _ _ _ put_booking); [apply app_nil_r|apply put_booking_exact].
  - apply (shown_pick _ _ _ _ (put_set (or_wire h))); [apply app_nil_r|by apply put_set_exact].
  - apply (shown_pick _ _ _ _ (put_set (or_wire h))); [apply app_nil_r|by apply put_set_exact].
  - rewrite <- H2. apply (shown_pick _ _ _ _ put_num); [apply app_nil_r|done].
  - rewrite entries_flat.
    change (pick _ _) with (option_list ((λ m, JObj ((λ kv, (kv.1, put_num kv.2)) <$> or_numbers h m)) <$>
       o_tolerance_default (from_options o)) ++ []). rewrite app_nil_r.
    destruct (o_tolerance_default (from_options o)) as [m|]; cbn [fmap option_fmap option_map option_list].
    + eexists. split; [reflexivity|]. split.
      * destruct (or_numbers h m) as [|x l] eqn:E; [|done]. pose proof (Hn m) as Hm. rewrite E in Hm.
        apply Permutation_nil in Hm. apply map_to_list_empty_iff in Hm. by subst.
      * intros c. rewrite <- H1. cbn [mbind option_bind]. eapply shown_entries; [by apply entries_map|done].
    + intros c. by rewrite <- H1.
Qed.

Local Ltac opt := eapply shown_entries; [norm_entries; reflexivity|try done].
Local Ltac one := eexists; split; [norm_entries; reflexivity|try done].
Lemma put_report_exact r : spanned_json (put_report r) r.
Proof.
  eexists. split; [reflexivity|]. split_and!; try one; try opt.
  - by eexists _, _, _.
  - intros l. by apply list_exact.
  - intros l. by apply list_exact.
Qed.
Lemma put_eidx_exact e : index_json (put_eidx e) e.
Proof. unfold index_json, put_eidx. by destruct (ei_posting e). Qed.
Lemma put_indexed_exact {P S} (env : server_env P S) r : indexed_json (env_layout env) (put_indexed_report env r) r.
Proof.
  eexists. split; [reflexivity|]. split_and!; try one; try opt.
  - apply put_eidx_exact.
  - intros l. apply list_exact, put_eidx_exact.
  - destruct (r_annotation r); cbn [fmap option_fmap option_map]; [one|]. unfold shown. norm_entries. done.
Qed.
Lemma put_source_exact s : source_json (put_spanned_source s) s.
Proof. eexists. split; [reflexivity|]. split_and!; try one; opt. Qed.
Lemma put_plugin_exact p : plugin_json (put_plugin p) p.
Proof. unfold plugin_json, put_plugin, or_null. by destruct (ppl_config p). Qed.
