(** What the server sends of a directive shows it on the client. *)
From Coq Require Import Ascii QArith.
From stdpp Require Import prelude gmap strings.
From Verif Require Import DecModel LedgerTypes IsoModel IsoFacts JsonModel WireModel WireSpec WireFacts ParserModel CljModel InventoryModel ClientModel ClientDecode
  NumText TextFacts FormatModel TextSpec WriteSpec WriteFacts SystemSpec.
Local Open Scope nat_scope.
Local Ltac norm_entries :=
  repeat first
    [ rewrite entries_app
    | rewrite entries_cons_eq
    | rewrite entries_cons_ne by (intros ?; discriminate)
    | rewrite entries_put_eq
    | rewrite entries_put_ne by (intros ?; discriminate)
    | rewrite entries_nil
    | rewrite app_nil_r
    | rewrite app_nil_l ].
Local Ltac fields_of := rewrite !vget_decode; norm_entries; rewrite ?last_option_list, ?last_single.

Lemma cn_of_dec_is d : cn_dec (cn_of_dec d) = d.
Proof. unfold cn_of_dec. destruct d as [m s]. cbn. repeat case_match; try done; cbn; f_equal; try done; try lia. Qed.
Lemma shown_fmap {A} (R : cval → A → Prop) (g : json → cval) (p : A → json) o :
  (∀ a, o = Some a → R (g (p a)) a) → opt_shown R (g <$> (p <$> o)) o.
Proof. destruct o as [a|]; [|done]. intros H. exists (g (p a)). split; [done|]. by apply H. Qed.
Lemma entries_merge k (m : bool) : entries k (if m then [("merge", JBool true)] else []) =
    if String.eqb "merge" k then (if m then [JBool true] else []) else [].
Proof.
  destruct m; [|by destruct (String.eqb _ _)]. destruct (String.eqb_spec "merge" k) as [<-|].
  - by rewrite entries_cons_eq.
  - by rewrite entries_cons_ne.
Qed.
Lemma put_cost_spec_is key c : cost_writable c → cost_is (decode key (put_cost_spec c)) c.
Proof.
  intros (_&_&_&_&Hd&_). unfold cost_is, put_cost_spec. rewrite !vget_decode; norm_entries; rewrite !entries_merge; cbn [String.eqb Ascii.eqb Bool.eqb]; norm_entries; rewrite ?last_option_list.
  split_and!; [| | | | |by destruct (cs_merge c)].
  - apply shown_fmap. intros a _. exists (cn_of_dec a). split; [done|apply cn_of_dec_is].
  - intros _. apply shown_fmap. intros a _. exists (cn_of_dec a). split; [done|apply cn_of_dec_is].
  - by apply shown_fmap.
  - apply shown_fmap. intros a E. rewrite E in Hd. cbn in Hd. cbn. by rewrite (parse_fmt_date _ Hd).
  - by apply shown_fmap.
Qed.
Lemma put_cost_is key c : valid_date (c_date c) = true → cost_is (decode key (put_cost c)) (cost_as_written c).
Proof.
  intros Hd. unfold cost_is, put_cost, cost_as_written. cbn [cs_per_unit cs_total cs_cur cs_date cs_label cs_merge].
  rewrite !vget_decode; norm_entries; rewrite !entries_merge; cbn [String.eqb Ascii.eqb Bool.eqb]; norm_entries; rewrite ?last_option_list, ?last_single.
  split_and!; [| | | | |by destruct (c_merge c)].
  - eexists. split; [done|]. exists (cn_of_dec (c_per_unit c)). split; [done|apply cn_of_dec_is].
  - done.
  - by eexists.
  - eexists. split; [done|]. cbn. by rewrite (parse_fmt_date _ Hd).
  - by apply shown_fmap.
Qed.
Lemma put_price_spec_is key p : price_is (decode key (put_price_spec p)) p.
Proof.
  unfold price_is, put_price_spec. fields_of. split_and!.
  - apply shown_fmap. intros a _. exists (cn_of_dec a). split; [done|apply cn_of_dec_is].
  - intros _. apply shown_fmap. intros a _. exists (cn_of_dec a). split; [done|apply cn_of_dec_is].
  - by apply shown_fmap.
Qed.
Lemma put_price_is key p : price_is (decode key (put_price p)) (price_as_written p).
Proof.
  unfold price_is, put_price, price_as_written. cbn [prs_per_unit prs_total prs_cur]. fields_of. split_and!.
  - eexists. split; [done|]. exists (cn_of_dec (pr_per_unit p)). split; [done|apply cn_of_dec_is].
  - done.
  - by eexists.
Qed.
Lemma put_meta_is key v : value_writable v → value_is (decode key (put_meta v)) v.
Proof.
  destruct v as [u c|s|c|a|s|s|d|b|n|]; intros H; cbn -[parse_date fmt_date]; try done.
  - eexists. split; [done|]. exists (cn_of_dec u). split; [done|apply cn_of_dec_is].
  - cbn in H. unfold convert_map, vupdate. cbn -[parse_date fmt_date]. by rewrite (parse_fmt_date _ H).
  - eexists. split; [done|]. exists (cn_of_dec n). split; [done|apply cn_of_dec_is].
Qed.
Section Put.
Context (ord : hash_order) (Hord : any_order ord).
Lemma put_set_is k X : k ∈ ["tags"; "links"; "currencies"] → set_is (converted k (decode (Some k) (put_set ord X))) X.
Proof using Hord.
  intros Hk. exists (set_order ord X). split.
  - unfold put_set. cbn [decode]. assert (is_set_key (Some k) = true ∧ ∀ v, v = VSet (map (decode None) (JStr <$> set_order ord X)) → converted k v = v) as [-> Hc].
    { repeat (apply elem_of_cons in Hk as [-> |Hk]; [split; [done|by intros ? ->]|]). by apply elem_of_nil in Hk. }
    rewrite Hc by done. f_equal. rewrite <- list_fmap_compose. done.
  - destruct Hord as [Hs _]. apply set_eq. intros s. rewrite elem_of_list_to_set, Hs. apply elem_of_elements.
Qed.
Lemma put_metadata_is key m : metadata_writable m → metadata_is (decode key (put_metadata ord m)) m.
Proof using Hord.
  intros [_ Hw]. destruct Hord as [_ Hm]. set (fs := (λ kv, (kv.1, put_meta kv.2)) <$> map_order ord m).
  assert (∀ k, k ∈ fs.*1 ↔ is_Some (m !! k)) as Hk.
  { intros k. unfold fs. rewrite <- list_fmap_compose. rewrite elem_of_list_fmap. split.
    - intros ([k' x]&->&Hin). rewrite Hm in Hin. apply elem_of_map_to_list in Hin. by exists x.
    - intros [x Hx]. exists (k, x). split; [done|]. rewrite Hm. by apply elem_of_map_to_list. }
  exists (convert_map (map (λ '(k, v), (k, decode (Some k) v)) fs)). split_and!; [reflexivity| |].
  - intros k. rewrite <- Hk. unfold convert_map. clearbody fs.
    assert (∀ k' f (l : list (string * cval)), (vupdate k' f l).*1 = l.*1) as Hv.
    { intros k' f l. induction l as [|[k0 x] l IH]; [done|]. unfold vupdate in *. cbn in *. rewrite IH. by destruct (String.eqb _ _). }
    rewrite !Hv. assert ((map (λ '(k, v), (k, decode (Some k) v)) fs).*1 = fs.*1) as E.
    { clear. induction fs as [|[k x] l IH]; [done|]. cbn. by rewrite IH. }
    destruct (vfield "date" (map (λ '(k, v), (k, decode (Some k) v)) fs)) as [[]|]; rewrite ?Hv, E; done.
  - intros k x Hx. destruct (Hw _ _ Hx) as [(_&_&Nb&Nd) Hxw].
    change (decode key (put_metadata ord m)) with (decode key (JObj fs)). rewrite vget_decode.
    assert (entries k fs = [put_meta x]) as ->.
    { assert (NoDup (map_order ord m).*1) as Hnd by (rewrite Hm; apply NoDup_fst_map_to_list).
      assert ((k, x) ∈ map_order ord m) as Hin by (rewrite Hm; by apply elem_of_map_to_list).
      unfold fs. clear -Hnd Hin. induction (map_order ord m) as [|[k' x'] l IH]; [by apply elem_of_nil in Hin|].
      cbn [fmap list_fmap fst] in Hnd |- *. apply NoDup_cons in Hnd as [Hn Hnd]. apply elem_of_cons in Hin as [[= -> ->]|Hin].
      - rewrite entries_cons_eq. f_equal. assert (∀ y, (k', y) ∉ l) as Hn' by (intros y Hy; apply Hn; apply elem_of_list_fmap; by exists (k', y)).
        clear -Hn'. induction l as [|[k x] l IH]; [done|]. cbn [fmap list_fmap fst]. rewrite entries_cons_ne.
        + apply IH. intros y Hy. apply (Hn' y). by right.
        + intros ->. apply (Hn' x). by left.
      - rewrite entries_cons_ne; [by apply IH|]. intros ->. apply Hn. apply elem_of_list_fmap. by exists (k, x). }
    rewrite last_single. cbn [fmap option_fmap option_map]. eexists. split; [done|]. unfold converted.
    apply String.eqb_neq in Nb, Nd. rewrite Nb, Nd. cbn [orb]. pose proof (put_meta_is (Some k) x Hxw) as Hp.
    destruct (String.eqb k "date"); [|done]. destruct x; cbn -[parse_date fmt_date] in *; done.
Qed.
Lemma put_values_are vs : Forall value_writable vs → Forall2 value_is (map (decode None) (put_meta <$> vs)) vs.
Proof. induction 1; [constructor|]. constructor; [by apply put_meta_is|done]. Qed.
Lemma either_left a b v x : vget a v = Some x → truthy (Some x) = true → either a b v = Some x.
Proof. intros E T. unfold either, vget_true. by rewrite E, T. Qed.
Lemma either_spec {A} (R : cval → A → Prop) a b v o : vget a v = None → opt_shown R (vget b v) o → (∀ x y, R x y → vget b v = Some x → truthy (Some x) = true) → opt_shown R (either a b v) o.
Proof.
  intros E H T. unfold either, vget_true. rewrite E. cbn [truthy]. destruct o as [y|]; cbn in *.
  - destruct H as (x&E'&Hx). exists x. split; [|done]. specialize (T _ _ Hx E'). rewrite E'. unfold truthy in *. by rewrite T.
  - by rewrite H.
Qed.
Lemma either_first {A} (R : cval → A → Prop) a b v o : vget b v = None → opt_shown R (vget a v) o → (∀ x y, R x y → vget a v = Some x → truthy (Some x) = true) → opt_shown R (either a b v) o.
Proof.
  intros E H T. unfold either, vget_true. rewrite E. cbn [truthy]. destruct o as [y|]; cbn in *.
  - destruct H as (x&E'&Hx). exists x. split; [|done]. specialize (T _ _ Hx E'). rewrite E'. unfold truthy in *. by rewrite T.
  - by rewrite H.
Qed.
Lemma put_posting_spec_is key q : posting_writable q → posting_is (decode key (put_posting_spec ord q)) q.
Proof using Hord.
  intros (_&_&_&_&Hc&_&_&_&Hm). unfold posting_is.
  assert (vget "cost" (decode key (put_posting_spec ord q)) = None ∧ vget "price" (decode key (put_posting_spec ord q)) = None) as [E1 E2].
  { unfold put_posting_spec. rewrite !vget_decode. norm_entries. done. }
  split_and!.
  5: apply either_spec; [done| |]. 7: apply either_spec; [done| |]. 
  all: unfold put_posting_spec; fields_of.
  - by apply shown_fmap.
  - done.
  - apply shown_fmap. intros a _. exists (cn_of_dec a). split; [done|apply cn_of_dec_is].
  - by apply shown_fmap.
  - apply shown_fmap. intros a E. rewrite E in Hc. by apply put_cost_spec_is.
  - intros x y _. destruct (ps_cost q); [|done]. by intros [= <-].
  - apply shown_fmap. intros a _. apply put_price_spec_is.
  - intros x y _. destruct (ps_price q); [|done]. by intros [= <-].
  - apply shown_fmap. intros a _. apply put_set_is. set_solver.
  - apply shown_fmap. intros a _. apply put_set_is. set_solver.
  - apply shown_fmap. intros a E. rewrite E in Hm. by apply put_metadata_is.
Qed.
Lemma put_posting_is key q : posting_writable (posting_as_written q) → posting_is (decode key (put_posting ord q)) (posting_as_written q).
Proof using Hord.
  intros (_&_&_&_&Hc&_&_&_&Hm). unfold posting_is, posting_as_written in *. cbn [ps_span ps_flag ps_acc ps_units ps_cur ps_cost ps_price ps_tags ps_links ps_metadata] in *.
  assert (vget "cost-spec" (decode key (put_posting ord q)) = None ∧ vget "price-spec" (decode key (put_posting ord q)) = None) as [E1 E2].
  { unfold put_posting. rewrite !vget_decode. norm_entries. done. }
  split_and!.
  5: apply either_first; [done| |]. 7: apply either_first; [done| |]. 
  all: unfold put_posting; fields_of.
  - by apply shown_fmap.
  - done.
  - eexists. split; [done|]. exists (cn_of_dec (p_units q)). split; [done|apply cn_of_dec_is].
  - by eexists.
  - destruct (p_cost q) as [c|]; [|done]. eexists. split; [done|]. destruct Hc as (_&_&_&_&Hd&_). by apply put_cost_is.
  - intros x y _. destruct (p_cost q); [|done]. by intros [= <-].
  - destruct (p_price q) as [c|]; [|done]. eexists. split; [done|]. apply put_price_is.
  - intros x y _. destruct (p_price q); [|done]. by intros [= <-].
  - apply shown_fmap. intros a _. apply put_set_is. set_solver.
  - apply shown_fmap. intros a _. apply put_set_is. set_solver.
  - apply shown_fmap. intros a E. rewrite E in Hm. by apply put_metadata_is.
Qed.
Lemma put_postings_are qs : Forall posting_writable qs → Forall2 posting_is (map (decode None) (put_posting_spec ord <$> qs)) qs.
Proof using Hord. induction 1; [constructor|]. constructor; [by apply put_posting_spec_is|done]. Qed.
Lemma put_directive_is d : writable d → directive_is (decode None (put_directive ord d)) d.
Proof using Hord.
  destruct d as [sp dt tg lk md x]. intros (W1&W2&W3&W4&W5). unfold directive_is, put_directive. cbn [d_span d_date d_tags d_links d_metadata d_variant] in *.
  assert (∀ k, k ∈ ["date"; "tags"; "links"; "metadata"] → entries k (put_variant ord x) = []) as Hk.
  { intros k Hk. destruct x; cbn [put_variant]; unfold put_price_dct, put_balance, put_open, put_pad, put_custom; cbn [app];
    (apply elem_of_cons in Hk as [-> |Hk]; [norm_entries; reflexivity|]);
    (apply elem_of_cons in Hk as [-> |Hk]; [norm_entries; reflexivity|]);
    (apply elem_of_cons in Hk as [-> |Hk]; [norm_entries; reflexivity|]);
    (apply elem_of_cons in Hk as [-> |Hk]; [norm_entries; reflexivity|]); by apply elem_of_nil in Hk. }
  split_and!.
  - fields_of. rewrite Hk by set_solver. norm_entries. rewrite last_single. cbn -[parse_date fmt_date]. by rewrite (parse_fmt_date _ W1).
  - fields_of. rewrite Hk by set_solver. norm_entries. rewrite last_option_list. apply shown_fmap. intros a _. apply put_set_is. set_solver.
  - fields_of. rewrite Hk by set_solver. norm_entries. rewrite last_option_list. apply shown_fmap. intros a _. apply put_set_is. set_solver.
  - fields_of. rewrite Hk by set_solver. norm_entries. rewrite last_option_list. apply shown_fmap. intros a E. rewrite E in W4. by apply put_metadata_is.
  - destruct x as [t|p|b|o|a|c|p|a s|a s|s s'|s s'|c]; cbn [variant_is put_variant variant_writable] in *; unfold put_price_dct, put_balance, put_open, put_pad, put_custom in *; fields_of; cbn [fmap option_fmap option_map].
    + destruct W5 as (_&_&_&_&W5). split_and!; [done|done|by apply shown_fmap|by apply shown_fmap|].
      eexists. split; [done|]. by apply put_postings_are.
    + split_and!; [done|done|]. eexists. split; [done|]. unfold converted. cbn [String.eqb Ascii.eqb Bool.eqb orb]. unfold put_price. split.
      * fields_of. eexists. split; [done|]. exists (cn_of_dec (pr_per_unit (pd_price p))). split; [done|apply cn_of_dec_is].
      * fields_of. done.
    + split_and!; [done|done| |done|].
      * eexists. split; [done|]. exists (cn_of_dec (bal_units b)). split; [done|apply cn_of_dec_is].
      * apply shown_fmap. intros n _. exists (cn_of_dec n). split; [done|apply cn_of_dec_is].
    + split_and!; [done|done| |].
      * apply shown_fmap. intros n _. apply put_set_is. set_solver.
      * by destruct (op_booking o) as [[]|].
    + done.
    + done.
    + done.
    + done.
    + done.
    + done.
    + done.
    + destruct W5 as (_&W5&_). split_and!; [done|done|]. eexists. split; [done|]. by apply put_values_are.
Qed.

(** With what the client adds of where they come from. *)
Lemma with_span_posting s j w q : with_span s j w → posting_is (decode None j) q → posting_is w q.
Proof.
  intros (_&_&_&H) Hq. unfold posting_is, either, vget_true in *. rewrite !H by done. exact Hq.
Qed.
Lemma traced_is ledger b v : traced_to ord ledger b v → writable (as_written b) → directive_is v (as_written b).
Proof using Hord.
  destruct b as [i dt tg lk md x]. intros (pd&_&(_&_&_&Hv)&Hp). cbn [b_idx b_date b_tags b_links b_metadata b_variant] in *.
  intros (W1&W2&W3&W4&W5). unfold as_written in *. cbn [b_idx b_date b_tags b_links b_metadata b_variant d_date d_tags d_links d_metadata d_variant] in *.
  assert (∀ k, k ∈ ["date"; "tags"; "links"; "metadata"] → entries k (put_bvariant ord x) = []) as Hk.
  { intros k Hk. destruct x; cbn [put_bvariant]; unfold put_price_dct, put_balance, put_open, put_pad, put_custom; cbn [app];
    (apply elem_of_cons in Hk as [-> |Hk]; [norm_entries; reflexivity|]);
    (apply elem_of_cons in Hk as [-> |Hk]; [norm_entries; reflexivity|]);
    (apply elem_of_cons in Hk as [-> |Hk]; [norm_entries; reflexivity|]);
    (apply elem_of_cons in Hk as [-> |Hk]; [norm_entries; reflexivity|]); by apply elem_of_nil in Hk. }
  unfold directive_is. cbn [d_span d_date d_tags d_links d_metadata d_variant]. unfold put_bdirective in Hv. cbn [b_idx b_date b_tags b_links b_metadata b_variant] in Hv.
  split_and!.
  - rewrite Hv by done. fields_of. rewrite Hk by set_solver. norm_entries. rewrite last_single. cbn -[parse_date fmt_date]. by rewrite (parse_fmt_date _ W1).
  - rewrite Hv by done. fields_of. rewrite Hk by set_solver. norm_entries. rewrite last_option_list. apply shown_fmap. intros a _. apply put_set_is. set_solver.
  - rewrite Hv by done. fields_of. rewrite Hk by set_solver. norm_entries. rewrite last_option_list. apply shown_fmap. intros a _. apply put_set_is. set_solver.
  - rewrite Hv by done. fields_of. rewrite Hk by set_solver. norm_entries. rewrite last_option_list. apply shown_fmap. intros a E. rewrite E in W4. by apply put_metadata_is.
  - destruct x as [t|p|b|o|a|c|p|a s|a s|s s'|s s'|c]; cbn [variant_is put_bvariant variant_writable] in *; unfold put_price_dct, put_balance, put_open, put_pad, put_custom in *;
      rewrite ?Hv by done; fields_of; cbn [fmap option_fmap option_map].
    + destruct W5 as (_&_&_&_&W5). cbn [tx_flag tx_payee tx_narration tx_postings] in *. split_and!; [done|done|by apply shown_fmap|by apply shown_fmap|].
      destruct Hp as (ws&Hws&HF). exists ws. split; [done|]. clear -HF W5 Hord. induction HF as [|q w qs ws Hq HF IH]; [constructor|].
      cbn [fmap list_fmap] in W5 |- *. apply Forall_cons in W5 as [W5 W6]. constructor; [|by apply IH].
      eapply with_span_posting; [exact Hq|]. by apply put_posting_is.
    + split_and!; [done|done|]. eexists. split; [done|]. unfold converted. cbn [String.eqb Ascii.eqb Bool.eqb orb]. unfold put_price. split.
      * fields_of. eexists. split; [done|]. exists (cn_of_dec (pr_per_unit (pd_price p))). split; [done|apply cn_of_dec_is].
      * fields_of. done.
    + split_and!; [done|done| |done|].
      * eexists. split; [done|]. exists (cn_of_dec (bal_units (bb_raw b))). split; [done|apply cn_of_dec_is].
      * apply shown_fmap. intros n _. exists (cn_of_dec n). split; [done|apply cn_of_dec_is].
    + split_and!; [done|done| |].
      * apply shown_fmap. intros n _. apply put_set_is. set_solver.
      * by destruct (op_booking o) as [[]|].
    + done.
    + done.
    + done.
    + done.
    + done.
    + done.
    + done.
    + destruct W5 as (_&W5&_). split_and!; [done|done|]. eexists. split; [done|]. by apply put_values_are.
Qed.
End Put.
