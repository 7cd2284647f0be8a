(** What the server sends meets the specification: lemmas for [SpecProps.v]. *)
From Coq Require Import Ascii QArith.
From stdpp Require Import prelude gmap strings.
From Verif Require Import DecModel LedgerTypes IsoModel IsoFacts JsonModel WireModel WireSpec WireFacts OutputFacts CljModel InventoryModel ClientModel ClientDecode
  SpecModel SpecSpec.
Local Open Scope nat_scope.

Local Ltac norm_entries :=
  repeat first
    [ rewrite entries_app
    | rewrite entries_cons_eq
    | rewrite entries_cons_ne by (intros ?; discriminate)
    | rewrite entries_put_eq
    | rewrite entries_put_ne by (intros ?; discriminate)
    | rewrite entries_nil
    | rewrite app_nil_r
    | rewrite app_nil_l ].

(** The value of a field after reading. *)
Definition seen (k : string) (j : json) : cval := converted k (decode (Some k) j).
Lemma s_req_decode k c key fs j : last (entries k fs) = Some j → c (seen k j) = true → s_req k c (decode key (JObj fs)) = true.
Proof. intros E H. unfold s_req. by rewrite vget_decode, E. Qed.
Lemma s_opt_decode {A} k (c : check) key fs (put : A → json) o (P : A → Prop) :
  last (entries k fs) = put <$> o → all_opt P o → (∀ x, P x → c (seen k (put x)) = true) → s_opt k c (decode key (JObj fs)) = true.
Proof. intros E H Hc. unfold s_opt. rewrite vget_decode, E. destruct o; cbn; [by apply Hc|done]. Qed.
Lemma s_opt_present k c key fs j : last (entries k fs) = Some j → c (seen k j) = true → s_opt k c (decode key (JObj fs)) = true.
Proof. intros E H. unfold s_opt. by rewrite vget_decode, E. Qed.
Lemma s_opt_absent k c key fs : last (entries k fs) = None → s_opt k c (decode key (JObj fs)) = true.
Proof. intros E. unfold s_opt. by rewrite vget_decode, E. Qed.
Lemma forallb_Forall {A} (f : A → bool) l : Forall (λ x, f x = true) l → forallb f l = true.
Proof. induction 1 as [|x l H _ IH]; [done|]. cbn. by rewrite H, IH. Qed.
Lemma s_keys_true req opt key fs :
  Forall (λ kc, s_req kc.1 kc.2 (decode key (JObj fs)) = true) req →
  Forall (λ kc, s_opt kc.1 kc.2 (decode key (JObj fs)) = true) opt →
  s_keys req opt (decode key (JObj fs)) = true.
Proof.
  intros H1 H2. unfold s_keys. rewrite !andb_true_iff. split_and!; [done| |]; by apply forallb_Forall.
Qed.
Lemma fields_put_opt {A} (put : A → json) o : last (option_list (put <$> o)) = put <$> o.
Proof. by destruct o. Qed.

(** ** Leaves *)
Lemma number_ok k d : k ∉ ["booking"; "dct"; "date"] → modest d → c_number (seen k (put_num d)) = true.
Proof.
  intros Hk Hm. unfold seen, converted, put_num. rewrite !not_elem_of_cons in Hk. destruct Hk as (?&?&?&_).
  rewrite !(proj2 (String.eqb_neq _ _)) by done. cbn [orb decode]. unfold cn_of_dec, modest in *.
  destruct (dec_scale d); [|done]. unfold fits_long.
  destruct Hm as [Hl Hu]; [done|]. by rewrite (proj2 (Z.leb_le _ _) Hl), (proj2 (Z.ltb_lt _ _) Hu).
Qed.
Lemma string_ok k s : k ∉ ["booking"; "dct"; "date"] → c_string (seen k (JStr s)) = true.
Proof.
  intros Hk. unfold seen, converted. rewrite !not_elem_of_cons in Hk. destruct Hk as (?&?&?&_).
  by rewrite !(proj2 (String.eqb_neq _ _)) by done.
Qed.
Lemma date_ok d : ok_date d → c_day (seen "date" (put_date d)) = true.
Proof. intros H. unfold seen, converted, put_date. cbn. by rewrite (parse_fmt_date _ H). Qed.
Lemma merge_ok : c_bool (seen "merge" (JBool true)) = true.
Proof. done. Qed.
Lemma bool_ok b : c_bool (seen "bool" (JBool b)) = true.
Proof. done. Qed.
Lemma set_ok ord k X : k ∈ ["currencies"; "tags"; "links"] → c_strings (seen k (put_set ord X)) = true.
Proof.
  intros Hk. assert (seen k (put_set ord X) = VSet (map (decode None) (JStr <$> set_order ord X))) as ->.
  { repeat (apply elem_of_cons in Hk as [->|Hk]; [done|]). by apply elem_of_nil in Hk. }
  cbn [c_strings s_set]. unfold c_strings, s_set. apply forallb_Forall, Forall_forall. intros v Hv.
  apply elem_of_list_In, in_map_iff in Hv as (j & <- & Hj). apply elem_of_list_In, elem_of_list_fmap in Hj as (s & -> & _). done.
Qed.
Lemma booking_ok b : c_booking (seen "booking" (put_booking b)) = true.
Proof. by destruct b. Qed.

(** ** Metadata *)
Ltac pick t := first [solve [t] | left; pick t | right; pick t].
Lemma modest_seen d : modest d → c_number (VNum (cn_of_dec d)) = true.
Proof. apply (number_ok "units"). apply (bool_decide_unpack _). by vm_compute. Qed.
Lemma meta_ok key v : meta_numbers modest v → meta_dates v → c_metavalue (decode key (put_meta v)) = true.
Proof.
  intros Hn Hd. unfold c_metavalue. rewrite !orb_true_iff. destruct v as [u c|s|s|s|s|s|d|b|n|]; cbn [put_meta meta_numbers meta_dates] in *.
  2-6,8,10: pick ltac:(vm_compute; reflexivity).
  - apply modest_seen in Hn. unfold put_num. cbn [decode map]. destruct (cn_of_dec u); [|done|];
      pick ltac:(vm_compute; reflexivity).
  - assert (decode key (JObj [("date", put_date d)]) = VMap [("date", VDate d)]) as ->.
    { change (VMap [("date", to_local_date (VStr (fmt_date d)))] = VMap [("date", VDate d)]).
      unfold to_local_date. by rewrite (parse_fmt_date _ Hd). }
    pick ltac:(vm_compute; reflexivity).
  - apply modest_seen in Hn. unfold put_num. cbn [decode map]. destruct (cn_of_dec n); [|done|];
      pick ltac:(vm_compute; reflexivity).
Qed.
Section Ord.
Context (ord : hash_order) (Hord : any_order ord).
Lemma vupdate_keys (f : cval → cval) k (l : list (string * cval)) : (vupdate k f l).*1 = l.*1.
Proof. unfold vupdate. rewrite <- list_fmap_compose. apply list_fmap_ext. intros ? [a b] _. unfold compose. cbn. by case_match. Qed.
Lemma vkeys_decode key fs k : k ∈ v_keys (decode key (JObj fs)) → k ∈ fs.*1.
Proof.
  cbn [decode v_keys]. rewrite elem_of_remove_dups. unfold convert_map. rewrite !vupdate_keys.
  intros H. assert (k ∈ (map (λ '(k, v), (k, decode (Some k) v)) fs).*1) as H'.
  { repeat case_match; by rewrite ?vupdate_keys in H. }
  clear H. induction fs as [|[a b] fs IH]; [done|]. cbn in *. apply elem_of_cons in H' as [->|H]; [by left|right; auto].
Qed.
Lemma metadata_ok m : metadata_numbers modest m → metadata_dates m → c_metadata (seen "metadata" (put_metadata ord m)) = true.
Proof.
  intros Hn Hd. unfold seen, converted. cbn [String.eqb orb]. change (c_metadata (decode (Some "metadata") (put_metadata ord m)) = true).
  unfold c_metadata. rewrite andb_true_iff. split; [done|]. apply forallb_Forall, Forall_forall. intros k Hk.
  unfold put_metadata in *. apply vkeys_decode in Hk. unfold s_req. rewrite vget_decode.
  rewrite <- list_fmap_compose in Hk. apply elem_of_list_fmap in Hk as ([k' v'] & -> & Hin). unfold compose. cbn [fst].
  destruct (last (entries k' _)) as [j|] eqn:E.
  - cbn [fmap option_fmap option_map].
    assert (∃ v, j = put_meta v ∧ m !! k' = Some v) as (v & -> & Hv).
    { apply last_Some_elem_of in E. unfold entries in E. apply elem_of_list_fmap in E as ([k2 j2] & -> & E).
      apply elem_of_list_filter in E as [E2 E]. cbn in E2. subst k2.
      apply elem_of_list_fmap in E as ([k2 v2] & [= -> ->] & E). exists v2. split; [done|].
      rewrite (proj2 Hord m) in E. by apply elem_of_map_to_list in E. }
    unfold converted. destruct (_ || _) eqn:Eb.
    + destruct v; cbn; done.
    + destruct (String.eqb k' "date"); [|apply meta_ok; [by eapply Hn|by eapply Hd]].
      assert (to_local_date (decode (Some k') (put_meta v)) = decode (Some k') (put_meta v)) as -> by by destruct v.
      apply meta_ok; [by eapply Hn|by eapply Hd].
  - exfalso. apply last_None in E. unfold entries in E. apply fmap_nil_inv in E.
    assert ((k', put_meta v') ∈ filter (λ kv : string * json, kv.1 = k') ((λ kv, (kv.1, put_meta kv.2)) <$> map_order ord m)) as H.
    { apply elem_of_list_filter. split; [done|]. apply elem_of_list_fmap. by exists (k', v'). }
    rewrite E in H. by apply elem_of_nil in H.
Qed.

(** ** Parts *)
Lemma all_opt_trivial {A} (o : option A) : all_opt (λ _, True) o.
Proof. by destruct o. Qed.
Lemma entries_merge k (b : bool) : entries k (if b then [("merge", JBool true)] else []) =
  if String.eqb "merge" k then option_list ((λ _ : unit, JBool true) <$> (if b then Some () else None)) else [].
Proof.
  destruct b; [|by destruct (String.eqb _ _)]. destruct (String.eqb_spec "merge" k) as [<-|].
  - by rewrite entries_cons_eq.
  - by rewrite entries_cons_ne.
Qed.
Ltac not_special := apply (bool_decide_unpack _); by vm_compute.
Ltac field_value :=
  first [ apply string_ok; not_special | apply number_ok; [not_special|done] | by apply date_ok | apply merge_ok
        | apply set_ok; not_special | apply booking_ok ].
Ltac found := norm_entries; rewrite ?entries_merge; cbn [String.eqb Ascii.eqb Bool.eqb]; norm_entries;
  rewrite ?last_option_list, ?last_single; reflexivity.
Ltac req := eapply s_req_decode; [found|try field_value].
Ltac opt := eapply s_opt_decode; [found|first [eassumption|apply all_opt_trivial]|intros; try field_value].
Ltac keys := apply s_keys_true; repeat (apply Forall_cons_2 || apply Forall_nil_2); cbn [fst snd].
Lemma cost_spec_ok key c : cost_spec_numbers modest c → all_opt ok_date (cs_date c) → c_cost_spec (decode key (put_cost_spec c)) = true.
Proof. intros [H1 H2] Hd. unfold c_cost_spec, put_cost_spec. keys; opt. Qed.
Lemma price_spec_ok key p : price_spec_numbers modest p → c_price_spec (decode key (put_price_spec p)) = true.
Proof. intros [H1 H2]. unfold c_price_spec, put_price_spec. keys; opt. Qed.
Lemma price_ok key p : price_numbers modest p → c_price (decode key (put_price p)) = true.
Proof. intros [H1 H2]. unfold c_price, put_price. keys; first [req|opt]. Qed.
Lemma cost_ok key c : cost_numbers modest c → ok_date (c_date c) → c_cost (decode key (put_cost c)) = true.
Proof. intros [H1 H2] Hd. unfold c_cost, put_cost. keys; first [req|opt]. Qed.
Lemma all_opt_and {A} (P Q : A → Prop) o : all_opt P o → all_opt Q o → all_opt (λ x, P x ∧ Q x) o.
Proof. destruct o; [by split|done]. Qed.
Ltac opt_and H1 H2 L := eapply s_opt_decode; [found|exact (all_opt_and _ _ _ H1 H2)|intros ? [??]; by apply L].
Lemma posting_spec_ok key p :
  posting_spec_numbers modest p → all_opt (λ c, all_opt ok_date (cs_date c)) (ps_cost p) → all_opt metadata_dates (ps_metadata p) →
  c_raw_posting (decode key (put_posting_spec ord p)) = true.
Proof using Hord.
  intros (Hu & Hc & Hp & Hm) Hcd Hmd. unfold c_raw_posting, put_posting_spec. keys.
  2: { eapply s_opt_present; [found|field_value]. }
  1-3, 6, 7: opt.
  - opt_and Hc Hcd cost_spec_ok.
  - opt. by apply price_spec_ok.
  - opt_and Hm Hmd metadata_ok.
Qed.
Lemma posting_ok key p :
  posting_numbers modest p → all_opt (λ c, ok_date (c_date c)) (p_cost p) → all_opt metadata_dates (p_metadata p) →
  c_booked_posting (decode key (put_posting ord p)) = true.
Proof using Hord.
  intros (Hu & Hc & Hp & Hm) Hcd Hmd. unfold c_booked_posting, put_posting. keys.
  1-3: req.
  1, 4, 5: opt.
  - opt_and Hc Hcd cost_ok.
  - opt. by apply price_ok.
  - opt_and Hm Hmd metadata_ok.
Qed.
Lemma vec_ok {A} k (c : check) (put : A → json) l :
  k ∈ ["postings"; "values"] → Forall (λ x, c (decode None (put x)) = true) l → s_vec c (seen k (JArr (put <$> l))) = true.
Proof.
  intros Hk Hl. assert (seen k (JArr (put <$> l)) = VVec (map (decode None) (put <$> l))) as ->.
  { repeat (apply elem_of_cons in Hk as [->|Hk]; [done|]). by apply elem_of_nil in Hk. }
  cbn [s_vec]. apply forallb_Forall, Forall_forall. intros v Hv.
  apply elem_of_list_In, in_map_iff in Hv as (j & <- & Hj). apply elem_of_list_In, elem_of_list_fmap in Hj as (x & -> & Hx).
  rewrite Forall_forall in Hl. auto.
Qed.

(** ** Directives *)
Definition tolerance_with_point (o : option dec) : Prop := all_opt (λ t, dec_scale t ≠ 0) o.
Lemma tolerance_ok t : dec_scale t ≠ 0 → c_tolerance (seen "tolerance" (put_num t)) = true.
Proof. intros H. unfold seen, converted, put_num. cbn. unfold cn_of_dec. by destruct (dec_scale t). Qed.
Lemma variant_other k v : k ∈ ["span"; "date"; "tags"; "links"; "metadata"] → entries k (put_variant ord v) = [].
Proof.
  intros Hk. destruct v; cbn [put_variant]; unfold put_price_dct, put_balance, put_open, put_pad, put_custom.
  all: repeat (apply elem_of_cons in Hk as [->|Hk]; [by norm_entries|]); by apply elem_of_nil in Hk.
Qed.
Ltac base_found := norm_entries; rewrite ?variant_other, ?bvariant_other by (repeat constructor); norm_entries;
  rewrite ?last_option_list, ?last_single; reflexivity.
Theorem directive_ok d :
  directive_numbers modest d → directive_dates d → tolerance_with_point (tolerance_of (d_variant d)) →
  directive_spec false (decode None (put_directive ord d)) = true.
Proof using Hord.
  intros (Hm & Hv) (Hd & Hmd & Hvd) Ht. unfold directive_spec, put_directive. rewrite andb_true_iff. split.
  - unfold c_base. keys.
    + eapply s_req_decode; [base_found|by apply date_ok].
    + eapply s_opt_decode; [base_found|apply all_opt_trivial|intros; field_value].
    + eapply s_opt_decode; [base_found|apply all_opt_trivial|intros; field_value].
    + eapply s_opt_decode; [base_found|exact (all_opt_and _ _ _ Hm Hmd)|intros ? [??]; by apply metadata_ok].
  - clear Hm Hd Hmd. rewrite vget_decode.
    destruct (d_variant d) as [t|p|b|o|a|c|p|a p|a c|t d'|n c|c] eqn:Ev; cbn [put_variant tolerance_of] in *;
      unfold put_price_dct, put_balance, put_open, put_pad, put_custom.
    all: norm_entries; rewrite last_single; cbn [fmap option_fmap option_map].
    all: match goal with |- context [converted "dct" (decode ?y (JStr ?x))] => change (converted "dct" (decode y (JStr x))) with (VKw x) end; cbn match.
    all: match goal with |- c_variant ?b ?k ?v = true => let c := eval cbv delta [c_variant] beta iota in (c_variant b k) in change (c v = true) end.
    all: cbn beta zeta.
    + unfold c_txn. keys; [req|opt|opt|]. eapply s_opt_present; [found|]. apply vec_ok; [not_special|].
      apply Forall_forall. intros p Hp. rewrite Forall_forall in Hv, Hvd. destruct (Hvd p Hp). apply posting_spec_ok; auto.
    + keys; [req|]. req. by apply price_ok.
    + keys; [req|req|req|opt]. by apply tolerance_ok.
    + rewrite andb_true_iff. split; [keys; [req|opt|opt]|].
      cbn [forallb]. rewrite !vget_decode. norm_entries. done.
    + cbn [fmap list_fmap]. keys; req.
    + cbn [fmap list_fmap]. keys; req.
    + cbn [fmap list_fmap]. keys; req.
    + cbn [fmap list_fmap]. keys; req.
    + cbn [fmap list_fmap]. keys; req.
    + cbn [fmap list_fmap]. keys; req.
    + cbn [fmap list_fmap]. keys; req.
    + keys; req. apply vec_ok; [not_special|]. apply Forall_forall. intros v Hin. rewrite Forall_forall in Hv, Hvd. by apply meta_ok; auto.
Qed.
(** A directive from the server has no error of its own. *)
Lemma no_error d : vget "err" (decode None (put_directive ord d)) = None.
Proof using.
  unfold put_directive. rewrite vget_decode. 
  assert (entries "err" (put_variant ord (d_variant d)) = []) as E.
  { destruct (d_variant d); cbn [put_variant]; unfold put_price_dct, put_balance, put_open, put_pad, put_custom; norm_entries; try reflexivity; cbn [fmap list_fmap]; by norm_entries. }
  norm_entries. by rewrite E.
Qed.
(** A tolerance which is a whole number. *)
Theorem tolerance_not_ok d t :
  tolerance_of (d_variant d) = Some t → dec_scale t = 0 → directive_spec false (decode None (put_directive ord d)) = false.
Proof using.
  intros Ht Hs. unfold directive_spec, put_directive. rewrite andb_false_iff. right. rewrite vget_decode.
  destruct (d_variant d) as [| |b| | | | | | | | |]; try discriminate. cbn [put_variant tolerance_of] in *. unfold put_balance.
  norm_entries; rewrite last_single; cbn [fmap option_fmap option_map].
  match goal with |- context [converted "dct" (decode ?y (JStr ?x))] => change (converted "dct" (decode y (JStr x))) with (VKw x) end; cbn match.
  match goal with |- c_variant ?b ?k ?v = false => let c := eval cbv delta [c_variant] beta iota in (c_variant b k) in change (c v = false) end.
  cbn beta zeta. unfold s_keys. rewrite andb_false_iff. right. cbn [forallb fst snd]. rewrite andb_true_r.
  unfold s_opt. rewrite vget_decode. norm_entries. rewrite Ht. cbn [fmap option_fmap option_map option_list last put_num decode].
  unfold put_num. change (c_tolerance (VNum (cn_of_dec t)) = false). unfold cn_of_dec. rewrite Hs. by destruct (fits_long _).
Qed.
(** Units of a balance which are a whole number beyond 64 bits. *)
Theorem units_not_ok d b :
  d_variant d = DBalance b → ¬ modest (bal_units b) → directive_spec false (decode None (put_directive ord d)) = false.
Proof using.
  intros Hv Hm. unfold directive_spec, put_directive. rewrite andb_false_iff. right. rewrite vget_decode, Hv.
  cbn [put_variant]. unfold put_balance.
  norm_entries; rewrite last_single; cbn [fmap option_fmap option_map].
  match goal with |- context [converted "dct" (decode ?y (JStr ?x))] => change (converted "dct" (decode y (JStr x))) with (VKw x) end; cbn match.
  match goal with |- c_variant ?b ?k ?v = false => let c := eval cbv delta [c_variant] beta iota in (c_variant b k) in change (c v = false) end.
  cbn beta zeta. unfold s_keys. rewrite andb_false_iff. left. rewrite andb_false_iff. right. cbn [forallb fst snd].
  rewrite !andb_false_iff. right. left. unfold s_req. rewrite vget_decode. norm_entries. rewrite last_single.
  cbn [fmap option_fmap option_map]. unfold put_num. change (c_number (VNum (cn_of_dec (bal_units b))) = false). unfold cn_of_dec, modest in *.
  destruct (dec_scale (bal_units b)); [|exfalso; apply Hm; done].
  destruct (fits_long (dec_mant (bal_units b))) eqn:E; [|done]. exfalso. apply Hm. intros _. unfold fits_long in E.
  apply andb_true_iff in E as [E1 E2]. split; [by apply Z.leb_le in E1|by apply Z.ltb_lt in E2].
Qed.
Theorem booked_ok d :
  booked_numbers modest d → booked_dates d → tolerance_with_point (booked_tolerance (b_variant d)) →
  directive_spec true (decode None (put_bdirective ord d)) = true.
Proof using Hord.
  intros (Hm & Hv) (Hd & Hmd & Hvd) Ht. unfold directive_spec, put_bdirective. rewrite andb_true_iff. split.
  - unfold c_base. keys.
    + eapply s_req_decode; [base_found|by apply date_ok].
    + eapply s_opt_decode; [base_found|apply all_opt_trivial|intros; field_value].
    + eapply s_opt_decode; [base_found|apply all_opt_trivial|intros; field_value].
    + eapply s_opt_decode; [base_found|exact (all_opt_and _ _ _ Hm Hmd)|intros ? [??]; by apply metadata_ok].
  - clear Hm Hd Hmd. rewrite vget_decode.
    destruct (b_variant d) as [t|p|b|o|a|c|p|a p|a c|t d'|n c|c] eqn:Ev; cbn [put_bvariant booked_tolerance] in *;
      unfold put_price_dct, put_balance, put_open, put_pad, put_custom.
    all: norm_entries; rewrite last_single; cbn [fmap option_fmap option_map].
    all: match goal with |- context [converted "dct" (decode ?y (JStr ?x))] => change (converted "dct" (decode y (JStr x))) with (VKw x) end; cbn match.
    all: match goal with |- c_variant ?b ?k ?v = true => let c := eval cbv delta [c_variant] beta iota in (c_variant b k) in change (c v = true) end.
    all: cbn beta zeta.
    + unfold c_txn. keys; [req|opt|opt|]. eapply s_opt_present; [found|]. apply vec_ok; [not_special|].
      apply Forall_forall. intros p Hp. rewrite Forall_forall in Hv, Hvd. destruct (Hvd p Hp). apply posting_ok; auto.
    + keys; [req|]. req. by apply price_ok.
    + keys; [req|req|req|opt]. by apply tolerance_ok.
    + rewrite andb_true_iff. split; [keys; [req|opt|opt]|].
      cbn [forallb]. rewrite !vget_decode. norm_entries. done.
    + cbn [fmap list_fmap]. keys; req.
    + cbn [fmap list_fmap]. keys; req.
    + cbn [fmap list_fmap]. keys; req.
    + cbn [fmap list_fmap]. keys; req.
    + cbn [fmap list_fmap]. keys; req.
    + cbn [fmap list_fmap]. keys; req.
    + cbn [fmap list_fmap]. keys; req.
    + keys; req. apply vec_ok; [not_special|]. apply Forall_forall. intros v Hin. rewrite Forall_forall in Hv, Hvd. by apply meta_ok; auto.
Qed.
End Ord.
