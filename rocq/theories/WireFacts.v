(** The readers accept exactly the wire format, and the writers produce it. *)
From Coq Require Import Ascii.
From stdpp Require Import prelude gmap strings.
From Verif Require Import DecModel LedgerTypes IsoModel IsoFacts JsonModel WireModel WireSpec.

(** ** Fields *)

Lemma entries_app {A} k (a b : list (string * A)) : entries k (a ++ b) = entries k a ++ entries k b.
Proof. unfold entries. by rewrite filter_app, fmap_app. Qed.
Lemma entries_nil {A} k : entries k (@nil (string * A)) = [].
Proof. done. Qed.
Lemma entries_cons_eq {A} k v (l : list (string * A)) : entries k ((k, v) :: l) = v :: entries k l.
Proof. unfold entries. by rewrite filter_cons_True. Qed.
Lemma entries_cons_ne {A} k k' v (l : list (string * A)) : k' ≠ k → entries k ((k', v) :: l) = entries k l.
Proof. intros. unfold entries. by rewrite filter_cons_False. Qed.
Lemma entries_put_eq {A} k (e : A → json) o : entries k (put_opt k e o) = option_list (e <$> o).
Proof. destruct o; [|done]. unfold put_opt. by rewrite entries_cons_eq. Qed.
Lemma entries_put_ne {A} k k' (e : A → json) o : k' ≠ k → entries k (put_opt k' e o) = [].
Proof. intros. destruct o; [|done]. unfold put_opt. by rewrite entries_cons_ne. Qed.
Lemma entries_filter {A} (P : string → bool) k (l : list (string * A)) : P k = false →
  entries k (filter (λ kv, P kv.1 = false) l) = entries k l.
Proof.
  intros Hk. unfold entries. rewrite list_filter_filter. f_equal. apply list_filter_iff.
  intros [k' v]; cbn. split; [by intros [-> _]|by intros ->].
Qed.
Lemma entries_spec {A} k (l : list (string * A)) v : v ∈ entries k l ↔ (k, v) ∈ l.
Proof.
  unfold entries. rewrite elem_of_list_fmap. split.
  - intros ([k' v'] & -> & [H1 H2]%elem_of_list_filter). cbn in *. by subst.
  - intros H. exists (k, v). split; [done|]. by apply elem_of_list_filter.
Qed.

Lemma get_req_iff {A} dec (R : json → A → Prop) k fs x :
  (∀ j y, dec j = Some y ↔ R j y) → get_req dec k fs = Some x ↔ has R k fs x.
Proof.
  intros HR. unfold get_req, has. destruct (entries k fs) as [|v [|? ?]].
  - split; [done|]. by intros (? & ? & _).
  - rewrite HR. split; [eauto|]. by intros (? & [= ->] & ?).
  - split; [done|]. by intros (? & ? & _).
Qed.

Lemma json_null_dec (v : json) : {v = JNull} + {v ≠ JNull}.
Proof. destruct v; ((left; reflexivity) || (right; discriminate)). Qed.

Lemma get_opt_iff {A} dec (R : json → A → Prop) k fs o :
  (∀ j y, dec j = Some y ↔ R j y) → get_opt dec k fs = Some o ↔ has_opt R k fs o.
Proof.
  intros HR. unfold get_opt, has_opt. destruct (entries k fs) as [|v [|v' l]].
  - destruct o; split; try done; [by intros (? & ? & _)|by left].
  - assert (Some <$> dec v = Some o ↔ ∃ x, o = Some x ∧ R v x) as Hv.
    { rewrite fmap_Some. split; intros (x & H1 & H2); exists x.
      - rewrite HR in H1. by split.
      - by rewrite HR. }
    destruct (json_null_dec v) as [->|Hn].
    + destruct o; split; try done; [by intros (? & [= <-] & ? & _)|by right].
    + transitivity (Some <$> dec v = Some o); [destruct v; done|]. rewrite Hv.
      destruct o; split.
      * intros (y & [= <-] & ?). eauto.
      * intros (y & [= <-] & ? & ?). eauto.
      * by intros (? & ? & _).
      * by intros [?|[= ->]].
  - destruct v; (split; [done|]); destruct o; try (by intros (? & ? & _)); by intros [?|?].
Qed.

Lemma get_default_iff {A} dec (R : json → A → Prop) dflt k fs x :
  (∀ j y, dec j = Some y ↔ R j y) →
  get_default dec dflt k fs = Some x ↔ has R k fs x ∨ entries k fs = [] ∧ x = dflt.
Proof.
  intros HR. unfold get_default, has. destruct (entries k fs) as [|v [|? ?]].
  - split; [intros [= <-]; by right|]. by intros [(? & ? & _)|[_ ->]].
  - rewrite HR. split; [eauto|]. intros [(? & [= ->] & ?)|[? _]]; done.
  - split; [done|]. by intros [(? & ? & _)|[? _]].
Qed.

(** ** Scalars *)

Lemma as_owned_iff j s : as_owned j = Some s ↔ text_json j s.
Proof. unfold text_json. destruct j; cbn; try done. split; congruence. Qed.
Lemma as_borrowed_iff j s : as_borrowed j = Some s ↔ name_json j s.
Proof.
  unfold name_json, as_borrowed. destruct j; try (by split; [|intros []]).
  destruct (plain s0) eqn:E; split; try done.
  - intros [= <-]. done.
  - by intros [[= ->] ?].
  - intros [[= ->] ?]. congruence.
Qed.
Lemma as_bool_iff j b : as_bool j = Some b ↔ bool_json j b.
Proof. unfold bool_json. destruct j; cbn; try done. split; congruence. Qed.
Lemma as_nat_iff j n : as_nat j = Some n ↔ nat_json j n.
Proof.
  unfold nat_json, as_nat. destruct j as [| |[m [|e]]| | |]; try done.
  destruct (0 <=? m)%Z eqn:E; split.
  - apply Z.leb_le in E. intros [= <-]. by rewrite Z2Nat.id.
  - intros [= ->]. by rewrite Nat2Z.id.
  - done.
  - intros [= ->]. apply Z.leb_gt in E. lia.
Qed.
Lemma get_date_iff j d : get_date j = Some d ↔ date_json j d.
Proof.
  unfold date_json, get_date. split.
  - destruct j; try done. intros H. exists s. split; [done|]. split; [by eapply parse_date_valid|]. by apply parse_date_text.
  - intros (s & -> & Hv & Hs). pose proof (parse_fmt_date _ Hv) as Hp.
    destruct Hs as [->|[[-> Hy]|[-> Hy]]]; [done| |].
    + revert Hp. unfold fmt_date. destruct (date_year d <? 0)%Z eqn:E; [apply Z.ltb_lt in E; lia|].
      change ("" +:+ ?s) with s. cbn [String.append]. intros Hp.
      destruct (valid_date_spec d) as [Hd _]. specialize (Hd Hv) as (Hd & _).
      destruct (digits4 (Z.abs (date_year d)) ltac:(lia)) as (H1 & _). destruct (digit_not_sign _ H1) as [Hs1 Hs2].
      unfold parse_date in Hp. rewrite Hs1, Hs2 in Hp. exact Hp.
    + revert Hp. unfold fmt_date. rewrite Hy. change (0 <? 0)%Z with false.
      destruct d as [y m k]; cbn [date_year date_month date_day] in *. subst y.
      intros Hp. exact Hp.
Qed.
Lemma get_span_iff j s : get_span j = Some s ↔ span_json j s.
Proof.
  unfold span_json, get_span. split.
  - destruct j as [| | | |[|a [|b [|c [|? ?]]]]|]; try done. intros H.
    apply bind_Some in H as (x & Hx%as_nat_iff & H). apply bind_Some in H as (y & Hy%as_nat_iff & H).
    apply bind_Some in H as (z & Hz%as_nat_iff & H). injection H as <-. by exists a, b, c.
  - intros (a & b & c & -> & Ha%as_nat_iff & Hb%as_nat_iff & Hc%as_nat_iff). rewrite Ha, Hb, Hc. by destruct s.
Qed.
Lemma get_booking_iff j b : get_booking j = Some b ↔ booking_json j b.
Proof.
  unfold booking_json, get_booking. split.
  - destruct j; try done. repeat match goal with |- context [String.eqb s ?k] =>
      let E := fresh "E" in destruct (String.eqb s k) eqn:E; [apply String.eqb_eq in E; intros [= <-]; by subst|clear E] end.
    done.
  - intros ->. by destruct b.
Qed.

(** ** Collections *)

Lemma as_list_iff {A} dec (R : json → A → Prop) j l :
  (∀ j y, dec j = Some y ↔ R j y) → as_list dec j = Some l ↔ list_json R j l.
Proof.
  intros HR. unfold as_list, list_json. split.
  - destruct j; try done. intros H. exists l0. split; [done|]. apply mapM_Some in H.
    eapply Forall2_impl; [done|]. intros; by apply HR.
  - intros (js & -> & H). apply mapM_Some. eapply Forall2_impl; [done|]. intros; by apply HR.
Qed.
Lemma as_set_iff j X : as_set j = Some X ↔ set_json j X.
Proof.
  unfold as_set, set_json, list_json. split.
  - destruct j as [| | | |js|]; try done. intros (l & Hl & ->)%fmap_Some. exists l. split.
    + exists js. split; [done|]. apply mapM_Some in Hl. eapply Forall2_impl; [done|]. intros; by apply as_borrowed_iff.
    + intros s. by rewrite elem_of_list_to_set.
  - intros (l & (js & -> & Hl) & HX). apply fmap_Some. exists l. split.
    + apply mapM_Some. eapply Forall2_impl; [done|]. intros; by apply as_borrowed_iff.
    + apply set_eq. intros s. by rewrite elem_of_list_to_set.
Qed.

Lemma list_to_map_entries {A} (kvs : list (string * A)) k :
  (list_to_map (reverse kvs) : gmap string A) !! k = last (entries k kvs).
Proof.
  induction kvs as [|[k' v] kvs IH] using rev_ind; [done|].
  rewrite reverse_app, entries_app. change (reverse [(k', v)]) with [(k', v)]. cbn [app].
  rewrite list_to_map_cons. destruct (decide (k' = k)) as [->|Hn].
  - rewrite lookup_insert, entries_cons_eq, entries_nil. by rewrite last_snoc.
  - rewrite lookup_insert_ne, entries_cons_ne, entries_nil by done. by rewrite app_nil_r.
Qed.

Lemma as_map_iff {A} dec (R : json → A → Prop) j m :
  (∀ j y, dec j = Some y ↔ R j y) → as_map dec j = Some m ↔ map_json R j m.
Proof.
  intros HR. unfold as_map, map_json.
  assert (∀ (kv : string * json) (kx : string * A),
    (if plain kv.1 then (λ x, (kv.1, x)) <$> dec kv.2 else None) = Some kx ↔
    kv.1 = kx.1 ∧ plain kv.1 = true ∧ R kv.2 kx.2) as Hkv.
  { intros [k v] [k' x]; cbn. destruct (plain k); [|by split; [|intros (_ & ? & _)]]. rewrite fmap_Some. split.
    - by intros (y & Hy%HR & [= <- <-]).
    - intros (-> & _ & Hx%HR). eauto. }
  split.
  - destruct j as [| | | | |fs]; try done. intros (kvs & Hl & ->)%fmap_Some. exists fs, kvs. split; [done|]. split.
    + apply mapM_Some in Hl. eapply Forall2_impl; [done|]. intros ? ? H. by apply Hkv.
    + intros k. apply list_to_map_entries.
  - intros (fs & kvs & -> & Hl & Hm). apply fmap_Some. exists kvs. split.
    + apply mapM_Some. eapply Forall2_impl; [done|]. intros ? ? H. by apply Hkv.
    + apply map_eq. intros k. by rewrite list_to_map_entries.
Qed.

Section Read.
Context (dec_parse : string → option dec).

Lemma get_num_iff j d : get_num dec_parse j = Some d ↔ num_json dec_parse j d.
Proof.
  unfold get_num, num_json. split.
  - destruct j; try done; [intros [= <-]; by left|]. intros H. right. eauto.
  - by intros [->|(s & -> & ?)].
Qed.

Lemma get_meta_iff j v : get_meta dec_parse j = Some v ↔ meta_json dec_parse j v.
Proof.
  split.
  - unfold get_meta. destruct j as [| | | | |[|[k x] rest]]; try done; [by intros [= <-]|].
    destruct (String.eqb k "units") eqn:E1; [apply String.eqb_eq in E1 as ->|].
    2: destruct (String.eqb k "cur") eqn:E2; [apply String.eqb_eq in E2 as ->|].
    3: destruct (String.eqb k "string") eqn:E3; [apply String.eqb_eq in E3 as ->|].
    4: destruct (String.eqb k "acc") eqn:E4; [apply String.eqb_eq in E4 as ->|].
    5: destruct (String.eqb k "tag") eqn:E5; [apply String.eqb_eq in E5 as ->|].
    6: destruct (String.eqb k "link") eqn:E6; [apply String.eqb_eq in E6 as ->|].
    7: destruct (String.eqb k "date") eqn:E7; [apply String.eqb_eq in E7 as ->|].
    8: destruct (String.eqb k "bool") eqn:E8; [apply String.eqb_eq in E8 as ->|].
    9: destruct (String.eqb k "number") eqn:E9; [apply String.eqb_eq in E9 as ->|].
    + intros (u & Hu%get_num_iff & H)%bind_Some. destruct rest as [|[k' x'] [|? ?]]; try done.
      destruct (String.eqb k' "cur") eqn:E'; [apply String.eqb_eq in E' as ->|done].
      apply fmap_Some in H as (c & Hc%as_borrowed_iff & ->). cbn. eauto 10.
    + intros (c & Hc%as_borrowed_iff & H)%bind_Some. destruct rest as [|[k' x'] [|? ?]]; try done.
      * injection H as <-. cbn. eauto.
      * destruct (String.eqb k' "units") eqn:E'; [apply String.eqb_eq in E' as ->|done].
        apply fmap_Some in H as (u & Hu%get_num_iff & ->). cbn. eauto 10.
    + destruct rest; [|done]. intros (s & Hs%as_owned_iff & ->)%fmap_Some. cbn. eauto.
    + destruct rest; [|done]. intros (s & Hs%as_borrowed_iff & ->)%fmap_Some. cbn. eauto.
    + destruct rest; [|done]. intros (s & Hs%as_borrowed_iff & ->)%fmap_Some. cbn. eauto.
    + destruct rest; [|done]. intros (s & Hs%as_borrowed_iff & ->)%fmap_Some. cbn. eauto.
    + destruct rest; [|done]. intros (s & Hs%get_date_iff & ->)%fmap_Some. cbn. eauto.
    + destruct rest; [|done]. intros (s & Hs%as_bool_iff & ->)%fmap_Some. cbn. eauto.
    + destruct rest; [|done]. intros (s & Hs%get_num_iff & ->)%fmap_Some. cbn. eauto.
    + by destruct rest.
  - destruct v as [u c|s|s|s|s|s|d|b|n|]; cbn [meta_json].
    + intros (ju & jc & Hu%get_num_iff & Hc%as_borrowed_iff & [->| ->]);
        cbn [get_meta]; cbn [String.eqb Ascii.eqb Bool.eqb]; rewrite Hu, Hc; done.
    + intros (x & -> & H%as_owned_iff). cbn [get_meta]; cbn [String.eqb Ascii.eqb Bool.eqb]. by rewrite H.
    + intros (x & -> & H%as_borrowed_iff). cbn [get_meta]; cbn [String.eqb Ascii.eqb Bool.eqb]. by rewrite H.
    + intros (x & -> & H%as_borrowed_iff). cbn [get_meta]; cbn [String.eqb Ascii.eqb Bool.eqb]. by rewrite H.
    + intros (x & -> & H%as_borrowed_iff). cbn [get_meta]; cbn [String.eqb Ascii.eqb Bool.eqb]. by rewrite H.
    + intros (x & -> & H%as_borrowed_iff). cbn [get_meta]; cbn [String.eqb Ascii.eqb Bool.eqb]. by rewrite H.
    + intros (x & -> & H%get_date_iff). cbn [get_meta]; cbn [String.eqb Ascii.eqb Bool.eqb]. by rewrite H.
    + intros (x & -> & H%as_bool_iff). cbn [get_meta]; cbn [String.eqb Ascii.eqb Bool.eqb]. by rewrite H.
    + intros (x & -> & H%get_num_iff). cbn [get_meta]; cbn [String.eqb Ascii.eqb Bool.eqb]. by rewrite H.
    + by intros ->.
Qed.

(** ** Structs *)

Lemma as_obj_Some {A} (f : fields → option A) j x : as_obj f j = Some x ↔ ∃ fs, j = JObj fs ∧ f fs = Some x.
Proof.
  destruct j; cbn; try (split; [done|by intros (? & ? & _)]).
  split; [eauto|]. by intros (? & [= <-] & ?).
Qed.

Local Ltac leaf :=
  first [ apply as_owned_iff | apply as_borrowed_iff | apply as_bool_iff | apply get_num_iff
        | apply get_date_iff | apply get_span_iff | apply get_booking_iff | apply as_set_iff
        | apply as_map_iff; apply get_meta_iff | apply as_list_iff; apply get_meta_iff | done ].
Local Ltac field :=
  first [ eapply get_opt_iff | eapply get_req_iff | eapply get_default_iff ]; [intros ? ?; leaf|].
Local Ltac read_fwd H :=
  repeat match type of H with
  | mbind _ (get_opt ?d ?k ?fs) = Some _ =>
      let x := fresh "x" in let Hx := fresh "Hx" in
      apply bind_Some in H as (x & Hx & H); eapply get_opt_iff in Hx; [|intros ? ?; leaf]
  | mbind _ (get_req ?d ?k ?fs) = Some _ =>
      let x := fresh "x" in let Hx := fresh "Hx" in
      apply bind_Some in H as (x & Hx & H); eapply get_req_iff in Hx; [|intros ? ?; leaf]
  | mbind _ (get_default ?d ?e ?k ?fs) = Some _ =>
      let x := fresh "x" in let Hx := fresh "Hx" in
      apply bind_Some in H as (x & Hx & H); eapply get_default_iff in Hx; [|intros ? ?; leaf]
  end; injection H; intros; subst; clear H.
Local Ltac read_bwd :=
  repeat (apply bind_Some; eexists; split; [field; eassumption|]); reflexivity.

Lemma get_cost_spec_iff j c : get_cost_spec dec_parse j = Some c ↔ cost_spec_json dec_parse j c.
Proof.
  unfold get_cost_spec, cost_spec_json. rewrite as_obj_Some. destruct c as [pu t cu d l m]; cbn [cs_per_unit cs_total cs_cur cs_date cs_label cs_merge].
  split; intros (fs & -> & H); exists fs; (split; [done|]).
  - read_fwd H. split_and!; done.
  - destruct H as (H1 & H2 & H3 & H4 & H5 & H6). read_bwd.
Qed.
Lemma get_price_spec_iff j c : get_price_spec dec_parse j = Some c ↔ price_spec_json dec_parse j c.
Proof.
  unfold get_price_spec, price_spec_json. rewrite as_obj_Some. destruct c as [pu t cu]; cbn.
  split; intros (fs & -> & H); exists fs; (split; [done|]).
  - read_fwd H. split_and!; done.
  - destruct H as (H1 & H2 & H3). read_bwd.
Qed.
Lemma get_price_iff j c : get_price dec_parse j = Some c ↔ price_json dec_parse j c.
Proof.
  unfold get_price, price_json. rewrite as_obj_Some. destruct c as [pu t cu]; cbn.
  split; intros (fs & -> & H); exists fs; (split; [done|]).
  - read_fwd H. split_and!; done.
  - destruct H as (H1 & H2 & H3). read_bwd.
Qed.

Local Ltac leaf ::=
  first [ apply as_owned_iff | apply as_borrowed_iff | apply as_bool_iff | apply get_num_iff
        | apply get_date_iff | apply get_span_iff | apply get_booking_iff | apply as_set_iff
        | apply as_map_iff; apply get_meta_iff | apply as_list_iff; apply get_meta_iff
        | apply get_cost_spec_iff | apply get_price_spec_iff | apply get_price_iff | done ].

Lemma get_posting_iff j p : get_posting_spec dec_parse j = Some p ↔ posting_json dec_parse j p.
Proof.
  unfold get_posting_spec, posting_json. rewrite as_obj_Some. destruct p as [s f a u c co pr ta li me]; cbn [ps_span ps_flag ps_acc ps_units ps_cur ps_cost ps_price ps_tags ps_links ps_metadata].
  split; intros (fs & -> & H); exists fs; (split; [done|]).
  - read_fwd H. split_and!; done.
  - destruct H as (H1 & H2 & H3 & H4 & H5 & H6 & H7 & H8 & H9 & H10). read_bwd.
Qed.

Local Ltac leaf ::=
  first [ apply as_owned_iff | apply as_borrowed_iff | apply as_bool_iff | apply get_num_iff
        | apply get_date_iff | apply get_span_iff | apply get_booking_iff | apply as_set_iff
        | apply as_map_iff; apply get_meta_iff | apply as_list_iff; apply get_meta_iff
        | apply as_list_iff; apply get_posting_iff
        | apply get_cost_spec_iff | apply get_price_spec_iff | apply get_price_iff | done ].

Local Ltac tag_cases H :=
  repeat match type of H with
  | context [String.eqb ?k ?s] =>
      let E := fresh "E" in destruct (String.eqb k s) eqn:E; [apply String.eqb_eq in E as ->|]
  end.

Lemma get_variant_iff fs v : get_variant dec_parse fs = Some v ↔ variant_json dec_parse fs v.
Proof.
  unfold get_variant. split.
  - intros H. apply bind_Some in H as (tag & Ht & H).
    eapply get_req_iff in Ht; [|intros ? ?; apply as_owned_iff].
    repeat match type of H with
    | (if String.eqb ?k ?s then _ else _) = _ =>
        let E := fresh "E" in destruct (String.eqb k s) eqn:E; [apply String.eqb_eq in E as ->|]
    end; try done;
    try (apply fmap_Some in H as (y & H & ->); cbn [variant_json]; split; [done|]);
    unfold get_transaction, get_price_dct, get_balance, get_open, get_pad, get_custom in H;
    try (read_fwd H; cbn [variant_json tx_flag tx_payee tx_narration tx_postings pd_cur pd_price bal_acc bal_units
            bal_cur bal_tolerance op_acc op_currencies op_booking pad_acc pad_source cu_type cu_values];
         split_and!; done);
    try (eapply get_req_iff in H; [exact H|intros ? ?; leaf]).
  - assert (∀ k, has text_json "dct" fs k → get_req as_owned "dct" fs = Some k) as Ht.
    { intros k H. eapply get_req_iff; [intros ? ?; apply as_owned_iff|done]. }
    destruct v as [t|p|b|o|a|c|p|a p|a c|t d|n c|c]; cbn [variant_json].
    + intros (H%Ht & H1 & H2 & H3 & H4). rewrite H. cbn [mbind option_bind String.eqb Ascii.eqb Bool.eqb].
      destruct t as [f p n ps]. apply fmap_Some. eexists. split; [|reflexivity]. unfold get_transaction. read_bwd.
    + intros (H%Ht & H1 & H2). rewrite H. cbn [mbind option_bind String.eqb Ascii.eqb Bool.eqb].
      destruct p. apply fmap_Some. eexists. split; [|reflexivity]. unfold get_price_dct. read_bwd.
    + intros (H%Ht & H1 & H2 & H3 & H4). rewrite H. cbn [mbind option_bind String.eqb Ascii.eqb Bool.eqb].
      destruct b. apply fmap_Some. eexists. split; [|reflexivity]. unfold get_balance. read_bwd.
    + intros (H%Ht & H1 & H2 & H3). rewrite H. cbn [mbind option_bind String.eqb Ascii.eqb Bool.eqb].
      destruct o. apply fmap_Some. eexists. split; [|reflexivity]. unfold get_open. read_bwd.
    + intros (H%Ht & H1). rewrite H. cbn [mbind option_bind String.eqb Ascii.eqb Bool.eqb].
      apply fmap_Some. eexists. split; [field; eassumption|reflexivity].
    + intros (H%Ht & H1). rewrite H. cbn [mbind option_bind String.eqb Ascii.eqb Bool.eqb].
      apply fmap_Some. eexists. split; [field; eassumption|reflexivity].
    + intros (H%Ht & H1 & H2). rewrite H. cbn [mbind option_bind String.eqb Ascii.eqb Bool.eqb].
      destruct p. apply fmap_Some. eexists. split; [|reflexivity]. unfold get_pad. read_bwd.
    + intros (H%Ht & H1 & H2). rewrite H. cbn [mbind option_bind String.eqb Ascii.eqb Bool.eqb]. read_bwd.
    + intros (H%Ht & H1 & H2). rewrite H. cbn [mbind option_bind String.eqb Ascii.eqb Bool.eqb]. read_bwd.
    + intros (H%Ht & H1 & H2). rewrite H. cbn [mbind option_bind String.eqb Ascii.eqb Bool.eqb]. read_bwd.
    + intros (H%Ht & H1 & H2). rewrite H. cbn [mbind option_bind String.eqb Ascii.eqb Bool.eqb]. read_bwd.
    + intros (H%Ht & H1 & H2). rewrite H. cbn [mbind option_bind String.eqb Ascii.eqb Bool.eqb].
      destruct c. apply fmap_Some. eexists. split; [|reflexivity]. unfold get_custom. read_bwd.
Qed.

(** The variant's fields are none of the directive's own. *)
Lemma variant_json_rest fs v :
  variant_json dec_parse (filter (λ kv, own_field kv.1 = false) fs) v ↔ variant_json dec_parse fs v.
Proof.
  destruct v; cbn [variant_json]; unfold has, has_opt;
    repeat match goal with |- context [entries ?k (filter _ fs)] =>
      rewrite (entries_filter own_field k fs) by reflexivity end; done.
Qed.

Lemma get_directive_iff j d : get_directive dec_parse j = Some d ↔ directive_json dec_parse j d.
Proof.
  unfold get_directive, directive_json. rewrite as_obj_Some. destruct d as [s da ta li me v]; cbn [d_span d_date d_tags d_links d_metadata d_variant].
  split; intros (fs & -> & H); exists fs; (split; [done|]).
  - do 5 (let x := fresh "x" in let Hx := fresh "Hx" in apply bind_Some in H as (x & Hx & H)).
    apply bind_Some in H as (y & Hy & H). injection H; intros; subst; clear H.
    apply get_variant_iff in Hy. apply (proj1 (variant_json_rest _ _)) in Hy.
    eapply get_opt_iff in Hx; [|intros ? ?; leaf]. eapply get_req_iff in Hx0; [|intros ? ?; leaf].
    eapply get_opt_iff in Hx1; [|intros ? ?; leaf]. eapply get_opt_iff in Hx2; [|intros ? ?; leaf].
    eapply get_opt_iff in Hx3; [|intros ? ?; leaf].
    split; [exact Hx|]. split; [exact Hx0|]. split; [exact Hx1|]. split; [exact Hx2|]. split; [exact Hx3|exact Hy].
  - destruct H as (H1 & H2 & H3 & H4 & H5 & H6).
    do 5 (apply bind_Some; eexists; split; [field; eassumption|]).
    apply bind_Some. eexists. split; [|reflexivity]. apply get_variant_iff. by apply variant_json_rest.
Qed.

End Read.

(** ** Writing *)

Definition any_order (ord : hash_order) : Prop :=
  (∀ X, set_order ord X ≡ₚ elements X) ∧ (∀ m, map_order ord m ≡ₚ map_to_list m).

Section Write.
Context (dec_parse : string → option dec) (ord : hash_order) (Hord : any_order ord).

Lemma put_num_json d : num_json dec_parse (put_num d) d.
Proof. by left. Qed.
Lemma put_date_json d : ok_date d → date_json (put_date d) d.
Proof. intros H. exists (fmt_date d). auto. Qed.
Lemma put_span_json s : span_json (put_span s) s.
Proof. by eexists _, _, _. Qed.
Lemma put_booking_json b : booking_json (put_booking b) b.
Proof. by destruct b. Qed.
Lemma put_set_json X : ok_set X → set_json (put_set ord X) X.
Proof.
  intros HX. destruct Hord as [Hs _]. exists (set_order ord X). split.
  - eexists. split; [done|]. apply Forall2_fmap_l, Forall_Forall2_diag, Forall_forall.
    intros s Hin. split; [done|]. apply HX. by rewrite (Hs X), elem_of_elements in Hin.
  - intros s. by rewrite (Hs X), elem_of_elements.
Qed.
Lemma put_meta_json v : ok_meta v → meta_json dec_parse (put_meta v) v.
Proof.
  destruct v; cbn; intros H; try done.
  1: eexists _, _; split; [apply put_num_json|]; split; [by split|by left].
  all: eexists; split; [reflexivity|]; try done; try (by split).
  - by apply put_date_json.
  - by left.
Qed.
Lemma entries_NoDup {A} (l : list (string * A)) k :
  NoDup l.*1 → length (entries k l) ≤ 1.
Proof.
  unfold entries. induction l as [|[k' v] l IH]; [cbn; lia|]. rewrite fmap_cons. intros [Hn Hd]%NoDup_cons.
  destruct (decide (k' = k)) as [->|Hne].
  - rewrite filter_cons_True by done. cbn. apply le_n_S.
    assert (filter (λ kv, kv.1 = k) l = []) as ->; [|done].
    destruct (filter (λ kv, kv.1 = k) l) as [|x xs] eqn:E; [done|].
    assert (x ∈ filter (λ kv, kv.1 = k) l) as [Hx Hin]%elem_of_list_filter by (rewrite E; left).
    destruct Hn. apply elem_of_list_fmap. by exists x.
  - rewrite filter_cons_False by done. auto.
Qed.
Lemma put_metadata_json m : ok_metadata m → map_json (meta_json dec_parse) (put_metadata ord m) m.
Proof.
  intros Hm. destruct Hord as [_ Ho]. eexists _, (map_order ord m). split; [reflexivity|]. split.
  - apply Forall2_fmap_l, Forall_Forall2_diag, Forall_forall. intros [k v] Hin. cbn.
    rewrite (Ho m), elem_of_map_to_list in Hin. destruct (Hm _ _ Hin). split_and!; [done..|]. by apply put_meta_json.
  - intros k. destruct (m !! k) as [v|] eqn:E.
    + assert (v ∈ entries k (map_order ord m)) as Hin.
      { apply entries_spec. by rewrite (Ho m), elem_of_map_to_list. }
      pose proof (entries_NoDup (map_order ord m) k) as Hl.
      rewrite (Ho m) in Hl at 1. specialize (Hl (NoDup_fst_map_to_list m)).
      destruct (entries k (map_order ord m)) as [|a [|b l]]; [by apply elem_of_nil in Hin| |cbn in Hl; lia].
      by apply elem_of_list_singleton in Hin as ->.
    + destruct (entries k (map_order ord m)) as [|a l] eqn:El; [done|].
      assert (a ∈ entries k (map_order ord m)) as Hin by (rewrite El; left).
      apply entries_spec in Hin. rewrite (Ho m), elem_of_map_to_list in Hin. congruence.
Qed.

Lemma has_entries {A} (R : json → A → Prop) k fs v x : entries k fs = [v] → R v x → has R k fs x.
Proof. unfold has. eauto. Qed.
Lemma has_opt_entries {A} (R : json → A → Prop) (enc : A → json) (P : A → Prop) k fs o :
  entries k fs = option_list (enc <$> o) → all_opt P o → (∀ x, enc x ≠ JNull) → (∀ x, P x → R (enc x) x) →
  has_opt R k fs o.
Proof. intros He HP Hn HR. destruct o as [x|]; cbn in *; [|by left]. eexists. split; [done|]. auto. Qed.

Local Ltac norm_entries :=
  repeat first
    [ rewrite entries_app
    | rewrite entries_cons_eq
    | rewrite entries_cons_ne by (intros ?; discriminate)
    | rewrite entries_put_eq
    | rewrite entries_put_ne by (intros ?; discriminate)
    | rewrite entries_nil
    | rewrite app_nil_r
    | rewrite app_nil_l ].
Local Ltac side := try (intros ?; first [discriminate | apply put_num_json | apply put_span_json
  | apply put_booking_json | done]).

Lemma all_opt_any {A} (o : option A) : all_opt (λ _, True) o.
Proof. by destruct o. Qed.

Local Ltac opt_any := eapply (has_opt_entries _ _ (λ _, True)); [norm_entries; reflexivity|apply all_opt_any|done|].
Local Ltac opt_ok H := eapply has_opt_entries; [norm_entries; reflexivity|exact H|done|].
Local Ltac req := eapply has_entries; [norm_entries; reflexivity|].

Lemma put_cost_spec_json c : ok_cost_spec c → cost_spec_json dec_parse (put_cost_spec c) c.
Proof.
  intros [Hc Hd]. eexists. split; [reflexivity|].
  assert (∀ k, k ≠ "merge" → entries k (if cs_merge c then [("merge", JBool true)] else []) = []) as Hm.
  { intros k Hk. destruct (cs_merge c); [|done]. by rewrite entries_cons_ne. }
  split_and!.
  - eapply (has_opt_entries _ _ (λ _, True)); [norm_entries; rewrite Hm by discriminate; norm_entries; reflexivity
      |apply all_opt_any|done|]. intros; apply put_num_json.
  - eapply (has_opt_entries _ _ (λ _, True)); [norm_entries; rewrite Hm by discriminate; norm_entries; reflexivity
      |apply all_opt_any|done|]. intros; apply put_num_json.
  - eapply has_opt_entries; [norm_entries; rewrite Hm by discriminate; norm_entries; reflexivity|exact Hc|done|].
    intros x Hx. by split.
  - eapply has_opt_entries; [norm_entries; rewrite Hm by discriminate; norm_entries; reflexivity|exact Hd|done|].
    intros x Hx. by apply put_date_json.
  - eapply (has_opt_entries _ _ (λ _, True)); [norm_entries; rewrite Hm by discriminate; norm_entries; reflexivity
      |apply all_opt_any|done|]. done.
  - destruct (cs_merge c); norm_entries; [left|by right]. eexists. split; [norm_entries; reflexivity|done].
Qed.

Lemma put_price_spec_json p : all_opt ok_name (prs_cur p) → price_spec_json dec_parse (put_price_spec p) p.
Proof.
  intros Hc. eexists. split; [reflexivity|]. split_and!.
  - opt_any. intros; apply put_num_json.
  - opt_any. intros; apply put_num_json.
  - opt_ok Hc. intros x Hx. by split.
Qed.

Lemma put_price_json p : ok_name (pr_cur p) → price_json dec_parse (put_price p) p.
Proof.
  intros Hc. eexists. split; [reflexivity|]. split_and!.
  - req. apply put_num_json.
  - opt_any. intros; apply put_num_json.
  - req. by split.
Qed.

Lemma put_posting_json p : ok_posting_spec p → posting_json dec_parse (put_posting_spec ord p) p.
Proof.
  intros (H1 & H2 & H3 & H4 & H5 & H6 & H7). eexists. split; [reflexivity|]. split_and!.
  - opt_any. intros; apply put_span_json.
  - opt_any. done.
  - req. by split.
  - opt_any. intros; apply put_num_json.
  - opt_ok H2. intros x Hx. by split.
  - opt_ok H3. apply put_cost_spec_json.
  - opt_ok H4. apply put_price_spec_json.
  - opt_ok H5. apply put_set_json.
  - opt_ok H6. apply put_set_json.
  - opt_ok H7. apply put_metadata_json.
Qed.

Lemma put_list_json {A} (R : json → A → Prop) (enc : A → json) l :
  (∀ x, x ∈ l → R (enc x) x) → list_json R (JArr (enc <$> l)) l.
Proof.
  intros H. eexists. split; [reflexivity|]. apply Forall2_fmap_l, Forall_Forall2_diag, Forall_forall. done.
Qed.

Lemma put_variant_json v : ok_variant v → variant_json dec_parse (put_variant ord v) v.
Proof.
  destruct v as [t|p|b|o|a|c|p|a p|a c|t d|n c|c]; cbn [ok_variant]; intros Hv; cbn [variant_json];
    unfold put_variant, put_price_dct, put_balance, put_open, put_pad, put_custom;
    (split; [req; done|]).
  - split_and!; [req; done|opt_any; done|opt_any; done|]. req. apply put_list_json. intros p Hp.
    by apply put_posting_json, Hv.
  - destruct Hv as [H1 H2]. split; req; [by split|]. by apply put_price_json.
  - destruct Hv as [H1 H2]. split_and!; [req; by split|req; apply put_num_json|req; by split|]. opt_any. intros; apply put_num_json.
  - destruct Hv as [H1 H2]. split_and!; [req; by split|opt_ok H2; apply put_set_json|].
    opt_any. intros; apply put_booking_json.
  - req. by split.
  - req. by split.
  - destruct Hv as [H1 H2]. split; req; by split.
  - split; req; [by split|done].
  - split; req; [by split|done].
  - split; req; done.
  - split; req; done.
  - split; req; [done|]. apply put_list_json. intros v Hin. by apply put_meta_json, Hv.
Qed.

Lemma variant_json_ext fs fs' v :
  (∀ k, own_field k = false → entries k fs = entries k fs') →
  variant_json dec_parse fs v → variant_json dec_parse fs' v.
Proof.
  intros He. destruct v; cbn [variant_json]; unfold has, has_opt;
    repeat match goal with |- context [entries ?k fs] => rewrite (He k) by reflexivity end; done.
Qed.

Lemma entries_variant_own k v : own_field k = true → entries k (put_variant ord v) = [].
Proof.
  unfold own_field. intros (k' & Hk & ->%String.eqb_eq)%existsb_exists.
  destruct v; unfold put_variant, put_price_dct, put_balance, put_open, put_pad, put_custom;
    repeat (destruct Hk as [<-|Hk]; [norm_entries; reflexivity|]); done.
Qed.

Lemma put_directive_json d : ok_directive d → directive_json dec_parse (put_directive ord d) d.
Proof.
  intros (H1 & H2 & H3 & H4 & H5). eexists. split; [reflexivity|].
  split; [|split; [|split; [|split; [|split]]]].
  - eapply (has_opt_entries _ _ (λ _, True));
      [norm_entries; rewrite entries_variant_own by reflexivity; norm_entries; reflexivity|apply all_opt_any|done|].
    intros; apply put_span_json.
  - eapply has_entries; [norm_entries; rewrite entries_variant_own by reflexivity; reflexivity|].
    by apply put_date_json.
  - eapply has_opt_entries;
      [norm_entries; rewrite entries_variant_own by reflexivity; norm_entries; reflexivity|exact H2|done|].
    apply put_set_json.
  - eapply has_opt_entries;
      [norm_entries; rewrite entries_variant_own by reflexivity; norm_entries; reflexivity|exact H3|done|].
    apply put_set_json.
  - eapply has_opt_entries;
      [norm_entries; rewrite entries_variant_own by reflexivity; norm_entries; reflexivity|exact H4|done|].
    apply put_metadata_json.
  - eapply variant_json_ext; [|by apply put_variant_json]. intros k Hk.
    assert (∀ k', own_field k' = true → k' ≠ k) as Hne by (intros k' Hk' ->; congruence).
    rewrite !entries_app, !entries_put_ne, entries_cons_ne by (by apply Hne). done.
Qed.

Lemma directive_round_trip d : ok_directive d → get_directive dec_parse (put_directive ord d) = Some d.
Proof. intros H. apply get_directive_iff. by apply put_directive_json. Qed.
Lemma meta_round_trip v : ok_meta v → get_meta dec_parse (put_meta v) = Some v.
Proof. intros H. apply get_meta_iff. by apply put_meta_json. Qed.
Lemma span_round_trip s : get_span (put_span s) = Some s.
Proof. apply get_span_iff. apply put_span_json. Qed.

End Write.

(** A tree stands for at most one directive. *)
Lemma directive_json_functional p j d d' : directive_json p j d → directive_json p j d' → d = d'.
Proof. intros H%get_directive_iff H'%get_directive_iff. congruence. Qed.
Lemma meta_json_functional p j d d' : meta_json p j d → meta_json p j d' → d = d'.
Proof. intros H%get_meta_iff H'%get_meta_iff. congruence. Qed.

Lemma put_eidx_form e :
  put_eidx e = JArr (of_nat <$> match ei_posting e with
                                | None => [ei_directive e]
                                | Some p => [ei_directive e; p]
                                end).
Proof. by destruct e as [n [p|]]. Qed.
Lemma put_eidx_inj e e' : put_eidx e = put_eidx e' → e = e'.
Proof.
  destruct e as [n [p|]], e' as [n' [p'|]]; cbn; unfold of_nat; intros [=]; try done; f_equal; try f_equal; lia.
Qed.

Lemma parse_date_iff s d : parse_date s = Some d ↔
  valid_date d = true ∧
  (s = fmt_date d ∨ (s = "+" +:+ fmt_date d ∧ (0 <= date_year d)%Z) ∨
   (s = "-" +:+ fmt_date d ∧ date_year d = 0%Z)).
Proof.
  transitivity (get_date (JStr s) = Some d); [done|]. rewrite get_date_iff. unfold date_json. split.
  - by intros (? & [= <-] & ?).
  - intros H. by exists s.
Qed.

Lemma leap_iff y : leap y = true ↔ (4 | y)%Z ∧ ((100 | y)%Z → (400 | y)%Z).
Proof.
  unfold leap. rewrite orb_true_iff, andb_true_iff, negb_true_iff, !Z.eqb_eq, Z.eqb_neq.
  rewrite !Z.mod_divide by lia. split.
  - intros [[H1 H2]|H]; [done|]. split; [|done]. etransitivity; [|exact H]. by exists 100%Z.
  - intros [H1 H2]. destruct (Z.eq_dec (y mod 100) 0)%Z as [E|E].
    + apply Z.mod_divide in E; [|lia]. auto.
    + left. split; [done|]. intros H%Z.mod_divide; lia.
Qed.

Lemma valid_date_iff d : valid_date d = true ↔
    (-9999 <= date_year d <= 9999 ∧ 1 <= date_month d <= 12 ∧ 1 <= date_day d ∧
     (date_month d ∈ [1; 3; 5; 7; 8; 10; 12] → date_day d <= 31) ∧
     (date_month d ∈ [4; 6; 9; 11] → date_day d <= 30) ∧
     (date_month d = 2 → date_day d <= 29 ∧
        (date_day d = 29 → (4 | date_year d) ∧ ((100 | date_year d) → (400 | date_year d)))))%Z.
Proof.
  rewrite valid_date_spec. destruct d as [y m k]; cbn [date_year date_month date_day].
  rewrite <- leap_iff. rewrite !elem_of_cons, !elem_of_nil.
  unfold month_days. split.
  - intros (Hy & Hm & Hd). split_and!; try lia; intros Hx.
    + repeat (destruct Hx as [->|Hx]; [cbn in Hd; lia|]). done.
    + repeat (destruct Hx as [->|Hx]; [cbn in Hd; lia|]). done.
    + subst. cbn in Hd. destruct (leap y); split; lia.
  - intros (Hy & Hm & Hd & H31 & H30 & H2). split_and!; try lia.
    assert (m = 1 ∨ m = 2 ∨ m = 3 ∨ m = 4 ∨ m = 5 ∨ m = 6 ∨ m = 7 ∨ m = 8 ∨ m = 9 ∨ m = 10 ∨ m = 11 ∨ m = 12)%Z as Hc by lia.
    destruct (m =? 2)%Z eqn:E2.
    + apply Z.eqb_eq in E2. destruct (H2 E2) as [? Hl]. destruct (leap y); [lia|].
      destruct (Z.eq_dec k 29)%Z as [->|]; [by specialize (Hl eq_refl)|lia].
    + apply Z.eqb_neq in E2. repeat (destruct Hc as [->|Hc]; [cbn; try lia; first [apply H31; tauto|apply H30; tauto]|]).
      subst. cbn. apply H31; tauto.
Qed.

Lemma unknown_field p fs k v fs' : k ∉ directive_fields →
  get_directive p (JObj (fs ++ (k, v) :: fs')) = get_directive p (JObj (fs ++ fs')).
Proof.
  intros Hk.
  assert (∀ k', existsb (String.eqb k') directive_fields = true →
            entries k' (fs ++ (k, v) :: fs') = entries k' (fs ++ fs')) as He.
  { intros k' (x & Hk' & ->%String.eqb_eq)%existsb_exists. apply elem_of_list_In in Hk'. rewrite !entries_app, entries_cons_ne; [done|]. congruence. }
  assert (∀ d, directive_json p (JObj (fs ++ (k, v) :: fs')) d ↔ directive_json p (JObj (fs ++ fs')) d) as Hd.
  { intros d. unfold directive_json.
    assert (variant_json p (fs ++ (k, v) :: fs') (d_variant d) ↔ variant_json p (fs ++ fs') (d_variant d)) as Hv.
    { destruct (d_variant d); cbn [variant_json]; unfold has, has_opt;
        repeat match goal with |- context [entries ?k' (fs ++ (k, v) :: fs')] =>
          rewrite (He k') by reflexivity end; done. }
    split; intros (gs & [= <-] & H); (eexists; split; [reflexivity|]); unfold has, has_opt in *;
      repeat match goal with |- context [entries ?k' (fs ++ (k, v) :: fs')] =>
          rewrite (He k') by reflexivity end;
      repeat match type of H with context [entries ?k' (fs ++ (k, v) :: fs')] =>
          rewrite (He k') in H by reflexivity end;
      destruct H as (?&?&?&?&?&?); split_and!; try done; by apply Hv. }
  destruct (get_directive p (JObj (fs ++ (k, v) :: fs'))) as [d|] eqn:E.
  - symmetry. by apply get_directive_iff, Hd, get_directive_iff.
  - destruct (get_directive p (JObj (fs ++ fs'))) as [d|] eqn:E'; [|done].
    apply get_directive_iff, Hd, get_directive_iff in E'. congruence.
Qed.

Lemma odd_account_refused p ord d o : d_variant d = DOpen o → plain (op_acc o) = false →
  get_directive p (put_directive ord d) = None.
Proof.
  intros Hv Hp. unfold put_directive. rewrite Hv.
  set (fs := _ ++ _). assert (∀ k, own_field k = false → entries k fs = entries k (put_variant ord (DOpen o))) as He.
  { intros k Hk. assert (∀ k', own_field k' = true → k' ≠ k) as Hne by (intros k' Hk' ->; congruence).
    unfold fs. rewrite !entries_app, !entries_put_ne, entries_cons_ne by (by apply Hne). done. }
  assert (get_variant p (filter (λ kv, own_field kv.1 = false) fs) = None) as Hn.
  { set (gs := filter _ _).
    assert (get_req as_owned "dct" gs = Some "open") as E1.
    { unfold get_req, gs. rewrite (entries_filter own_field), He by reflexivity. unfold put_variant, put_open.
      by rewrite entries_cons_eq, entries_cons_ne, entries_app, !entries_put_ne by discriminate. }
    assert (get_req as_borrowed "acc" gs = None) as E2.
    { unfold get_req, gs. rewrite (entries_filter own_field), He by reflexivity. unfold put_variant, put_open.
      rewrite entries_cons_ne, entries_cons_eq, entries_app, !entries_put_ne by discriminate.
      cbn [app as_borrowed]. by rewrite Hp. }
    unfold get_variant. rewrite E1. cbn [mbind option_bind String.eqb Ascii.eqb Bool.eqb].
    unfold get_open. by rewrite E2. }
  unfold get_directive, as_obj. rewrite Hn.
  repeat match goal with |- mbind _ ?x = None => destruct x; cbn [mbind option_bind]; [|done] end. done.
Qed.
