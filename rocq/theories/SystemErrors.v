(** Reports of booking errors, located by the client. *)
From Coq Require Import Ascii QArith.
From stdpp Require Import prelude gmap strings.
From Verif Require Import DecModel LedgerTypes IsoModel IsoFacts JsonModel WireModel WireSpec WireFacts BookModel SpanModel ParserModel
  JsonText ServerModel ServerSpec ServerFacts CljModel InventoryModel ClientModel ClientDecode FormatModel PluginModel PluginSpec PluginFacts PluginMerge LoaderModel
  LoaderSpec LoaderFacts EncodeModel EncodeFacts EncodeStable SystemModel SystemFacts SystemSpec.
Local Open Scope nat_scope.

Definition fits (n : nat) : Prop := (Z.of_nat n <= 2 ^ 63)%Z.
Lemma vnth_number l i : fits (length l) → vnth l (Some (number i)) = l !! i.
Proof.
  intros Hl. unfold vnth, number, cn_of_dec. cbn [dec_scale dec_mant].
  destruct (fits_long (Z.of_nat i)) eqn:E.
  - assert ((0 <=? Z.of_nat i)%Z = true) as -> by (apply Z.leb_le; lia). by rewrite Nat2Z.id.
  - symmetry. apply lookup_ge_None. unfold fits_long, fits in *. rewrite andb_false_iff in E. 
    destruct E as [E|E]; [apply Z.leb_gt in E|first [apply Z.leb_gt in E|apply Z.ltb_ge in E]]; lia.
Qed.
Lemma decode_eidx k e : is_set_key k = false →
  decode k (put_eidx e) = VVec (number (ei_directive e) :: match ei_posting e with Some j => [number j] | None => [] end).
Proof. intros Hk. destruct e as [i [j|]]; cbn; by rewrite Hk. Qed.

(** ** What the server can read has a kind *)
Lemma last_map {A B} (f : A → B) l : last (map f l) = f <$> last l.
Proof. exact (fmap_last f l). Qed.
Lemma entries_distinct {A} k (fs : list (string * A)) : entries k (distinct fs) = option_list (last (entries k fs)).
Proof.
  induction fs as [|[k0 v] fs IH]; [done|]. cbn [distinct].
  destruct (existsb _ fs) eqn:E; cbn [fst] in E.
  - rewrite IH. destruct (decide (k0 = k)) as [->|Hne]; [|by rewrite entries_cons_ne].
    rewrite entries_cons_eq. destruct (entries k fs) as [|x l] eqn:El; [|done]. exfalso.
    apply existsb_exists in E as ([k1 v1]&Hin&E). cbn in E. apply String.eqb_eq in E as ->.
    assert (v1 ∈ entries k fs) by (apply entries_spec; by apply elem_of_list_In). rewrite El in *. set_solver.
  - destruct (decide (k0 = k)) as [->|Hne]; [|by rewrite !entries_cons_ne].
    rewrite !entries_cons_eq, IH. destruct (entries k fs) as [|x l] eqn:El; [done|]. exfalso.
    assert (x ∈ entries k fs) as Hx by (rewrite El; left). apply entries_spec in Hx.
    apply not_true_iff_false in E. apply E. apply existsb_exists. exists (k, x). split; [by apply elem_of_list_In|]. cbn. apply String.eqb_refl.
Qed.
Lemma distinct_keys {A} (fs : list (string * A)) k : k ∈ (distinct fs).*1 → k ∈ fs.*1.
Proof.
  induction fs as [|[k0 v] fs IH]; [done|]. cbn [distinct]. destruct (existsb _ fs); cbn; set_solver.
Qed.
Lemma distinct_unique {A} (fs : list (string * A)) : NoDup (distinct fs).*1.
Proof.
  induction fs as [|[k0 v] fs IH]; [constructor|]. cbn [distinct]. destruct (existsb _ fs) eqn:E; cbn [fst] in E; [done|].
  cbn. constructor; [|done]. intros Hin%distinct_keys. apply elem_of_list_fmap in Hin as ([k1 v1]&Ek&Hin). cbn in Ek. subst k1.
  apply not_true_iff_false in E. apply E. apply existsb_exists. exists (k0, v1). split; [by apply elem_of_list_In|]. cbn. apply String.eqb_refl.
Qed.
Section Errors.
Context {P S : Type} (env : server_env P S).
Context (jso : list json → list json) (jmo : list (string * json) → list (string * json)).
Context (Hjmo : ∀ l, jmo l ≡ₚ l).
Notation encode := (encode jso jmo).

Lemma encode_entries fs : ∃ js, encode (VMap fs) = JObj js ∧ ∀ k, entries k js = option_list (encode <$> vget k (VMap fs)).
Proof.
  eexists. split; [reflexivity|]. intros k. rewrite (entries_perm k (jmo _) (distinct (map (λ '(k, v), (k, encode v)) fs))).
  - rewrite entries_distinct. f_equal. cbn [vget]. unfold vfield. rewrite <- fmap_last. f_equal.
    induction fs as [|[k0 v] fs IH]; [done|]. cbn [map]. destruct (decide (k0 = k)) as [->|Hne].
    + rewrite !entries_cons_eq. cbn. by f_equal.
    + by rewrite !entries_cons_ne.
  - eapply NoDup_Permutation_proper; [by rewrite Hjmo|]. apply distinct_unique.
  - apply Hjmo.
Qed.
Lemma date_no_kind d s : s ∈ ["txn"; "price"; "balance"; "open"; "close"; "commodity"; "pad"; "document"; "note"; "event"; "query"; "custom"] →
  fmt_date d ≠ s.
Proof.
  intros Hs E. unfold fmt_date in E. set_unfold.
  destruct (date_year d <? 0)%Z; cbn in E; naive_solver.
Qed.
Lemma dct_read dp d x : get_directive dp (encode d) = Some x →
  ∃ k, vget "dct" d = Some (VKw k) ∨ vget "dct" d = Some (VStr k).
Proof.
  intros H. apply get_directive_iff in H as (fs&E&_&_&_&_&_&H).
  destruct d as [| | | | | | | | |kvs]; try done. destruct (encode_entries kvs) as (js&E'&He).
  rewrite E in E'. injection E' as <-.
  assert (Hd : ∃ s, entries "dct" fs = [JStr s] ∧ s ∈ ["txn"; "price"; "balance"; "open"; "close"; "commodity"; "pad"; "document"; "note"; "event"; "query"; "custom"]).
  { clear -H. destruct (d_variant x); cbn in H; unfold WireSpec.has, text_json in H;
      first [destruct H as ((?&Hd&->)&_)|destruct H as (?&Hd&->)]; eexists; (split; [exact Hd|set_solver]). }
  destruct Hd as (s&Hd&Hs). rewrite He in Hd.
  destruct (vget "dct" (VMap kvs)) as [v|]; [|done]. cbn in Hd. injection Hd as Hd.
  destruct v; try done; [by eexists; right|by eexists; left|]. cbn in Hd. injection Hd as Hd. by apply date_no_kind in Hd.
Qed.
End Errors.

(** ** What merging of spans keeps *)
Lemma map_n_keeps {A B} (R : A → A → Prop) num_f (f : A → list B → option A) :
  (∀ a, R a a) → (∀ a xs a', f a xs = Some a' → R a a') →
  ∀ l xs l', map_n num_f f l xs = Some l' → Forall2 R l l'.
Proof.
  intros Hr Hf. induction l as [|a l IH]; intros xs l' H; cbn [map_n] in H.
  { injection H as <-. constructor. }
  destruct (num_f a =? 0).
  - destruct (map_n _ _ l xs) as [r|] eqn:E; [|done]. injection H as <-. constructor; [done|]. by eapply IH.
  - destruct (f a _) as [a'|] eqn:Ef; [|done]. cbn [mbind option_bind] in H.
    destruct (map_n _ _ l _) as [r|] eqn:E; [|done]. injection H as <-. constructor; [by eapply Hf|]. by eapply IH.
Qed.
Definition same_but_spans (d x : cval) : Prop := ∀ k, k ≠ "span-p" → k ≠ "postings" → vget k x = vget k d.
Lemma merge_spans_keeps d g x : merge_spans d g = Some x → same_but_spans d x.
Proof.
  unfold merge_spans. intros H k Hk1 Hk2. destruct (vassoc "span-p" _ d) as [d1|] eqn:E; [|done]. cbn [mbind option_bind] in H.
  assert (Hd1 : vget k d1 = vget k d) by (by eapply vget_vassoc_other; [|exact E]).
  destruct (tail g); [injection H as <-; done|].
  destruct (mapM _ _) as [ps|]; [|done]. cbn [mbind option_bind] in H. rewrite <- Hd1.
  by eapply vget_vassoc_other; [|exact H].
Qed.
Lemma merge_keeps so create ds xs : merge_with_provenance so create ds = Some xs → Forall2 same_but_spans ds xs.
Proof.
  unfold merge_with_provenance. intros H. destruct (span_requests so ds) as [rs|]; [|done]. cbn [mbind option_bind] in H.
  destruct (match rs with [] => _ | _ => _ end) as [spans|]; [|done]. cbn [mbind option_bind] in H.
  destruct spans as [|s ss].
  - injection H as <-. apply Forall_Forall2_diag, Forall_forall. by intros d _ k _ _.
  - eapply map_n_keeps; [|apply merge_spans_keeps|exact H]. by intros d k _ _.
Qed.
(** Whatever is marked can be described. *)
Definition described_marks (d : cval) : Prop := truthy (vget "provenance" d) = true → is_Some (join_provenance d).
Lemma merge_marks so create ds xs : merge_with_provenance so create ds = Some xs → Forall described_marks xs.
Proof.
  intros H. pose proof (merge_keeps _ _ _ _ H) as HF. unfold merge_with_provenance in H.
  destruct (span_requests so ds) as [rs|] eqn:E; [|done]. apply span_requests_groups in E as (rgs&_&E).
  assert (Forall described_marks ds) as Hd.
  { clear -E. induction E as [|d rg ds rgs Hd _ IH]; constructor; [|done]. unfold span_requests_of, marked in Hd. intros Ht. rewrite Ht in Hd.
    destruct (join_provenance d); [by eexists|done]. }
  clear -HF Hd. induction HF as [|d x ds xs Hk _ IH]; constructor.
  - apply Forall_cons in Hd as [Hd _]. unfold described_marks, join_provenance in *. by rewrite (Hk "provenance").
  - apply IH. by apply Forall_cons in Hd as [_ Hd].
Qed.

(** ** Reports *)
Section Resolve.
Context (raw : list cval).
Context (Hraw : fits (length raw)) (Hps : ∀ d, d ∈ raw → fits (length (vpostings d))).
Context (Hkind : ∀ d, d ∈ raw → ∃ k, vget "dct" d = Some (VKw k) ∨ vget "dct" d = Some (VStr k)).
Context (Hmarks : ∀ d, d ∈ raw → described_marks d).
Lemma either_nil : either "span" "span-p" VNil = None.
Proof. done. Qed.
Lemma idx_located i : ei_directive i < length raw →
  ∃ what, resolve_idx raw (Some (VVec (number (ei_directive i) :: match ei_posting i with Some j => [number j] | None => [] end))) =
    Some (Located (Some what) (place raw i)
      (match raw !! ei_directive i with
       | Some d => match ei_posting i ≫= (λ j, vpostings d !! j) with Some _ => Some [VStr "txn"; default VNil (own_span d)] | None => None end
       | None => None end)) ∧ described raw i what.
Proof.
  intros Hi. destruct (lookup_lt_is_Some_2 _ _ Hi) as [d Hd]. assert (d ∈ raw) as Hin by (eapply elem_of_list_lookup_2; exact Hd).
  unfold resolve_idx, place, described. cbv zeta. rewrite Hd.
  change ((number (ei_directive i) :: ?l) !! 0) with (Some (number (ei_directive i))).
  change ((number (ei_directive i) :: ?l) !! 1) with (l !! 0).
  rewrite vnth_number, Hd by done. change (or_nil (Some d)) with d.
  set (q := ei_posting i ≫= (λ j, vpostings d !! j)).
  assert (Hq : vnth (vpostings d) (match ei_posting i with Some j => [number j] | None => [] end !! 0) = q).
  { unfold q. destruct (ei_posting i) as [j|]; [|done]. cbn [lookup list_lookup mbind option_bind]. rewrite vnth_number by auto. done. }
  rewrite Hq. destruct (Hkind d Hin) as [k Hk].
  assert (Hn : ∃ n, dct_name d = Some n ∧
    (∀ k, vget "dct" d = Some (VKw k) → n = if String.eqb k "txn" then "transaction" else k) ∧
    (∀ s, vget "dct" d = Some (VStr s) → n = s)).
  { unfold dct_name. destruct Hk as [-> | ->].
    - destruct (String.eqb_spec k "txn") as [->|Hne].
      + eexists. split; [reflexivity|]. split; [|done]. intros ? [= <-]. done.
      + exists k. split; [by repeat case_match; simplify_eq|]. split; [|done]. intros ? [= <-]. by apply String.eqb_neq in Hne as ->.
    - eexists. split; [reflexivity|]. split; [done|]. by intros ? [= <-]. }
  destruct Hn as (n&Hn&Hn1&Hn2).
  assert (Htq : truthy (vget "span" (default VNil q)) = truthy (q ≫= vget "span")) by (destruct q; done).
  change (or_nil q) with (default VNil q). rewrite Htq. rewrite (orb_comm (truthy (q ≫= _))).
  assert (Hpl : match either "span" "span-p" (default VNil q) with Some s => Some s | None => either "span" "span-p" d end =
                match ei_posting i with
                | Some j => match vpostings d !! j with Some q => match own_span q with Some s => Some s | None => own_span d end | None => own_span d end
                | None => own_span d end).
  { unfold q, own_span. destruct (ei_posting i) as [j|]; cbn; [|done]. by destruct (vpostings d !! j). }
  rewrite Hpl. 
  assert (Hb : ∃ kind, match q with Some _ => Some (Some "posting") | None => n ← dct_name d; Some (Some n) end = Some (Some kind) ∧
     match q with Some _ => kind = "posting" | None => (∀ k, vget "dct" d = Some (VKw k) → kind = if String.eqb k "txn" then "transaction" else k) ∧
      (∀ s, vget "dct" d = Some (VStr s) → kind = s) end).
  { destruct q; [by eexists|]. rewrite Hn. by eexists. }
  destruct Hb as (kind&Hb&Hkd). rewrite Hb. cbn [mbind option_bind].
  destruct (truthy (vget "provenance" d) && _) eqn:Em.
  - pose proof Em as Em0. apply andb_true_iff in Em0 as [Em0 _]. destruct (Hmarks d Hin Em0) as [names Hj]. rewrite Hj. cbn [mbind option_bind default].
    eexists. split; [by destruct (ei_posting i) as [j|]; cbn; destruct q|]. eexists d, kind, _. split; [done|]. split; [reflexivity|]. split; [done|].
    fold q. rewrite Em. clear Em Em0. unfold join_provenance in Hj. destruct (vget "provenance" d) as [[]|]; try done.
    destruct (mapM _ l) as [ns|] eqn:Ens; [|done]. cbn in Hj. injection Hj as <-. exists l, ns. split_and!; try done.
    by apply mapM_Some.
  - eexists. split; [by destruct (ei_posting i) as [j|]; cbn; destruct q|]. exists d, kind, "". split; [done|]. split; [|fold q; by rewrite Em].
    clear. induction kind as [|c s IH]; [done|]. change (String c s +:+ "") with (String c (s +:+ "")). f_equal. exact IH.
Qed.
Lemma report_located {P S} (env : server_env P S) e :
  ei_directive (r_idx e) < length raw → (∀ l i, r_related e = Some l → i ∈ l → ei_directive i < length raw) →
  ∃ r, resolve_report raw (decode None (put_indexed_report env e)) = Some r ∧
    located_report (env_layout env) raw e r ∧ with_context raw e r.
Proof.
  intros Hi Hr. unfold resolve_report, put_indexed_report. rewrite !vget_decode.
  assert (Hidx : ∀ a b c, last (entries "idx" ([("reason", a); ("idx", b)] ++ put_opt "related" (λ l, JArr (put_eidx <$> l)) (r_related e) ++
     put_opt "annotation" c (r_annotation e))) = Some b).
  { intros. rewrite !entries_app, !entries_put_ne by done. done. }
  assert (Hre : ∀ a b c, last (entries "reason" ([("reason", a); ("idx", b)] ++ put_opt "related" (λ l, JArr (put_eidx <$> l)) (r_related e) ++
     put_opt "annotation" c (r_annotation e))) = Some a).
  { intros. rewrite !entries_app, !entries_put_ne by done. done. }
  assert (Hrel : ∀ a b c, last (entries "related" ([("reason", a); ("idx", b)] ++ put_opt "related" (λ l, JArr (put_eidx <$> l)) (r_related e) ++
     put_opt "annotation" c (r_annotation e))) = (λ l, JArr (put_eidx <$> l)) <$> r_related e).
  { intros. rewrite !entries_app, entries_put_eq, !entries_put_ne by done. cbn. rewrite app_nil_r. by destruct (r_related e). }
  assert (Han : ∀ a b c, last (entries "annotation" ([("reason", a); ("idx", b)] ++ put_opt "related" (λ l, JArr (put_eidx <$> l)) (r_related e) ++
     put_opt "annotation" c (r_annotation e))) = c <$> r_annotation e).
  { intros. rewrite !entries_app, entries_put_eq, !entries_put_ne by done. cbn. by destruct (r_annotation e). }
  rewrite Hidx, Hre, Hrel, Han. clear Hidx Hre Hrel Han. cbn [fmap option_fmap option_map].
  change (converted "idx" ?v) with v. rewrite decode_eidx by done.
  destruct (idx_located (r_idx e) Hi) as (what&->&Hw). cbn [mbind option_bind lo_description lo_span lo_context default].
  assert (Hrs : ∃ rs', match (λ v, converted "related" (decode (Some "related") v)) <$> ((λ l, JArr (put_eidx <$> l)) <$> r_related e) with
     | None | Some VNil | Some (VBool false) => Some None
     | Some (VVec rs) => mapM (λ i, resolve_idx raw (Some i) ≫= λ x, Some (VVec [vstr (lo_description x); default VNil (lo_span x)])) rs ≫= λ xs, Some (Some xs)
     | Some _ => None end = Some rs' ∧
     match r_related e, rs' with
     | None, None => True
     | Some is, Some vs => Forall2 (λ i v, ∃ what, v = VVec [VStr what; default VNil (place raw i)] ∧ described raw i what) is vs
     | _, _ => False
     end).
  { destruct (r_related e) as [l|] eqn:El; [|by exists None]. cbn [fmap option_fmap option_map]. 
    change (converted "related" ?v) with v. cbn [decode]. change (is_set_key (Some "related")) with false. cbv iota.
    assert (∃ vs, mapM (λ i, resolve_idx raw (Some i) ≫= λ x, Some (VVec [vstr (lo_description x); default VNil (lo_span x)])) (map (decode None) (put_eidx <$> l)) = Some vs ∧
       Forall2 (λ i v, ∃ what, v = VVec [VStr what; default VNil (place raw i)] ∧ described raw i what) l vs) as (vs&Hvs&HF).
    { assert (Hl : ∀ i, i ∈ l → ei_directive i < length raw) by (intros i; by apply Hr). clear El Hr.
      induction l as [|i l IH]; [by exists []|].
      destruct IH as (vs&Hvs&HF); [intros; apply Hl; by right|].
      destruct (idx_located i) as (w&Hw1&Hw2); [apply Hl; left|].
      eexists (_ :: vs). split; [|constructor; [|exact HF]; eexists; split; [reflexivity|exact Hw2]].
      cbn [fmap list_fmap map mapM]. rewrite decode_eidx, Hw1 by done. cbn [mbind option_bind lo_description lo_span vstr].
      rewrite Hvs. done. }
    exists (Some vs). split; [|done]. rewrite Hvs. done. }
  destruct Hrs as (rs'&Hrs&Hrel). 
  match type of Hrs with ?a = _ => match goal with |- context [?b ≫= _] => change b with a end end. rewrite Hrs. cbn [mbind option_bind].
  eexists. split; [reflexivity|]. split.
  - split_and!; cbn [cr_message cr_reason cr_span cr_annotation cr_related]; try done; [by eexists|].
    by destruct (r_annotation e).
  - intros d j q Hd Hj Hq. cbn [cr_context]. rewrite Hd, Hj. cbn. by rewrite Hq.
Qed.
Lemma reports_located {P S} (env : server_env P S) es :
  Forall (λ e, ei_directive (r_idx e) < length raw ∧ ∀ l i, r_related e = Some l → i ∈ l → ei_directive i < length raw) es →
  ∃ rs, mapM (resolve_report raw) (decode None <$> (put_indexed_report env <$> es)) = Some rs ∧
    Forall2 (λ e r, located_report (env_layout env) raw e r ∧ with_context raw e r) es rs.
Proof.
  induction 1 as [|e es [H1 H2] _ (rs&IH&HF)]; [by exists []|].
  destruct (report_located env e H1 H2) as (r&Hr&Hl). exists (r :: rs). split; [|by constructor].
  cbn [fmap list_fmap mapM]. rewrite Hr. cbn [mbind option_bind]. by rewrite IH.
Qed.
End Resolve.
