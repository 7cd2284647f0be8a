(** Reading the server's booked directives and options on the client. *)
From Coq Require Import Ascii QArith.
From stdpp Require Import prelude gmap strings.
From Verif Require Import DecModel LedgerTypes IsoModel JsonModel WireModel WireSpec WireFacts IsoFacts ParserModel
  ServerModel OutputSpec OutputFacts CljModel InventoryModel InventorySpec ClientModel ClientSpec.
Local Open Scope nat_scope.

Lemma fmap_last {A B} (f : A → B) (l : list A) : last (f <$> l) = f <$> last l.
Proof. induction l as [|x [|y l] IH]; [done..|]. exact IH. Qed.
Lemma entries_vupdate k k' f fs :
  entries k (vupdate k' f fs) = if String.eqb k k' then f <$> entries k fs else entries k fs.
Proof.
  unfold vupdate. induction fs as [|[k0 v] fs IH]; [by destruct (String.eqb k k')|]. cbn [fmap list_fmap fst snd].
  destruct (String.eqb_spec k0 k') as [->|Hne].
  - destruct (String.eqb_spec k k') as [->|Hne'].
    + rewrite !entries_cons_eq. cbn. f_equal. exact IH.
    + rewrite !entries_cons_ne by congruence. exact IH.
  - destruct (String.eqb_spec k k') as [->|Hne'].
    + rewrite !entries_cons_ne by done. exact IH.
    + destruct (decide (k0 = k)) as [->|]; [rewrite !entries_cons_eq; by f_equal|].
      rewrite !entries_cons_ne by done. exact IH.
Qed.
Lemma entries_decoded k fs :
  entries k (map (λ '(k, v), (k, decode (Some k) v)) fs) = decode (Some k) <$> entries k fs.
Proof.
  induction fs as [|[k0 v] fs IH]; [done|]. cbn [map].
  destruct (decide (k0 = k)) as [->|]; [rewrite !entries_cons_eq; cbn; by f_equal|].
  rewrite !entries_cons_ne by done. exact IH.
Qed.

(** What is found under a key after conversion. *)
Definition converted (k : string) (v : cval) : cval :=
  if String.eqb k "booking" || String.eqb k "dct" then to_keyword v
  else if String.eqb k "date" then to_local_date v else v.
Lemma vget_decode key k fs :
  vget k (decode key (JObj fs)) = (λ v, converted k (decode (Some k) v)) <$> last (entries k fs).
Proof.
  cbn [decode vget]. unfold vfield at 1, convert_map.
  set (fs0 := map (λ '(k, v), (k, decode (Some k) v)) fs).
  set (fs1 := match vfield "date" fs0 with Some (VStr _) => _ | _ => fs0 end).
  assert (k ≠ "date" → entries k fs1 = decode (Some k) <$> entries k fs) as H1.
  { intros Hk. unfold fs1. apply String.eqb_neq in Hk.
    destruct (vfield "date" fs0) as [[]|]; rewrite ?entries_vupdate, ?Hk; apply entries_decoded. }
  assert (last (entries "date" fs1) = to_local_date <$> (decode (Some "date") <$> last (entries "date" fs))) as H2.
  { rewrite <- fmap_last, <- entries_decoded. fold fs0. fold (vfield "date" fs0). fold (vfield "date" fs1).
    unfold fs1. destruct (vfield "date" fs0) as [v|] eqn:E; [|exact E].
    destruct v; try exact E. unfold vfield. rewrite entries_vupdate. cbn [String.eqb].
    change (last (to_local_date <$> entries "date" fs0) = to_local_date <$> Some (VStr s)).
    rewrite fmap_last. by fold (vfield "date" fs0); rewrite E. }
  rewrite !entries_vupdate. unfold converted.
  destruct (String.eqb_spec k "booking") as [->|Hb].
  { cbn [orb]. change (String.eqb "booking" "dct") with false. cbv iota. rewrite H1 by done.
    rewrite !fmap_last. rewrite <- option_fmap_compose; done. }
  destruct (String.eqb_spec k "dct") as [->|Hd].
  { cbn [orb]. rewrite H1 by done. rewrite !fmap_last. rewrite <- option_fmap_compose; done. }
  cbn [orb]. destruct (String.eqb_spec k "date") as [->|Hn].
  - rewrite H2. rewrite <- option_fmap_compose; done.
  - rewrite H1 by done. by rewrite fmap_last.
Qed.
Lemma last_option_list {A} (o : option A) : last (option_list o) = o.
Proof. by destruct o. Qed.
Lemma last_single {A} (x : A) : last [x] = Some x.
Proof. done. Qed.

Lemma cn_of_dec_seen d : num_seen (cn_of_dec d) d.
Proof.
  unfold num_seen, cn_of_dec, cn_value. destruct d as [m [|s]]; cbn [dec_scale dec_mant].
  - destruct (fits_long m); cbn; done.
  - cbn. done.
Qed.

(** ** What a booked directive becomes *)

Definition seen_cost (c : cost) : ccost :=
  CCost (c_date c) (c_cur c) (cn_of_dec (c_per_unit c)) (cn_of_dec (c_total c)) (c_label c)
    (if c_merge c then Some true else None).
Definition seen_posting (p : posting) : cposting :=
  CPosting None None None (p_flag p) (p_acc p) (cn_of_dec (p_units p)) (p_cur p) (seen_cost <$> p_cost p).
Definition seen_directive (b : bdirective) : cdirective :=
  let mk k acc cur pay nar bk ps := CDirective k (Some (b_date b)) acc cur pay nar bk ps in
  match b_variant b with
  | BVTransaction t => mk "txn" None None (bt_payee t) (bt_narration t) None (seen_posting <$> bt_postings t)
  | BVPrice p => mk "price" None (Some (pd_cur p)) None None None []
  | BVBalance bal => mk "balance" (Some (bal_acc (bb_raw bal))) (Some (bal_cur (bb_raw bal))) None None None []
  | BVOpen o => mk "open" (Some (op_acc o)) None None None (op_booking o) []
  | BVClose a => mk "close" (Some a) None None None None []
  | BVCommodity c => mk "commodity" None (Some c) None None None []
  | BVPad p => mk "pad" (Some (pad_acc p)) None None None None []
  | BVDocument a _ => mk "document" (Some a) None None None None []
  | BVNote a _ => mk "note" (Some a) None None None None []
  | BVEvent _ _ => mk "event" None None None None None []
  | BVQuery _ _ => mk "query" None None None None None []
  | BVCustom _ => mk "custom" None None None None None []
  end.

Lemma seen_cost_ok c : cost_seen (seen_cost c) c.
Proof. unfold cost_seen, seen_cost. cbn [cc_date cc_cur cc_per_unit cc_total cc_label cc_merge]. split_and!; try done; apply cn_of_dec_seen. Qed.
Lemma seen_posting_ok p : posting_seen (seen_posting p) p.
Proof.
  unfold posting_seen, seen_posting. cbn [cp_acc cp_cur cp_units cp_flag cp_cost]. split_and!; try done; [apply cn_of_dec_seen|].
  destruct (p_cost p); cbn; [apply seen_cost_ok|done].
Qed.
Lemma seen_directive_ok b : directive_seen (seen_directive b) b.
Proof.
  unfold directive_seen, seen_directive. destruct (b_variant b); cbn; split_and!; try done.
  apply Forall2_fmap_l, Forall_Forall2_diag, Forall_forall. intros. apply seen_posting_ok.
Qed.

Local Ltac norm_entries :=
  repeat first
    [ rewrite entries_app
    | rewrite entries_cons_eq
    | rewrite entries_cons_ne by (intros ?; discriminate)
    | rewrite entries_put_eq
    | rewrite entries_put_ne by (intros ?; discriminate)
    | rewrite entries_nil
    | rewrite app_nil_r
    | rewrite app_nil_l ].

Lemma view_cost_put key c : valid_date (c_date c) = true → view_cost (decode key (put_cost c)) = Some (seen_cost c).
Proof.
  intros Hv. unfold view_cost, view_req, view_opt, put_cost.
  assert (∀ k, entries k (if c_merge c then [("merge", JBool true)] else []) =
    if String.eqb "merge" k then (if c_merge c then [JBool true] else []) else []) as Hm.
  { intros k. destruct (c_merge c); [|by destruct (String.eqb _ _)]. destruct (String.eqb_spec "merge" k) as [<-|].
    - by rewrite entries_cons_eq.
    - by rewrite entries_cons_ne. }
  rewrite !vget_decode; norm_entries; rewrite !Hm; cbn [String.eqb]; norm_entries; rewrite ?last_option_list, ?last_single.
  unfold seen_cost. cbn [fmap option_fmap option_map]. unfold converted, put_date, put_num. cbn [String.eqb orb decode to_local_date].
  cbn. rewrite (parse_fmt_date _ Hv). cbn. destruct (c_label c), (c_merge c); cbn; done.
Qed.
Local Ltac fields_of := rewrite !vget_decode; norm_entries; rewrite ?last_option_list, ?last_single.

Section Decode.
Context (ord : hash_order) (Hord : any_order ord).

Lemma view_posting_put key p :
  (∀ c, p_cost p = Some c → valid_date (c_date c) = true) →
  view_posting (decode key (put_posting ord p)) = Some (seen_posting p).
Proof.
  intros Hv. unfold view_posting, view_req, view_opt, put_posting. fields_of.
  unfold seen_posting. destruct (p_cost p) as [c|] eqn:Ec.
  - cbn [fmap option_fmap option_map]. unfold converted. cbn [String.eqb orb].
    destruct (p_flag p); cbn -[decode view_cost seen_cost put_cost];
    rewrite (view_cost_put _ c) by auto; done.
  - destruct (p_flag p); cbn; done.
Qed.

Lemma mapM_postings ps :
  Forall (λ p, ∀ c, p_cost p = Some c → valid_date (c_date c) = true) ps →
  mapM view_posting (map (decode None) (put_posting ord <$> ps)) = Some (seen_posting <$> ps).
Proof.
  induction 1 as [|p ps Hp _ IH]; [done|]. cbn [fmap list_fmap map mapM].
  rewrite view_posting_put by done. cbn [mbind option_bind]. rewrite IH. done.
Qed.

Lemma view_directive_put b :
  dates_valid b → view_directive (decode None (put_bdirective ord b)) = Some (seen_directive b).
Proof.
  intros [Hd Hc]. unfold view_directive, view_req, view_opt, put_bdirective.
  assert (∀ k, k ∉ ["idx"; "date"; "tags"; "links"; "metadata"] →
     vget k (decode None (JObj ([("idx", of_nat (b_idx b)); ("date", put_date (b_date b))] ++
        put_opt "tags" (put_set ord) (b_tags b) ++ put_opt "links" (put_set ord) (b_links b) ++
        put_opt "metadata" (put_metadata ord) (b_metadata b) ++ put_bvariant ord (b_variant b)))) =
     (λ v, converted k (decode (Some k) v)) <$> last (entries k (put_bvariant ord (b_variant b)))) as Hk.
  { intros k Hk.
    assert ("idx" ≠ k ∧ "date" ≠ k ∧ "tags" ≠ k ∧ "links" ≠ k ∧ "metadata" ≠ k) as (?&?&?&?&?).
    { split_and!; intros <-; apply Hk; repeat constructor. }
    rewrite vget_decode, !entries_app, !entries_cons_ne, !entries_put_ne by done. done. }
  assert (vget "date" (decode None (JObj ([("idx", of_nat (b_idx b)); ("date", put_date (b_date b))] ++
        put_opt "tags" (put_set ord) (b_tags b) ++ put_opt "links" (put_set ord) (b_links b) ++
        put_opt "metadata" (put_metadata ord) (b_metadata b) ++ put_bvariant ord (b_variant b)))) = Some (VDate (b_date b))) as ->.
  { rewrite vget_decode. rewrite !entries_app, bvariant_other by (repeat constructor). norm_entries.
    cbn. by rewrite (parse_fmt_date _ Hd). }
  rewrite !Hk by (rewrite <- elem_of_list_In || apply (bool_decide_unpack _); vm_compute; exact I).
  clear Hk Hd. unfold seen_directive.
  destruct (b_variant b) as [t|p|bal|o|a|c|p|a p|a c|t d|n c|cu] eqn:Ev; cbn [put_bvariant];
    unfold put_price_dct, put_balance, put_open, put_pad, put_custom;
    norm_entries; rewrite ?last_option_list, ?last_single, ?last_nil; cbn [fmap option_fmap option_map];
    unfold converted; cbn [String.eqb orb].
  1:{ cbn -[decode view_posting seen_posting put_posting mapM fmap].
      destruct (bt_payee t), (bt_narration t); cbn -[view_posting seen_posting put_posting mapM fmap list_fmap];
        rewrite mapM_postings by exact Hc; done. }
  all: try (cbn; done).
  destruct (op_booking o) as [[]|]; cbn; done.
Qed.
End Decode.
