(** The checks of the specification of directives, one by one: lemmas for
    [CompleteProps.v]. *)
From Coq Require Import Ascii QArith.
From stdpp Require Import prelude strings.
From Verif Require Import DecModel LedgerTypes IsoModel JsonModel WireModel CljModel InventoryModel ClientModel SpecModel CompleteSpec.
Local Open Scope nat_scope.

Notation reflects c P := (∀ v, c v = true ↔ P v).
Lemma req_iff k c P v : reflects c P → s_req k c v = true ↔ has v k P.
Proof. intros H. unfold s_req, has. destruct (vget k v) as [x|]; [rewrite H|]; naive_solver. Qed.
Lemma opt_iff k c P v : reflects c P → s_opt k c v = true ↔ may_have v k P.
Proof. intros H. unfold s_opt, may_have. destruct (vget k v) as [x|]; [rewrite H|]; naive_solver. Qed.
Lemma map_iff : reflects v_map a_map.
Proof. intros []; cbn; unfold a_map; naive_solver. Qed.
Lemma text_iff : reflects c_string text.
Proof. intros []; cbn; unfold text; naive_solver. Qed.
Lemma day_iff : reflects c_day day.
Proof. intros []; cbn; unfold day; naive_solver. Qed.
Lemma flag_iff : reflects c_bool flag.
Proof. intros []; cbn; unfold flag; naive_solver. Qed.
Lemma decimal_iff : reflects c_decimal decimal.
Proof. intros [| |[]| | | | | | |]; cbn; unfold decimal; naive_solver. Qed.
Lemma number_iff : reflects c_number number.
Proof. intros v. unfold c_number, number. rewrite orb_true_iff, decimal_iff. destruct v as [| |[]| | | | | | |]; cbn; naive_solver. Qed.
Lemma nil_iff v : c_nil v = true ↔ v = VNil.
Proof. destruct v; cbn; naive_solver. Qed.
Lemma forallb_elem {A} (c : A → bool) l : forallb c l = true ↔ ∀ x, x ∈ l → c x = true.
Proof. rewrite forallb_forall. by setoid_rewrite elem_of_list_In. Qed.
Lemma texts_iff : reflects c_strings texts.
Proof.
  intros v. unfold c_strings, s_set, texts. destruct v; try (split; [done|naive_solver]).
  rewrite forallb_elem. setoid_rewrite text_iff. naive_solver.
Qed.
Lemma vec_iff c P : reflects c P → reflects (s_vec c) (list_of P).
Proof.
  intros H v. unfold s_vec, list_of. destruct v; try (split; [done|naive_solver]).
  rewrite forallb_elem. setoid_rewrite H. naive_solver.
Qed.

(** The keys of a map are those of its fields. *)
Lemma entries_nonempty {A} k (fs : list (string * A)) : (∃ x, last (entries k fs) = Some x) ↔ k ∈ fs.*1.
Proof.
  rewrite elem_of_list_fmap. unfold entries. split.
  - intros (x & Hx). apply last_Some_elem_of, elem_of_list_fmap in Hx as (kv & -> & [Hk Hin]%elem_of_list_filter).
    exists kv. by rewrite Hk.
  - intros (kv & -> & Hin). apply last_is_Some. intros H%fmap_nil_inv.
    assert (kv ∈ filter (λ kv', kv'.1 = kv.1) fs) as Hf by by apply elem_of_list_filter.
    rewrite H in Hf. by apply elem_of_nil in Hf.
Qed.
Lemma keys_iff v k : k ∈ v_keys v ↔ ∃ x, vget k v = Some x.
Proof.
  destruct v; cbn; try (split; [by intros H%elem_of_nil|by intros (x & [=])]).
  rewrite elem_of_remove_dups. unfold vfield. by rewrite entries_nonempty.
Qed.
Lemma keys_nodup v : NoDup (v_keys v).
Proof. destruct v; cbn; try apply NoDup_nil_2. apply NoDup_remove_dups. Qed.
Lemma single_iff k c P : reflects c P → reflects (s_single k c) (λ v, single v k P).
Proof.
  intros H v. unfold s_single, single, only. rewrite !andb_true_iff, map_iff, bool_decide_eq_true, (req_iff k c P v H).
  assert (v_keys v = [k] ↔ ∀ k', (∃ x, vget k' v = Some x) ↔ k' ∈ [k]) as ->; [|tauto].
  setoid_rewrite <- keys_iff. split; [by intros ->|]. intros Hk.
  apply Permutation_singleton_r. apply NoDup_Permutation; [apply keys_nodup|apply NoDup_singleton|done].
Qed.
Lemma amount_iff v : c_amount v = true ↔ only v ["units"; "cur"] ∧ has v "units" number ∧ has v "cur" text.
Proof.
  unfold c_amount, s_keys, only. cbn [forallb]. rewrite !andb_true_iff, map_iff, Nat.eqb_eq. cbn [fst snd].
  rewrite (req_iff _ _ _ _ number_iff), (req_iff _ _ _ _ text_iff).
  setoid_rewrite <- keys_iff. split.
  - intros (((Hm & Hu & Hc & _) & _) & Hl). split_and!; [done| |done..]. intros k.
    assert ("units" ∈ v_keys v) as H1 by (apply keys_iff; destruct Hu as (x & ? & _); by eexists).
    assert ("cur" ∈ v_keys v) as H2 by (apply keys_iff; destruct Hc as (x & ? & _); by eexists).
    pose proof (keys_nodup v) as Hnd. revert Hl H1 H2 Hnd. generalize (v_keys v). clear. intros l Hl H1 H2 Hnd.
    destruct l as [|a [|b [|]]]; try done. set_solver.
  - intros ((Hm & Hk) & Hu & Hc). split_and!; try done.
    assert (v_keys v ≡ₚ ["units"; "cur"]) as ->; [|done].
    apply NoDup_Permutation; [apply keys_nodup| |done]. apply NoDup_cons; split; [|apply NoDup_singleton].
    by intros H%elem_of_list_singleton.
Qed.
Lemma meta_iff : reflects c_metavalue meta.
Proof.
  intros v. unfold c_metavalue.
  rewrite !orb_true_iff, amount_iff, nil_iff, !(single_iff _ _ _ text_iff), !(single_iff _ _ _ number_iff),
    (single_iff _ _ _ flag_iff), (single_iff _ _ _ day_iff). split.
  - intros H. repeat (destruct H as [H|H]).
    all: first [ apply meta_amount; tauto | rewrite H; apply meta_nil | apply meta_bool; assumption | apply meta_date; assumption
               | eapply meta_text; [|eassumption]; set_solver | eapply meta_number; [|eassumption]; set_solver ].
  - intros [|v' Ho Hu Hc|v' k Hk Hs|v' k Hk Hs|v' Hs|v' Hs]; try tauto.
    + rewrite !elem_of_cons, elem_of_nil in Hk. destruct Hk as [->|[->|[->|[->|[->|[]]]]]]; tauto.
    + rewrite !elem_of_cons, elem_of_nil in Hk. destruct Hk as [->|[->|[]]]; tauto.
Qed.
Lemma metadata_iff : reflects c_metadata metadata.
Proof.
  intros v. unfold c_metadata, metadata. rewrite andb_true_iff, map_iff, forallb_elem.
  setoid_rewrite (λ k, req_iff k _ _ v meta_iff). unfold has, may_have. split; intros [Hm H]; (split; [done|]).
  - intros k x Hx. destruct (H k) as (y & Hy & Hp); [apply keys_iff; by eexists|]. congruence.
  - intros k (x & Hx)%keys_iff. eauto.
Qed.

Ltac fields := unfold s_keys; cbn [forallb fst snd]; rewrite ?andb_true_iff, ?map_iff.
Tactic Notation "read" uconstr(l) := rewrite ?(req_iff _ _ _ _ l), ?(opt_iff _ _ _ _ l).
Ltac common := read text_iff; read number_iff; read day_iff; read flag_iff; read decimal_iff; read texts_iff; read metadata_iff.
Lemma cost_spec_iff : reflects c_cost_spec cost_spec.
Proof. intros v. unfold c_cost_spec, cost_spec. fields. common. tauto. Qed.
Lemma cost_iff : reflects c_cost cost.
Proof. intros v. unfold c_cost, cost. fields. common. tauto. Qed.
Lemma price_spec_iff : reflects c_price_spec price_spec.
Proof. intros v. unfold c_price_spec, price_spec. fields. common. tauto. Qed.
Lemma price_iff : reflects c_price price.
Proof. intros v. unfold c_price, price. fields. common. tauto. Qed.
Lemma raw_posting_iff : reflects c_raw_posting raw_posting.
Proof. intros v. unfold c_raw_posting, raw_posting, decorated. fields. common. read cost_spec_iff. read price_spec_iff. tauto. Qed.
Lemma booked_posting_iff : reflects c_booked_posting booked_posting.
Proof. intros v. unfold c_booked_posting, booked_posting, decorated. fields. common. read cost_iff. read price_iff. tauto. Qed.
Lemma base_iff : reflects c_base dated.
Proof. intros v. unfold c_base, dated, decorated. fields. common. tauto. Qed.
Lemma booking_iff : reflects c_booking (λ x, ∃ s, x = VKw s ∧ s ∈ bookings).
Proof.
  intros v. unfold c_booking. destruct v; try (split; [done|naive_solver]). rewrite existsb_exists.
  setoid_rewrite <- elem_of_list_In. setoid_rewrite String.eqb_eq. fold bookings. naive_solver.
Qed.
Lemma absent_iff v k : match vget k v with None | Some VNil | Some (VBool false) => true | Some _ => false end = true ↔ absent v k.
Proof.
  unfold absent, may_have. destruct (vget k v) as [x|]; [|naive_solver].
  split; [|intros H; destruct (H x eq_refl) as [->| ->]; done].
  intros H y [= <-]. destruct x as [|[]| | | | | | | |]; try done; auto.
Qed.
Lemma postings_iff (booked : bool) :
  reflects (s_vec (if booked then c_booked_posting else c_raw_posting)) (list_of (if booked then booked_posting else raw_posting)).
Proof. destruct booked; apply vec_iff; [apply booked_posting_iff|apply raw_posting_iff]. Qed.
Lemma variant_kind booked v k : c_variant booked k v = true →
  k ∈ ["txn"; "price"; "balance"; "open"; "close"; "commodity"; "pad"; "document"; "note"; "event"; "query"; "custom"].
Proof.
  intros H. unfold c_variant in H.
  repeat match type of H with
    | match ?k with EmptyString => _ | String _ _ => _ end _ = true => destruct k as [|c k]; try done
    | match ?c with Ascii _ _ _ _ _ _ _ _ => _ end _ = true => destruct c as [[] [] [] [] [] [] [] []]; try done
    end.
  all: rewrite ?elem_of_cons; tauto.
Qed.
Lemma variant_iff booked v k : a_map v → c_variant booked k v = true ↔ of_kind booked v k.
Proof.
  intros Hm. split.
  - intros H. pose proof (variant_kind _ _ _ H) as Hk. rewrite !elem_of_cons, elem_of_nil in Hk.
    repeat (destruct Hk as [->|Hk]); [..|done]; revert H; cbn [c_variant fmap list_fmap]; unfold c_txn; fields;
      common; read price_iff; read booking_iff; rewrite ?(opt_iff _ _ _ _ (postings_iff booked)), ?absent_iff;
      read (vec_iff _ _ meta_iff); intros H; constructor; tauto.
  - intros []; cbn [c_variant fmap list_fmap]; unfold c_txn; fields;
      common; read price_iff; read booking_iff; rewrite ?(opt_iff _ _ _ _ (postings_iff booked)), ?absent_iff;
      read (vec_iff _ _ meta_iff); tauto.
Qed.
