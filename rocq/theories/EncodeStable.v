(** The directives which the server sends survive the client. *)
From Coq Require Import Ascii QArith.
From stdpp Require Import prelude gmap strings.
From Verif Require Import DecModel LedgerTypes IsoModel IsoFacts JsonModel JsonText TextFacts WireModel WireSpec WireFacts
  CljModel InventoryModel ClientModel EncodeModel EncodeFacts.
Local Open Scope nat_scope.

Lemma NoDup_sub {A} (a b : list A) : a `sublist_of` b → NoDup b → NoDup a.
Proof.
  induction 1 as [|x l1 l2 H IH|x l1 l2 H IH]; intros Hn; [done| |]; apply NoDup_cons in Hn as (H1&H2).
  - constructor; [|by apply IH]. intros Hx. apply H1. clear -H Hx. induction H; set_solver.
  - by apply IH.
Qed.
Lemma sub_opt {A} k (e : A → json) o rest ks :
  rest `sublist_of` ks → (put_opt k e o).*1 ++ rest `sublist_of` k :: ks.
Proof. intros H. destruct o; cbn; by constructor. Qed.
Lemma sub_if (b : bool) (k : string) (v : json) rest ks :
  rest `sublist_of` ks → (if b then [(k, v)] else []).*1 ++ rest `sublist_of` k :: ks.
Proof. intros H. destruct b; cbn; by constructor. Qed.

Ltac sub :=
  repeat (rewrite ?fmap_cons, ?fmap_app, ?fmap_nil; cbn [fst app]; rewrite <- ?(assoc_L app);
    first [done | apply sub_opt | apply sub_if | apply sublist_skip]);
  try (rewrite <- (app_nil_r (_.*1)); first [apply sub_opt|apply sub_if]; constructor); try (by constructor).
Ltac nodup ks := apply (NoDup_sub _ ks); [sub|apply (bool_decide_unpack _); by vm_compute].

Lemma keeps_plain k v : k ≠ "dct" → k ≠ "booking" → k ≠ "date" → keeps k v.
Proof. intros ???. split; [by intros [?|?]|done]. Qed.
Lemma keeps_date k d : ok_date d → k ≠ "dct" → k ≠ "booking" → keeps k (put_date d).
Proof.
  intros Hd ??. split; [by intros [?|?]|]. intros -> s [= <-]. exists d. split; [|done]. by apply parse_fmt_date.
Qed.
Lemma keeps_str k s : k ≠ "date" → keeps k (JStr s).
Proof. intros ?. split; [intros _; right; by eexists|done]. Qed.

Definition good (kv : string * json) : Prop := keeps kv.1 kv.2 ∧ stable kv.2.
Lemma good_opt {A} k (e : A → json) o (P : A → Prop) :
  all_opt P o → (∀ x, P x → good (k, e x)) → Forall good (put_opt k e o).
Proof. intros Ho He. destruct o; cbn; [|constructor]. constructor; [by apply He|constructor]. Qed.
Lemma all_opt_True {A} (o : option A) : all_opt (λ _, True) o.
Proof. by destruct o. Qed.

Lemma stable_num d : stable (put_num d).
Proof. constructor. Qed.
Lemma stable_date d : stable (put_date d).
Proof. constructor. Qed.
Lemma stable_span s : stable (put_span s).
Proof. repeat constructor. Qed.
Section Stable.
Context (ord : hash_order) (Hord : any_order ord).
Lemma stable_set X : stable (put_set ord X).
Proof. constructor. apply Forall_fmap, Forall_true. intros. constructor. Qed.
Lemma stable_meta v : ok_meta v → stable (put_meta v).
Proof.
  intros H. destruct v; cbn; [..|constructor];
    (constructor; [apply (bool_decide_unpack _); by vm_compute|]); repeat (apply Forall_cons_2 || apply Forall_nil_2);
    try (split; [by apply keeps_plain|constructor]).
  split; [by apply keeps_date|constructor].
Qed.
(** No entry is called [dct] or [booking], unless it is empty. *)
Definition no_clash (m : gmap string meta_value) : Prop :=
  ∀ k v, m !! k = Some v → k = "dct" ∨ k = "booking" → v = MVNull.
Lemma stable_metadata m : ok_metadata m → no_clash m → stable (put_metadata ord m).
Proof.
  intros Hm Hc. destruct Hord as (_&Ho). constructor.
  - rewrite <- list_fmap_compose. unfold compose. cbn. 
    assert (E : (λ x : string * meta_value, x.1) = fst) by done. rewrite E. rewrite Ho. apply NoDup_fst_map_to_list.
  - apply Forall_fmap. rewrite Ho. apply Forall_forall. intros [k v] Hin. apply elem_of_map_to_list in Hin.
    destruct (Hm k v Hin) as (_&Hv). cbn. split; [|by apply stable_meta].
    split; [|intros -> s E; by destruct v]. intros Hk. left. by rewrite (Hc k v Hin Hk).
Qed.
Local Ltac field_ok :=
  repeat first [ apply Forall_app; split | apply Forall_cons_2 | apply Forall_nil_2
               | eapply good_opt; [first [eassumption|apply all_opt_True]|intros] | (case_match; [|by constructor]) ];
  try (split; cbn [fst snd]; [first [by apply keeps_plain|by apply keeps_str]|
         first [apply stable_num|apply stable_span|apply stable_set|by constructor|idtac]]).
Lemma stable_cost_spec c : ok_cost_spec c → stable (put_cost_spec c).
Proof.
  intros (_&Hd). constructor; [nodup ["per-unit"; "total"; "cur"; "date"; "label"; "merge"]|].
  field_ok. split; [by apply keeps_date|constructor].
Qed.
Lemma stable_price_spec p : stable (put_price_spec p).
Proof. constructor; [nodup ["per-unit"; "total"; "cur"]|]. field_ok. Qed.
Lemma stable_price p : stable (put_price p).
Proof. constructor; [nodup ["per-unit"; "total"; "cur"]|]. field_ok. Qed.
Definition posting_no_clash (p : posting_spec) : Prop := all_opt no_clash (ps_metadata p).
Lemma good_metadata o : all_opt ok_metadata o → all_opt no_clash o → Forall good (put_opt "metadata" (put_metadata ord) o).
Proof.
  intros H1 H2. eapply (good_opt _ _ _ (λ m, ok_metadata m ∧ no_clash m)); [by destruct o|].
  intros m (?&?). split; [by apply keeps_plain|]. by apply stable_metadata.
Qed.
Lemma stable_posting p : ok_posting_spec p → posting_no_clash p → stable (put_posting_spec ord p).
Proof.
  intros (_&_&Hc&_&_&_&Hm) Hn.
  constructor; [nodup ["span"; "flag"; "acc"; "units"; "cur"; "cost-spec"; "price-spec"; "tags"; "links"; "metadata"]|].
  repeat (apply Forall_app; split); first [by apply good_metadata|field_ok].
  - by apply stable_cost_spec.
  - apply stable_price_spec.
Qed.
(** No metadata with such an entry. *)
Definition directive_no_clash (d : directive) : Prop :=
  all_opt no_clash (d_metadata d) ∧
  match d_variant d with DTransaction t => Forall posting_no_clash (tx_postings t) | _ => True end.
Definition variant_keys (v : directive_variant) : list string :=
  match v with
  | DTransaction _ => ["dct"; "flag"; "payee"; "narration"; "postings"]
  | DPrice _ => ["dct"; "cur"; "price"] | DBalance _ => ["dct"; "acc"; "units"; "cur"; "tolerance"]
  | DOpen _ => ["dct"; "acc"; "currencies"; "booking"] | DClose _ => ["dct"; "acc"] | DCommodity _ => ["dct"; "cur"]
  | DPad _ => ["dct"; "acc"; "source"] | DDocument _ _ => ["dct"; "acc"; "path"] | DNote _ _ => ["dct"; "acc"; "comment"]
  | DEvent _ _ => ["dct"; "type"; "description"] | DQuery _ _ => ["dct"; "name"; "content"] | DCustom _ => ["dct"; "type"; "values"]
  end.
Lemma variant_keys_sub v : (put_variant ord v).*1 `sublist_of` variant_keys v.
Proof.
  destruct v as [t|p|b|o|a|c|p|a p|a c|t d|n c|c]; cbn [variant_keys].
  3: destruct b as [a u c [t|]].
  5: destruct o as [a [c|] [b|]].
  1: destruct t as [f [p|] [n|] ps].
  all: cbn [put_variant put_price_dct put_balance put_open put_pad put_custom]; cbn; repeat constructor.
Qed.
Theorem stable_directive d : ok_directive d → directive_no_clash d → stable (put_directive ord d).
Proof.
  intros (Hd&_&_&Hm&Hv) (Hn&Hn'). constructor.
  - apply (NoDup_sub _ (["span"; "date"; "tags"; "links"; "metadata"] ++ variant_keys (d_variant d))).
    + rewrite !fmap_app. rewrite <- ?(assoc_L app). apply sub_opt. cbn [fmap list_fmap fst app]. apply sublist_skip. 
      repeat apply sub_opt. apply variant_keys_sub.
    + destruct (d_variant d); apply (bool_decide_unpack _); by vm_compute.
  - apply Forall_app; split; [field_ok|]. apply Forall_app; split.
    { apply Forall_cons_2; [|constructor]. split; [by apply keeps_date|constructor]. }
    apply Forall_app; split; [field_ok|]. apply Forall_app; split; [field_ok|]. apply Forall_app; split; [by apply good_metadata|].
    destruct (d_variant d); cbn [put_variant put_price_dct put_balance put_open put_pad put_custom]; field_ok.
    + constructor. apply Forall_fmap, Forall_forall. intros p Hp. rewrite Forall_forall in Hn'.
      apply stable_posting; [by apply Hv|by apply Hn'].
    + apply stable_price.
    + constructor. apply Forall_fmap, Forall_forall. intros p Hp. apply stable_meta. by apply Hv.
Qed.
End Stable.

(** The server reads back the directive it has sent. *)
Theorem sent_back dp ord so mo d :
  any_order ord → (∀ l, so l ≡ₚ l) → (∀ l, mo l ≡ₚ l) → ok_directive d → directive_no_clash d →
  get_directive dp (encode so mo (decode None (put_directive ord d))) = Some d.
Proof.
  intros Hord Hso Hmo Hd Hn. apply get_directive_iff. eapply kept_directive.
  - apply encode_decode; [done|done|]. by apply stable_directive.
  - apply get_directive_iff. by apply directive_round_trip.
Qed.
