(** Account totals agree with the booked postings. *)
From Coq Require Import Ascii QArith Qabs.
From stdpp Require Import prelude gmap strings pretty.
From Verif Require Import DecModel DecProofs LedgerTypes BookModel BookSpec BookLib
  BookSteps BookInv BookWf BookLife.
Local Open Scope nat_scope.
Local Arguments Qeq : simpl never.
Local Arguments Qplus : simpl never.
Local Arguments Qopp : simpl never.
Local Arguments dec_value : simpl never.

(** ** Rational sums *)

Lemma Qsum_app l l' : (Qsum (l ++ l') == Qsum l + Qsum l')%Q.
Proof.
  induction l as [|x l IH]; cbn; [by rewrite Qplus_0_l|].
  fold (Qsum (l ++ l')) (Qsum l). rewrite IH. by rewrite Qplus_assoc.
Qed.

Lemma Qsum_cons x l : Qsum (x :: l) = (x + Qsum l)%Q.
Proof. done. Qed.

Lemma Qsum_perm l l' : l ≡ₚ l' → (Qsum l == Qsum l')%Q.
Proof.
  induction 1; cbn.
  - done.
  - fold (Qsum l) (Qsum l'). by rewrite IHPermutation.
  - fold (Qsum l). ring.
  - by etrans.
Qed.

Lemma Qsum_zero {A} (f : A → Q) l : (∀ x, x ∈ l → f x == 0)%Q → (Qsum (f <$> l) == 0)%Q.
Proof.
  induction l as [|x l IH]; intros H; cbn; [done|]. fold (Qsum (f <$> l)).
  rewrite IH, H; [ring|by left|]. intros. apply H. by right.
Qed.

Lemma Qsum_ext {A} (f g : A → Q) l : (∀ x, x ∈ l → f x == g x)%Q → (Qsum (f <$> l) == Qsum (g <$> l))%Q.
Proof.
  induction l as [|x l IH]; intros H; cbn; [done|]. fold (Qsum (f <$> l)) (Qsum (g <$> l)).
  rewrite IH, H; [done|by left|]. intros. apply H. by right.
Qed.

Lemma Qsum_plus {A} (f g : A → Q) l :
  (Qsum ((λ x, f x + g x) <$> l) == Qsum (f <$> l) + Qsum (g <$> l))%Q.
Proof.
  induction l as [|x l IH]; cbn; [done|].
  fold (Qsum (f <$> l)) (Qsum (g <$> l)) (Qsum ((λ x, (f x + g x)%Q) <$> l)). rewrite IH. ring.
Qed.

Lemma Qsum_filter {A} (sel : A → bool) (f : A → Q) l :
  (Qsum (f <$> filter (λ x, sel x = true) l) == Qsum ((λ x, if sel x then f x else 0) <$> l))%Q.
Proof.
  induction l as [|x l IH]; [done|]. rewrite filter_cons. destruct (sel x) eqn:E; cbn.
  - rewrite decide_True by done. cbn. rewrite E.
    by fold (Qsum (f <$> filter (λ x, sel x = true) l)) (Qsum ((λ x, if sel x then f x else 0%Q) <$> l)); rewrite IH.
  - rewrite decide_False by congruence. rewrite E.
    fold (Qsum ((λ x, if sel x then f x else 0%Q) <$> l)). rewrite IH. ring.
Qed.

(** A sum over names of contributions of one name. *)
Lemma Qsum_single (names : list string) n (v : Q) (sel : string → bool) :
  NoDup names → n ∈ names →
  (Qsum ((λ m, if String.eqb n m then v else 0) <$> filter (λ m, sel m = true) names) ==
   if sel n then v else 0)%Q.
Proof.
  intros Hnd Hin. rewrite Qsum_filter. induction Hnd as [|m names Hm Hnd IH].
  - by apply elem_of_nil in Hin.
  - cbn. fold (Qsum ((λ x, if sel x then if String.eqb n x then v else 0 else 0)%Q <$> names)).
    destruct (String.eqb_spec n m) as [<-|Hne].
    + rewrite Qsum_zero; [destruct (sel n); ring|].
      intros x Hx. destruct (sel x); [|done]. destruct (String.eqb_spec n x) as [<-|]; done.
    + apply elem_of_cons in Hin as [->|Hin]; [done|]. rewrite IH by done.
      destruct (sel m); ring.
Qed.

(** ** Entries: everything booked which changes an account *)

Definition entry : Type := string * string * Q.

Definition posting_entry (p : posting) : entry := (p_acc p, p_cur p, dec_value (p_units p)).

Definition entries_of (b : bdirective) : list entry :=
  match b_variant b with
  | BVTransaction t => posting_entry <$> bt_postings t
  | BVBalance (BBalance r _ (Some m)) => [(bal_acc r, bal_cur r, dec_value m)]
  | _ => []
  end.

Definition entries (bs : list bdirective) : list entry := mbind entries_of bs.

Definition esum (sel : string → bool) (cur : string) (l : list entry) : Q :=
  Qsum ((λ e : entry, if sel e.1.1 && String.eqb e.1.2 cur then e.2 else 0%Q) <$> l).

Lemma esum_app sel cur l l' : (esum sel cur (l ++ l') == esum sel cur l + esum sel cur l')%Q.
Proof. unfold esum. rewrite fmap_app. apply Qsum_app. Qed.

Lemma entries_app bs bs' : entries (bs ++ bs') = entries bs ++ entries bs'.
Proof. unfold entries. apply bind_app. Qed.

Lemma esum_nil sel cur : esum sel cur [] = 0%Q.
Proof. done. Qed.

Lemma posted_app sel bs bs' : (posted sel (bs ++ bs') == posted sel bs + posted sel bs')%Q.
Proof. unfold posted. rewrite bind_app, filter_app, fmap_app. apply Qsum_app. Qed.

Lemma corrections_app base cur bs bs' :
  (corrections base cur (bs ++ bs') == corrections base cur bs + corrections base cur bs')%Q.
Proof. unfold corrections. rewrite omap_app. apply Qsum_app. Qed.

(** Entries in a subtree are the postings and the corrections. *)
Lemma esum_posted base cur bs :
  (esum (under base) cur (entries bs) ==
   posted (in_subtree base cur) bs + corrections base cur bs)%Q.
Proof.
  induction bs as [|b bs IH]; [done|].
  change (b :: bs) with ([b] ++ bs).
  rewrite entries_app, esum_app, posted_app, corrections_app, IH.
  assert (esum (under base) cur (entries [b]) ==
          posted (in_subtree base cur) [b] + corrections base cur [b])%Q as ->; [|ring].
  unfold entries, posted, corrections. cbn. rewrite !app_nil_r.
  unfold entries_of, postings_of. destruct (b_variant b) as [t| |[r u m]| | | | | | | | | ]; cbn; try done.
  - rewrite Qsum_filter. unfold esum. rewrite <- list_fmap_compose.
    rewrite Qplus_0_r. done.
  - destruct m as [m|]; cbn; [|done].
    destruct (under base (bal_acc r) && String.eqb (bal_cur r) cur); cbn; ring.
Qed.

(** Summing per account and then over the accounts of a subtree. *)
Lemma esum_by_account (names : list string) (sel : string → bool) cur l :
  NoDup names → (∀ e, e ∈ l → e.1.1 ∈ names) →
  (Qsum ((λ n, esum (String.eqb n) cur l) <$> filter (λ m, sel m = true) names) == esum sel cur l)%Q.
Proof.
  intros Hnd. induction l as [|e l IH]; intros Hin.
  - apply Qsum_zero. done.
  - rewrite <- (Qsum_ext (λ n, (if String.eqb e.1.1 n then (if String.eqb e.1.2 cur then e.2 else 0) else 0)
       + esum (String.eqb n) cur l)%Q).
    + rewrite Qsum_plus, IH by (intros; apply Hin; by right).
      rewrite Qsum_single; [|done|apply Hin; by left].
      unfold esum. cbn. destruct (sel e.1.1), (String.eqb e.1.2 cur); cbn; done.
    + intros n _. unfold esum. cbn. rewrite (String.eqb_sym e.1.1 n).
      destruct (String.eqb n e.1.1), (String.eqb e.1.2 cur); cbn; done.
Qed.

(** ** Sub-accounts *)

Lemma strip_prefix_spec pre s r : strip_prefix pre s = Some r ↔ s = pre +:+ r.
Proof.
  revert s. induction pre as [|c pre IH]; intros s; cbn.
  - split; [by intros [= ->]|by intros ->].
  - destruct s as [|d s]; [done|]. destruct (Ascii.eqb_spec c d) as [->|Hne].
    + rewrite IH. split; [by intros ->|by intros [= ->]].
    + split; [done|]. intros [= ? ?]. congruence.
Qed.

Lemma string_prefix_spec pre s : String.prefix pre s = true ↔ ∃ r, s = pre +:+ r.
Proof.
  revert s. induction pre as [|c pre IH]; intros s; cbn.
  - split; [intros _; by exists s|by destruct s].
  - destruct s as [|d s]; [split; [done|by intros [? ?]]|]. cbn.
    destruct (ascii_dec c d) as [->|Hne].
    + rewrite IH. split; [intros [r ->]; by exists r|intros [r [= ->]]; by exists r].
    + split; [done|]. intros [r [= ? ?]]. congruence.
Qed.

Lemma string_app_assoc (a b c : string) : (a +:+ b) +:+ c = a +:+ (b +:+ c).
Proof.
  induction a as [|x a IH]; [done|].
  change (String x ((a +:+ b) +:+ c) = String x (a +:+ (b +:+ c))). by rewrite IH.
Qed.

Lemma string_app_nil_r (a : string) : a +:+ "" = a.
Proof. induction a as [|x a IH]; [done|]. change (String x (a +:+ "") = String x a). by rewrite IH. Qed.

Lemma string_app_inj (a b c : string) : a +:+ b = a +:+ c → b = c.
Proof.
  induction a as [|x a IH]; [done|].
  change (String x (a +:+ b) = String x (a +:+ c) → b = c). intros [= ?]. by apply IH.
Qed.

Lemma is_nonstrict_subaccount_under base name : is_nonstrict_subaccount base name = under base name.
Proof.
  apply eq_bool_prop_intro. unfold is_nonstrict_subaccount, under.
  rewrite orb_True, !Is_true_true, String.eqb_eq, string_prefix_spec.
  destruct (strip_prefix base name) as [r|] eqn:E.
  - apply strip_prefix_spec in E as ->. destruct r as [|c r].
    + rewrite string_app_nil_r. split; [by left|done].
    + split.
      * intros H. apply Ascii.eqb_eq in H as ->. right. exists r. by rewrite string_app_assoc.
      * intros [H|[r' H]].
        -- rewrite <- (string_app_nil_r base) in H at 2. apply string_app_inj in H. done.
        -- rewrite string_app_assoc in H. apply string_app_inj in H. injection H as -> _. done.
  - split; [done|]. intros [->|[r ->]].
    + assert (strip_prefix base base = Some "") by (apply strip_prefix_spec; by rewrite string_app_nil_r).
      congruence.
    + assert (strip_prefix base ((base +:+ ":") +:+ r) = Some (":" +:+ r))
        by (apply strip_prefix_spec; by rewrite string_app_assoc). congruence.
Qed.

Lemma filter_fst {A B} (Q : A → Prop) `{∀ x, Decision (Q x)} (l : list (A * B)) :
  filter Q l.*1 = (filter (λ y, Q y.1) l).*1.
Proof.
  induction l as [|[a b] l IH]; [done|]. rewrite fmap_cons, !filter_cons. cbn [fst].
  destruct (decide (Q a)); rewrite ?fmap_cons; by rewrite IH.
Qed.

Local Arguments esum : simpl never.
Local Arguments entries : simpl never.
Local Arguments held : simpl never.

Section Units.
Context {P : Type} (L : booking_lib P).
Context (ord : gmap string (account P) → list (string * account P)).
Notation run := (run L ord).
Notation held := (held L).

Definition entry_dom (c : cst (P:=P)) : Prop :=
  ∀ e, e ∈ entries (c_booked c) → is_Some (s_accounts (c_acc c) !! e.1.1).

Definition totals (c : cst (P:=P)) : Prop :=
  ∀ a x cur, s_accounts (c_acc c) !! a = Some x →
    (held (a_positions x) cur == esum (String.eqb a) cur (entries (c_booked c)))%Q.

(** *** The roll-up *)

Context (Hord : ∀ m, ord m ≡ₚ map_to_list m).

Lemma rollup_value c base cur :
  entry_dom c → totals c →
  (dec_value (total_rollup_units_for_currency L ord (c_acc c) base cur) ==
   esum (under base) cur (entries (c_booked c)))%Q.
Proof.
  intros Hdom Htot. unfold total_rollup_units_for_currency, account_and_subaccounts.
  rewrite dec_sum_value.
  set (m := s_accounts (c_acc c)).
  set (names := (map_to_list m).*1).
  rewrite <- (esum_by_account names).
  2: { apply NoDup_fst_map_to_list. }
  2: { intros e He. apply Hdom in He as [x Hx]. apply elem_of_list_fmap. exists (e.1.1, x).
       split; [done|]. by apply elem_of_map_to_list. }
  transitivity (Qsum ((λ y : string * account P, held (a_positions y.2) cur) <$>
      filter (λ y, under base y.1 = true) (map_to_list m))).
  - transitivity (Qsum ((λ y : string * account P, held (a_positions y.2) cur) <$>
      filter (λ y, is_nonstrict_subaccount base y.1 = true) (ord m))).
    + generalize (filter (λ y : string * account P, is_nonstrict_subaccount base y.1 = true) (ord m)) as l.
      intros l. induction l as [|y l IH]; cbn; [done|].
      fold (Qsum ((λ y : string * account P, held (a_positions y.2) cur) <$> l)). by rewrite IH.
    + apply Qsum_perm. rewrite (Hord m).
      replace (filter (λ y : string * account P, is_nonstrict_subaccount base y.1 = true) (map_to_list m))
         with (filter (λ y : string * account P, under base y.1 = true) (map_to_list m)); [done|].
      apply list_filter_iff. intros y. by rewrite is_nonstrict_subaccount_under.
  - unfold names. rewrite filter_fst. rewrite <- list_fmap_compose.
    apply Qsum_ext. intros [n x] Hx. cbn. apply elem_of_list_filter in Hx as [_ Hx].
    apply elem_of_map_to_list in Hx. by apply Htot.
Qed.

(** *** Booking a transaction *)

Lemma update_inventory_ok s e l s' u :
  NoDup l.*1 → update_inventory (P:=P) s e l = (s', ROk u) →
  ∀ a, s_accounts s' !! a =
       (λ x, set_positions x (default (a_positions x) ((list_to_map l : gmap string P) !! a)))
         <$> s_accounts s !! a.
Proof.
  revert s. induction l as [|[n p] l IH]; intros s Hnd; cbn.
  - intros [= <- _] a. destruct (s_accounts s !! a) as [x|]; cbn; [|done].
    rewrite lookup_empty. cbn. by rewrite set_positions_id.
  - cbn in Hnd. apply NoDup_cons in Hnd as [Hn Hnd].
    unfold get_valid_account. destruct (validate_account s n e); [done|].
    destruct (s_accounts s !! n) as [x|] eqn:E; [|done].
    intros H a. rewrite (IH _ Hnd H). cbn. destruct (decide (n = a)) as [<-|Hne].
    + rewrite !lookup_insert, E. cbn. rewrite not_elem_of_list_to_map_1 by done. done.
    + by rewrite !lookup_insert_ne.
Qed.

Lemma book_txn_ok_inv s dt ps e s' l :
  book_txn L s dt ps e = (s', ROk l) →
  ∃ ips upd u, lib_book L dt ps (λ name, a_positions <$> s_accounts s !! name)
          (λ name, match s_accounts s !! name with
                   | Some a => a_booking a
                   | None => s_default_booking s
                   end) = LibOk ips upd ∧
    validate_postings s e 0 (zip ips ps) = ROk u ∧
    l = booked_postings_from 0 (zip ips ps) ∧ update_inventory s e upd = (s', ROk u).
Proof.
  unfold book_txn. destruct (lib_book _ _ _ _ _) as [ips upd|msg|idx msg] eqn:El; [|done..].
  destruct (validate_postings _ _ _ _) as [u| |] eqn:Ev; [|done..].
  destruct (update_inventory s e upd) as [s1 [u'| |]] eqn:Eu; [|done..].
  intros [= <- <-]. exists ips, upd, u. destruct u, u'. done.
Qed.

Lemma validate_postings_ok_elem s e i l u ip ps :
  validate_postings (P:=P) s e i l = ROk u → (ip, ps) ∈ l →
  ∃ x, is_Some (s_open s !! ps_acc ps) ∧ s_accounts s !! ps_acc ps = Some x ∧
    is_currency_valid x (in_currency ip) = true.
Proof.
  revert i. induction l as [|[ip' ps'] l IH]; intros i Hv Hin; [by apply elem_of_nil in Hin|].
  cbn in Hv. unfold validate_account_and_currency, get_valid_account in Hv.
  destruct (validate_account _ _ _) eqn:Ea; [done|].
  destruct (s_accounts s !! ps_acc ps') as [x|] eqn:Ex; [|done].
  unfold validate_currency in Hv. destruct (is_currency_valid x (in_currency ip')) eqn:Ec; [|done].
  apply elem_of_cons in Hin as [[= -> ->]|Hin]; [|by eapply IH].
  exists x. split; [|done]. by eapply validate_account_open.
Qed.

Lemma booked_postings_of_acc i ip ps p :
  p ∈ booked_postings_of i ip ps → p_acc p = ps_acc ps ∧ p_cur p = in_currency ip.
Proof.
  unfold booked_postings_of. destruct (in_cost ip) as [costs|].
  - intros ([cc c] & -> & _)%elem_of_list_fmap. done.
  - by intros ->%elem_of_list_singleton.
Qed.

Lemma booked_postings_from_elem i l p :
  p ∈ booked_postings_from i l → ∃ j ip ps, l !! j = Some (ip, ps) ∧ p ∈ booked_postings_of (i + j) ip ps.
Proof.
  revert i. induction l as [|[ip ps] l IH]; intros i; cbn; [by intros ?%elem_of_nil|].
  intros [Hp|Hp]%elem_of_app.
  - exists 0, ip, ps. rewrite Nat.add_0_r. done.
  - apply IH in Hp as (j & ip' & ps' & Hj & Hp). exists (S j), ip', ps'. split; [done|].
    by rewrite Nat.add_succ_r.
Qed.

Context (Hlib : lib_ok L).

Lemma esum_booked_of a cur i ip ps :
  (∀ costs, in_cost ip = Some costs →
     Qsum ((λ c : string * posting_cost, dec_value (pc_units c.2)) <$> costs) == dec_value (in_units ip))%Q →
  (esum (String.eqb a) cur (posting_entry <$> booked_postings_of i ip ps) ==
   if String.eqb (ps_acc ps) a && String.eqb (in_currency ip) cur then dec_value (in_units ip) else 0)%Q.
Proof.
  intros Hlots. unfold booked_postings_of. rewrite (String.eqb_sym (ps_acc ps) a).
  destruct (in_cost ip) as [costs|].
  - specialize (Hlots costs eq_refl). unfold esum. rewrite <- !list_fmap_compose.
    destruct (String.eqb a (ps_acc ps) && String.eqb (in_currency ip) cur) eqn:E.
    + rewrite <- Hlots. apply Qsum_ext. intros [cc c] _. cbn. by rewrite E.
    + apply Qsum_zero. intros [cc c] _. cbn. by rewrite E.
  - unfold esum. cbn. destruct (_ && _); ring.
Qed.

Lemma esum_booked_from a cur i l :
  (∀ ip ps costs, (ip, ps) ∈ l → in_cost ip = Some costs →
     Qsum ((λ c : string * posting_cost, dec_value (pc_units c.2)) <$> costs) == dec_value (in_units ip))%Q →
  (esum (String.eqb a) cur (posting_entry <$> booked_postings_from i l) == interpolated_units a cur l)%Q.
Proof.
  revert i. induction l as [|[ip ps] l IH]; intros i Hl; [done|]. cbn [booked_postings_from].
  rewrite fmap_app, esum_app, IH, esum_booked_of.
  - unfold interpolated_units. rewrite fmap_cons, Qsum_cons. cbn. done.
  - intros costs. apply (Hl ip ps). by left.
  - intros ip' ps' costs Hin. apply (Hl ip' ps'). by right.
Qed.

(** *** The invariant *)

Lemma esum_insert sel cur bs j x y :
  bs !! j = Some x → entries_of x = [] →
  (esum sel cur (entries (<[j := y]> bs)) == esum sel cur (entries bs) + esum sel cur (entries_of y))%Q.
Proof.
  intros Hj Hx. rewrite <- (take_drop_middle bs j x Hj) at 2.
  rewrite insert_take_drop by (by eapply lookup_lt_Some).
  rewrite !entries_app, !esum_app. unfold entries at 2 4. cbn [mbind list_bind].
  fold (entries (drop (S j) bs)). rewrite Hx, esum_app. cbn [app].
  ring.
Qed.

Lemma entries_insert_elem bs j y e :
  e ∈ entries (<[j := y]> bs) → e ∈ entries bs ∨ e ∈ entries_of y.
Proof.
  intros (b & He & Hb)%elem_of_list_bind. apply elem_of_list_lookup in Hb as [k Hk].
  apply list_lookup_insert_Some in Hk as [(<- & <- & _)|[_ Hk]]; [by right|].
  left. apply elem_of_list_bind. exists b. split; [done|]. by eapply elem_of_list_lookup_2.
Qed.

Definition units_inv (c : cst (P:=P)) : Prop := entry_dom c ∧ totals c.

(** Steps which book nothing that changes an account. *)
Lemma units_inv_same c s' errs bs :
  units_inv c → entries bs = [] →
  (∀ a, match s_accounts s' !! a with
        | Some y => ∃ x, s_accounts (c_acc c) !! a = Some x ∧ a_positions y = a_positions x
        | None => s_accounts (c_acc c) !! a = None
        end) →
  units_inv (CSt s' errs (c_booked c ++ bs)).
Proof.
  intros [Hd Ht] Hbs Ha. split.
  - intros e He. cbn in *. rewrite entries_app, Hbs, app_nil_r in He. apply Hd in He as [x Hx].
    specialize (Ha e.1.1). destruct (s_accounts s' !! e.1.1); [done|congruence].
  - intros a y cur Hy. cbn in *. specialize (Ha a). rewrite Hy in Ha. destruct Ha as (x & Hx & ->).
    rewrite entries_app, Hbs, app_nil_r. by apply Ht.
Qed.

Lemma same_positions_put (s : accst P) n x y :
  s_accounts s !! n = Some x → a_positions y = a_positions x →
  ∀ a, match s_accounts (put_account s n y) !! a with
       | Some y => ∃ x, s_accounts s !! a = Some x ∧ a_positions y = a_positions x
       | None => s_accounts s !! a = None
       end.
Proof.
  intros Hx Hy a. cbn. destruct (decide (n = a)) as [<-|Hne].
  - rewrite lookup_insert. eauto.
  - rewrite lookup_insert_ne by done. destruct (s_accounts s !! a) eqn:E; eauto.
Qed.

Lemma same_positions_refl (s : accst P) :
  ∀ a, match s_accounts s !! a with
       | Some y => ∃ x, s_accounts s !! a = Some x ∧ a_positions y = a_positions x
       | None => s_accounts s !! a = None
       end.
Proof. intros a. destruct (s_accounts s !! a); eauto. Qed.

Lemma book_txn_err_state s dt ps e s' err :
  (∀ n x, s_open s !! n = Some x → is_Some (s_accounts s !! n)) →
  book_txn L s dt ps e = (s', RErr err) → s' = s.
Proof.
  intros Hdom. unfold book_txn. destruct (lib_book _ _ _ _ _) as [ips upd|msg|idx msg] eqn:El;
    [|by intros [= <- _]..].
  destruct (validate_postings _ _ _ _) as [u| |] eqn:Ev; [|by intros [= <- _]|done].
  destruct (lk_names L Hlib _ _ _ _ _ _ El) as [Hnd Hsub].
  pose proof (lk_length L Hlib _ _ _ _ _ _ El) as Hlen.
  assert (∀ n, n ∈ upd.*1 → is_Some (s_open s !! n)) as Hopen.
  { intros n Hn. apply Hsub in Hn. apply elem_of_list_fmap in Hn as (psp & -> & Hps).
    apply elem_of_list_lookup in Hps as [j Hj].
    destruct (ips !! j) as [ip|] eqn:Eip.
    2: { apply lookup_ge_None in Eip. apply lookup_lt_Some in Hj. lia. }
    eapply (validate_postings_ok_elem _ _ _ _ _ ip psp) in Ev as (x & ? & _); [done|].
    eapply elem_of_list_lookup_2. rewrite lookup_zip_with, Eip. cbn. by rewrite Hj. }
  assert (∀ l s1, only_positions s s1 → (∀ n, n ∈ l.*1 → is_Some (s_open s !! n)) →
     ∃ s2, update_inventory s1 e l = (s2, ROk tt)) as Hupd.
  { induction l as [|[n p] l IH]; intros s1 Ho Hall; cbn; [eauto|].
    destruct Ho as (Ho & Hr). destruct (Hall n) as [z Hz]; [by left|].
    unfold get_valid_account, validate_account. rewrite Ho, Hz.
    destruct (Hdom n z Hz) as [x Hx]. destruct Hr as (Hr1 & Hr2 & Hr3 & Hr4).
    pose proof (Hr4 n) as Hr4n. rewrite Hx in Hr4n.
    destruct (s_accounts s1 !! n) as [x1|] eqn:Ex1; [|done].
    apply IH; [|intros; apply Hall; by right].
    eapply only_positions_trans; [|by apply only_positions_put]. done. }
  destruct (Hupd upd s) as [s2 Hs2]; [apply only_positions_refl|done|].
  rewrite Hs2. done.
Qed.

Lemma units_step ds d c c' :
  wf ds c → units_inv c → step_rel L ord (length ds) d c c' → units_inv c'.
Proof.
  intros Hwf Hinv Hstep. pose proof Hinv as [Hdom Htot].
  assert (∀ s' errs, (∀ a, match s_accounts s' !! a with
        | Some y => ∃ x, s_accounts (c_acc c) !! a = Some x ∧ a_positions y = a_positions x
        | None => s_accounts (c_acc c) !! a = None
        end) → units_inv (CSt s' errs (c_booked c))) as Hsame.
  { intros s' errs Ha. rewrite <- (app_nil_r (c_booked c)). by apply units_inv_same. }
  destruct Hstep as [v Hv|t s' l Hv Hb|t s' err Hv Hb|o j Hv Ho|o j Hv Ho Hc|o s' bk ws Hv Ho Hc Hbk Hs'
    |a j Hv Ho Hc|a j k Hv Ho Hc|a Hv Ho|p err Hv Hva|p a k u Hv Hva Ha Hp|p a Hv Hva Ha Hp
    |b err Hv Hva|b a err Hv Hva Ha Hvc|b a Hv Hva Ha Hvc Hm|b a m s' rep Hv Hva Ha Hvc Hm Hp Hs' Hrep
    |b a m k u padd p txnd txn pa s' Hv Hva Ha Hvc Hm Hp Hk Hkv Hk1 Hk1v Hs' Hpa].
  - apply units_inv_same; [done| |apply same_positions_refl].
    destruct (d_variant d); try done; injection Hv as <-; done.
  - (* transaction *)
    apply book_txn_ok_inv in Hb as (ips & upd & u & El & Ev & -> & Eu).
    destruct (lk_names L Hlib _ _ _ _ _ _ El) as [Hnd _].
    pose proof (update_inventory_ok _ _ _ _ _ Hnd Eu) as Hacc.
    set (z := zip ips (tx_postings t)) in *.
    split.
    + intros e He. cbn in *. rewrite Hacc. apply fmap_is_Some.
      rewrite entries_app in He. apply elem_of_app in He as [He|He]; [by apply Hdom|].
      unfold entries in He. cbn in He. rewrite app_nil_r in He.
      apply elem_of_list_fmap in He as (q & -> & Hq). cbn.
      apply booked_postings_from_elem in Hq as (j & ip & ps & Hj & Hq).
      apply booked_postings_of_acc in Hq as [-> _].
      apply elem_of_list_lookup_2 in Hj.
      eapply validate_postings_ok_elem in Ev as (x & _ & -> & _); eauto.
    + intros a y cur Hy. cbn in *. rewrite Hacc in Hy.
      destruct (s_accounts (c_acc c) !! a) as [x|] eqn:Ex; [|done]. injection Hy as <-. cbn.
      rewrite entries_app, esum_app. unfold entries at 2. cbn. rewrite app_nil_r.
      rewrite esum_booked_from.
      2: { intros ip ps costs Hin Hcost. eapply (lk_lots L Hlib); [exact El| |done].
           by eapply elem_of_zip_l. }
      rewrite <- (Htot a x cur Ex).
      assert (((λ name, a_positions <$> s_accounts (c_acc c) !! name) a) = Some (a_positions x)) as Ex'
        by (by rewrite Ex).
      pose proof (lk_units L Hlib _ _ _ _ _ _ a (a_positions x) cur El Ex') as Hu. fold z in Hu.
      rewrite <- Hu.
      by destruct (list_to_map upd !! a).
  - apply book_txn_err_state in Hb as ->; [by apply Hsame, same_positions_refl|].
    intros n x Hx. apply (wf_dom _ _ Hwf). eauto.
  - apply Hsame, same_positions_refl.
  - apply Hsame. cbn. apply same_positions_refl.
  - (* open *)
    assert (s_accounts (c_acc c) !! op_acc o = None) as Hnone.
    { destruct (s_accounts (c_acc c) !! op_acc o) eqn:E; [|done].
      destruct (proj1 (wf_dom _ _ Hwf (op_acc o))) as [[? ?]|[? ?]]; [eauto|congruence..]. }
    subst s'. split.
    + intros e He. cbn in *. rewrite entries_app, app_nil_r in He. apply Hdom in He.
      destruct (decide (op_acc o = e.1.1)) as [->|Hne].
      * rewrite lookup_insert. eauto.
      * by rewrite lookup_insert_ne.
    + intros a y cur Hy. cbn in *. rewrite entries_app, app_nil_r.
      destruct (decide (op_acc o = a)) as [<-|Hne].
      * rewrite lookup_insert in Hy. injection Hy as <-. cbn.
        rewrite (lk_empty L Hlib). symmetry. apply Qsum_zero. intros e He.
        destruct (String.eqb_spec (op_acc o) e.1.1) as [E|]; [|done].
        apply Hdom in He. rewrite <- E, Hnone in He. by destruct He.
      * rewrite lookup_insert_ne in Hy by done. by apply Htot.
  - apply units_inv_same; [done|done|]. cbn. apply same_positions_refl.
  - apply Hsame, same_positions_refl.
  - apply Hsame, same_positions_refl.
  - apply Hsame, same_positions_refl.
  - apply Hsame. by eapply same_positions_put.
  - apply units_inv_same; [done|done|]. by eapply same_positions_put.
  - apply Hsame, same_positions_refl.
  - apply Hsame, same_positions_refl.
  - apply units_inv_same; [done|done|]. by eapply same_positions_put.
  - (* failed balance *)
    subst s'. split.
    + intros e He. cbn in *. rewrite entries_app in He. apply elem_of_app in He as [He|He].
      * apply Hdom in He. destruct (decide (bal_acc b = e.1.1)) as [->|Hne].
        -- rewrite lookup_insert. eauto.
        -- by rewrite lookup_insert_ne.
      * unfold entries in He. cbn in He. apply elem_of_list_singleton in He as ->. cbn.
        rewrite lookup_insert. eauto.
    + intros n y cur Hy. cbn in *. rewrite entries_app, esum_app. unfold entries at 2. cbn.
      unfold esum at 2. cbn. destruct (decide (bal_acc b = n)) as [<-|Hne].
      * rewrite lookup_insert in Hy. injection Hy as <-. cbn.
        rewrite (lk_accumulate L Hlib), (Htot _ _ _ Ha), String.eqb_refl. cbn.
        destruct (String.eqb (bal_cur b) cur); ring.
      * rewrite lookup_insert_ne in Hy by done. rewrite (Htot _ _ _ Hy).
        destruct (String.eqb_spec n (bal_acc b)) as [->|]; [done|]. cbn. ring.
  - (* padded *)
    pose proof (wf_account _ _ Hwf _ _ Ha) as (_ & Hpad & _). apply Hpad in Hp as Hpp.
    destruct Hpp as (i & d' & p' & _ & _ & _ & _ & _ & Htx).
    assert (entries_of txnd = []) as Hempty by (rewrite Hk1 in Htx; by injection Htx as ->).
    assert (∀ sel cur, esum sel cur (entries (<[S k := set_variant txnd (BVTransaction (set_postings txn
          (calculate_balance_pad_postings (bal_cur b) m (bal_acc b) (pad_source p))))]> (c_booked c)
       ++ [booked_of (length ds) d (BVBalance (BBalance b None None))])) ==
       esum sel cur (entries (c_booked c)) +
       ((if sel (bal_acc b) && String.eqb (bal_cur b) cur then dec_value m else 0) +
        (if sel (pad_source p) && String.eqb (bal_cur b) cur then - dec_value m else 0)))%Q as Hent.
    { intros sel cur. rewrite entries_app, esum_app, (esum_insert _ _ _ _ _ _ Hk1 Hempty).
      unfold entries at 2. cbn. unfold esum at 2 3. cbn.
      destruct (sel (pad_source p) && String.eqb (bal_cur b) cur); rewrite ?dec_neg_value; ring. }
    split.
    + intros e He. cbn in *.
      assert (is_Some (s_accounts s' !! e.1.1)) as Hin.
      { rewrite entries_app in He. apply elem_of_app in He as [He|He]; [|by apply elem_of_nil in He].
        apply entries_insert_elem in He as [He|He].
        - apply Hdom in He. subst s'. cbn. destruct (decide (bal_acc b = e.1.1)) as [->|Hne].
          + rewrite lookup_insert. eauto.
          + by rewrite lookup_insert_ne.
        - cbn in He. apply elem_of_cons in He as [->|He].
          + subst s'. cbn. rewrite lookup_insert. eauto.
          + apply elem_of_list_singleton in He as ->. cbn. eauto. }
      destruct (decide (pad_source p = e.1.1)) as [->|Hne].
      * rewrite lookup_insert. eauto.
      * by rewrite lookup_insert_ne.
    + intros n y cur Hy. cbn [c_acc c_booked] in *. rewrite Hent.
      assert (∀ x1, s_accounts s' !! n = Some x1 → held (a_positions x1) cur ==
         esum (String.eqb n) cur (entries (c_booked c)) +
         (if String.eqb n (bal_acc b) && String.eqb (bal_cur b) cur then dec_value m else 0))%Q as Hmid.
      { intros x1 Hx1. subst s'. cbn in Hx1. destruct (decide (bal_acc b = n)) as [<-|Hne].
        - rewrite lookup_insert in Hx1. injection Hx1 as <-. cbn.
          rewrite (lk_accumulate L Hlib), (Htot _ _ _ Ha), String.eqb_refl. done.
        - rewrite lookup_insert_ne in Hx1 by done. rewrite (Htot _ _ _ Hx1).
          destruct (String.eqb_spec n (bal_acc b)) as [->|]; [done|]. cbn. ring. }
      cbn in Hy. destruct (decide (pad_source p = n)) as [<-|Hne].
      * rewrite lookup_insert in Hy. injection Hy as <-. cbn.
        rewrite (lk_accumulate L Hlib), (Hmid _ Hpa), String.eqb_refl. cbn.
        destruct (String.eqb (bal_cur b) cur); rewrite ?dec_neg_value; ring.
      * rewrite lookup_insert_ne in Hy by done. rewrite (Hmid _ Hy).
        destruct (String.eqb_spec n (pad_source p)) as [->|]; [done|]. cbn. ring.
Qed.

Lemma units_run opt ds c : run opt ds = CRun c → units_inv c.
Proof.
  revert ds c. eapply run_ind.
  - split.
    + intros e He. by apply elem_of_nil in He.
    + intros a x cur Hx. cbn in Hx. by rewrite lookup_empty in Hx.
  - intros ds d c c' Hrun Hinv Hstep. apply collect_step_rel in Hstep.
    eapply units_step; [|done|done]. by eapply wf_run.
Qed.

Lemma rollup_run opt ds c base cur :
  run opt ds = CRun c →
  (dec_value (total_rollup_units_for_currency L ord (c_acc c) base cur) ==
   posted (in_subtree base cur) (c_booked c) + corrections base cur (c_booked c))%Q.
Proof.
  intros Hrun. destruct (units_run _ _ _ Hrun) as [Hd Ht].
  rewrite rollup_value by done. apply esum_posted.
Qed.

End Units.
