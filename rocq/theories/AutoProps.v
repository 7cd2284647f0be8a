(** Theorems about the plugin [auto_accounts]. *)
From Coq Require Import Ascii QArith Sorted.
From stdpp Require Import prelude gmap strings.
From Verif Require Import DecModel LedgerTypes IsoModel JsonModel WireModel CljModel InventoryModel InventorySpec OrderFacts ClientModel FormatModel
  PluginModel PluginSpec PluginProps AutoModel AutoSpec AutoFacts.
Local Open Scope nat_scope.

(** * Samples *)
Definition plugin_name : string := "beancount.plugins.auto_accounts".
Definition auto_plugin : plugin := raw_plugin plugin_name auto_accounts.
Definition a_balance (acc : string) : cval :=
  VMap [("dct", VKw "balance"); ("date", VDate day); ("acc", VStr acc); ("units", VNum (CLong 5)); ("cur", VStr "NZD")].
Definition a_ledger : list cval :=
  [s_open 0 "Assets:Cash"; s_txn 10 [s_posting "Income:Gift" (-5); s_posting "Assets:Cash" 2; s_posting "Assets:Bank" 3];
   s_txn 20 [s_posting "Income:Gift" (-1); s_posting "Expenses:Food" 1]].
Definition a_opened (acc : string) : cval :=
  VMap [("dct", VKw "open"); ("date", VDate day); ("acc", VStr acc); ("metadata", VMap [("auto", VNil)]);
        ("provenance", VVec [VStr plugin_name])].

Lemma named_open n a : accounts_named (s_open n a).
Proof. intros E. discriminate E. Qed.
Lemma named_txn n ps : Forall (λ p, ∃ a, vget "acc" p = Some (VStr a)) ps → accounts_named (s_txn n ps).
Proof.
  intros H _ ps' p E Hp. injection E as <-. rewrite Forall_forall in H. eauto.
Qed.
Lemma a_ledger_named : Forall accounts_named a_ledger.
Proof. repeat constructor; first [apply named_open|apply named_txn; repeat constructor; by eexists]. Qed.

(** * C57 *)
(** The plugin, wherever it is among the plugins: of the directives which reach it none
    is changed or moved, and before each transaction those of its accounts are opened
    which were neither opened nor posted to before. *)
Theorem C57_opens code spec ps a name b ds out :
  (∀ i j, code i = code j → i = j) →
  of_phase false ps = a ++ (name, auto_accounts) :: b →
  run_plugins code spec ps false ds = Some out →
  ∃ received given, chain spec false a ds = Some received ∧ chain spec false b given = Some out ∧
    (Forall accounts_named received → with_opens name received given).
Proof.
  intros Hc Hps. rewrite C50_chain by done. destruct (acceptable spec ds); [|done]. rewrite Hps. clear Hps.
  revert ds. induction a as [|p a IH]; intros ds; cbn [app chain].
  - destruct (through _ _ _ _) as [given|] eqn:E; [|done]. intros H. exists ds, given.
    split; [done|]. split; [done|]. intros. by eapply through_auto.
  - destruct (through _ _ p ds) as [ds'|]; [|done]. intros H. destruct (IH ds' H) as (rc & gv & H1 & H2 & H3). eauto.
Qed.
Print Assumptions C57_opens.
Example C57_opens_example :
  of_phase false [auto_plugin; raw_plugin "p.adding" adding] = [] ++ (plugin_name, auto_accounts) :: [("p.adding", adding)] ∧
  Forall accounts_named a_ledger ∧
  ∃ n, run_plugins id any_spec [auto_plugin; raw_plugin "p.adding" adding] false a_ledger =
    Some [s_open 0 "Assets:Cash"; a_opened "Assets:Bank"; a_opened "Income:Gift";
          s_txn 10 [s_posting "Income:Gift" (-5); s_posting "Assets:Cash" 2; s_posting "Assets:Bank" 3];
          a_opened "Expenses:Food"; s_txn 20 [s_posting "Income:Gift" (-1); s_posting "Expenses:Food" 1]; n].
Proof. split; [done|]. split; [apply a_ledger_named|]. eexists. by vm_compute. Qed.

(** Before each transaction there is an open of each account it posts to. *)
Theorem C57_before name ds out pre t post a :
  with_opens name ds out → out = pre ++ t :: post → posts_to t a → ∃ o, o ∈ pre ∧ opens o a.
Proof.
  intros (opened & Hl & -> & H) E Hp.
  destruct (split_groups _ _ _ _ _ E) as (n & os & d & Ho & Hd & Hcase). cbn zeta in Hcase.
  destruct Hcase as [[-> ->]|(os1 & os2 & -> & _)].
  - destruct (with_opens_before _ _ _ a Hl H n os d Ho Hd Hp) as (o & ? & ?). eauto.
  - destruct (H n d _ Hd Ho) as (accs & Hf & _). apply Forall2_app_inv_r in Hf as (? & ? & _ & Hf & _).
    apply Forall2_cons_inv_r in Hf as (? & ? & Hof & _ & _). destruct Hof as [[Eo _] _]. destruct Hp as [Et _]. congruence.
Qed.
Print Assumptions C57_before.
Example C57_before_example :
  ∃ out pre t post, run_plugins id any_spec [auto_plugin] false a_ledger = Some out ∧ out = pre ++ t :: post ∧
    posts_to t "Income:Gift" ∧ length pre = 3.
Proof.
  eexists _, _, _, _. split; [by vm_compute|]. split.
  { instantiate (3 := [_; _; _]). cbn [app]. reflexivity. }
  split; [|done]. split; [done|]. eexists _, _. split; [done|]. split; [apply elem_of_list_here|done].
Qed.

(** An account is opened by the plugin only if there is no open of it before, hence at
    most once.  The mark of the plugin tells its opens from those which were there. *)
Theorem C57_once name ds out pre o post a :
  with_opens name ds out → (∀ d, d ∈ ds → vget "provenance" d ≠ Some (VVec [VStr name])) →
  out = pre ++ o :: post → opens o a → vget "provenance" o = Some (VVec [VStr name]) →
  ∀ e, e ∈ pre → ¬ opens e a.
Proof.
  intros (opened & Hl & -> & H) Hno E Hoa Hm e He Hea.
  destruct (split_groups _ _ _ _ _ E) as (n & os & d & Ho & Hd & Hcase). cbn zeta in Hcase.
  destruct Hcase as [[-> ->]|(os1 & os2 & -> & ->)].
  { eapply Hno; [|exact Hm]. by eapply elem_of_list_lookup_2. }
  destruct (H n d _ Hd Ho) as (accs & Hf & Hs & Hin).
  apply Forall2_app_inv_r in Hf as (accs1 & accs2 & Hf1 & Hf2 & ->).
  apply Forall2_cons_inv_r in Hf2 as (a' & accs2' & Ha' & Hf2 & ->).
  assert (a' = a) as ->. { destruct Ha' as [[_ E1] _], Hoa as [_ E2]. congruence. }
  assert (a ∈ accs1 ++ a :: accs2') as Ha. { apply elem_of_app. right. by left. }
  apply Hin in Ha as [Hp Hfirst].
  apply elem_of_app in He as [He|He].
  - apply elem_of_list_join in He as (g & Hg & He). apply elem_of_list_lookup in He as [j Hj].
    apply lookup_zip_with_Some in Hj as (osj & dj & -> & Hoj & Hdj).
    apply lookup_take_Some in Hoj as [Hoj ?], Hdj as [Hdj ?].
    destruct (Hfirst j dj) as [Hno1 Hno2]; [done|done|].
    apply elem_of_app in Hg as [Hg|Hg%elem_of_list_singleton]; [|by subst].
    destruct (H j dj osj Hdj Hoj) as (accsj & Hfj & _ & Hinj).
    apply elem_of_list_lookup in Hg as [k Hk]. eapply Forall2_lookup_r in Hfj as (b & Hb & Hbo); [|exact Hk].
    assert (b = a) as ->. { destruct Hbo as [[_ E1] _], Hea as [_ E2]. congruence. }
    apply Hno2. apply Hinj. by eapply elem_of_list_lookup_2.
  - apply elem_of_list_lookup in He as [k Hk]. eapply Forall2_lookup_r in Hf1 as (b & Hb & Hbo); [|exact Hk].
    assert (b = a) as ->. { destruct Hbo as [[_ E1] _], Hea as [_ E2]. congruence. }
    apply elem_of_list_lookup_2 in Hb.
    assert (NoDup (accs1 ++ a :: accs2')) as Hnd.
    { clear -Hs. induction Hs as [|x l Hs IH Hf]; constructor; [|done]. rewrite Forall_forall in Hf.
      intros Hx. specialize (Hf _ Hx). apply str_compare_lt in Hf.
      assert (str_compare x x = Eq) by by apply str_compare_eq. congruence. }
    apply NoDup_app in Hnd as (_ & Hnd & _). eapply Hnd; [exact Hb|]. by left.
Qed.
Print Assumptions C57_once.
Example C57_once_example :
  ∃ out pre o post, run_plugins id any_spec [auto_plugin] false a_ledger = Some out ∧ out = pre ++ o :: post ∧
    (∀ d, d ∈ a_ledger → vget "provenance" d ≠ Some (VVec [VStr plugin_name])) ∧
    opens o "Expenses:Food" ∧ vget "provenance" o = Some (VVec [VStr plugin_name]) ∧ length pre = 4.
Proof.
  eexists _, _, _, _. split; [by vm_compute|]. split.
  { instantiate (3 := [_; _; _; _]). cbn [app]. reflexivity. }
  split; [|done]. intros d Hd. repeat (apply elem_of_cons in Hd as [->|Hd]; [done|]). by apply elem_of_nil in Hd.
Qed.

(** The transducer as it is written, which does not use the result of adding the opens,
    does what the plugin is said to do if results refer to one collection which is
    changed, as it is with [into]. *)
Theorem C57_reducing {R M} (rf : R → cval → M → R * M) r s ds :
  (∀ r d s, (rf r d s).1 = r) →
  auto_reduce rf r ds s ∅ = (λ xs, fold_left (λ rs x, rf rs.1 x rs.2) xs (r, s)) <$> passed_on auto_accounts ds.
Proof.
  intros Hrf. rewrite auto_reduce_emissions by done. unfold all_results. f_equal.
  unfold passed_on, beginnings. cbn [auto_accounts px_done].
  assert (∀ h opened, fold_opt auto_opened ∅ h = Some opened →
    emissions ds opened = mjoin <$> mapM (λ b, (λ es, es ≫= (λ e, match e with Pass j => option_list (b !! j) | Emit d => [d] end)) <$> px_step auto_accounts b)
      ((λ n, h ++ take (S n) ds) <$> seq 0 (length ds))) as H.
  2:{ rewrite (H [] ∅ eq_refl). cbn [app].
      destruct (mapM _ _) as [outs|]; [|done]. cbn [fmap option_fmap option_map mbind list_bind]. by rewrite app_nil_r. }
  induction ds as [|d ds IH]; intros h opened Eh; [done|].
  cbn [length seq]. rewrite <- fmap_S_seq, fmap_cons, <- list_fmap_compose.
  cbn [emissions take mapM]. 
  assert ((λ n, h ++ d :: take n ds) ∘ S <$> seq 0 (length ds) = (λ n, (h ++ [d]) ++ take (S n) ds) <$> seq 0 (length ds)) as ->.
  { apply list_fmap_ext. intros ? n _. unfold compose. by rewrite <- (assoc_L app). }
  change (h ++ d :: take 0 ds) with (h ++ [d]).
  assert (px_step auto_accounts (h ++ [d]) = (new ← auto_new opened d; Some (((λ a, Emit (auto_open d a)) <$> new) ++ [Pass (length h)]))) as ->.
  { cbn [auto_accounts px_step]. rewrite last_snoc, app_length, Nat.add_1_r. cbn [pred]. by rewrite take_app, Eh. }
  destruct (auto_new opened d) as [new|] eqn:En; [|done]. cbn [mbind option_bind].
  destruct (auto_opened opened d) as [opened'|] eqn:Eo; cbn [mbind option_bind].
  - assert (fold_opt auto_opened ∅ (h ++ [d]) = Some opened') as Eh'.
    { clear -Eh Eo. revert Eh. generalize (∅ : gset (option string)) as o0. induction h as [|x h IH]; intros o0; cbn [app fold_opt].
      - intros [= ->]. by rewrite Eo.
      - destruct (auto_opened o0 x); [apply IH|done]. }
    rewrite (IH (h ++ [d]) opened' Eh'). cbn [fmap option_fmap option_map].
    destruct (mapM _ _) as [outs|]; [|done]. cbn [mbind option_bind fmap option_fmap option_map mjoin list_join]. f_equal.
    rewrite bind_app. cbn [mbind list_bind]. rewrite list_lookup_middle by done.
    unfold mret, option_ret. cbn [fmap option_fmap option_map mjoin list_join option_list app]. rewrite <- (assoc_L app). f_equal. cbn [app]. f_equal. clear. induction new as [|a new IH]; [done|]. rewrite !fmap_cons. cbn [mbind list_bind app]. by rewrite IH.
  - exfalso. unfold auto_new, auto_opened in *. destruct (is_open d) eqn:E1; [done|].
    destruct (is_txn d); [|done]. by destruct (txn_accs d).
Qed.
Print Assumptions C57_reducing.
Example C57_reducing_example :
  let push (r : nat) (d : cval) (s : list cval) := (r, s ++ [d]) in
  (∀ r d s, (push r d s).1 = r) ∧
  option_map (λ rs : nat * list cval, length rs.2) (auto_reduce push 7 a_ledger [] ∅) = Some 6.
Proof. split; [done|]. by vm_compute. Qed.
(** With a reducing function which gives a new collection each time the opens are
    lost. *)
Theorem C57_accumulating_refuted :
  ∃ ds, Forall accounts_named ds ∧
    auto_reduce (λ r d (_ : unit), (r ++ [d], tt)) [] ds tt ∅ = Some (ds, tt) ∧
    ∃ t, t ∈ ds ∧ posts_to t "Income:Gift" ∧ ∀ d, d ∈ ds → ¬ opens d "Income:Gift".
Proof.
  exists [s_txn 10 [s_posting "Income:Gift" (-5); s_posting "Assets:Cash" 5]]. split.
  { repeat constructor. apply named_txn. repeat constructor; by eexists. }
  split; [by vm_compute|]. eexists. split; [apply elem_of_list_here|]. split.
  - split; [done|]. eexists _, _. split; [done|]. split; [apply elem_of_list_here|done].
  - intros d ->%elem_of_list_singleton [E _]. discriminate E.
Qed.
Print Assumptions C57_accumulating_refuted.
(** Accounts which are used otherwise than by a transaction, here in a balance, are not
    opened. *)
Theorem C57_other_use_refuted :
  ∃ ds out b, run_plugins id any_spec [auto_plugin] false ds = Some out ∧ b ∈ out ∧
    vget "dct" b = Some (VKw "balance") ∧ vget "acc" b = Some (VStr "Assets:Bank") ∧
    ∀ d, d ∈ out → ¬ opens d "Assets:Bank".
Proof.
  eexists [a_balance "Assets:Bank"], _, _. split; [by vm_compute|]. split; [apply elem_of_list_here|].
  split; [done|]. split; [done|]. intros d ->%elem_of_list_singleton [E _]. discriminate E.
Qed.
Print Assumptions C57_other_use_refuted.
(** An account which is opened by the ledger after it is first posted to ends up with
    two opens. *)
Theorem C57_opened_twice_refuted :
  ∃ ds out, run_plugins id any_spec [auto_plugin] false ds = Some out ∧ Forall accounts_named ds ∧
    ∃ i j o o', i ≠ j ∧ out !! i = Some o ∧ out !! j = Some o' ∧ opens o "Income:Gift" ∧ opens o' "Income:Gift".
Proof.
  exists s_ledger. eexists. split; [by vm_compute|]. split.
  { repeat constructor; first [apply named_open|apply named_txn; repeat constructor; by eexists]. }
  by eexists 1, 3, _, _.
Qed.
Print Assumptions C57_opened_twice_refuted.
