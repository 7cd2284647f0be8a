(** Lemmas for [AfterProps.v]. *)
From Coq Require Import Ascii QArith.
From stdpp Require Import prelude gmap strings.
From Verif Require Import DecModel LedgerTypes IsoModel IsoFacts JsonModel WireModel CljModel InventoryModel InventorySpec InventoryFacts ClientModel ClientSpec ClientDecode ClientFacts ClientMain
  FormatModel PluginModel PluginSpec PluginFacts PluginMerge PluginProps LoaderModel EditModel EditSpec EditFacts ViewSpec ViewFacts AfterSpec.
Local Open Scope nat_scope.

Local Ltac away := first [by intros [=]|refine (bool_decide_unpack _ _); by vm_compute].

(** * What the user sees of the data *)

(** The user sees the directive [d] in [v]; it has a date, and only transactions have
    postings. *)
Definition viewed (v : cval) (d : cdirective) : Prop :=
  view_directive v = Some d ∧ (cd_dct d = "txn" ∨ cd_postings d = []) ∧ is_Some (cd_date d).
Lemma view_parts v d : view_directive v = Some d →
  view_req view_kw "dct" v = Some (cd_dct d) ∧ view_opt view_date "date" v = Some (cd_date d) ∧
  view_opt view_str "acc" v = Some (cd_acc d) ∧ view_opt view_str "cur" v = Some (cd_cur d) ∧
  view_opt view_str "payee" v = Some (cd_payee d) ∧ view_opt view_str "narration" v = Some (cd_narration d) ∧
  view_opt view_booking "booking" v = Some (cd_booking d) ∧
  ∃ ps, view_opt (view_list view_posting) "postings" v = Some ps ∧ cd_postings d = default [] ps.
Proof.
  unfold view_directive. intros H.
  repeat match type of H with (?x ≫= _) = Some _ => let E := fresh "E" in destruct x eqn:E; cbn [mbind option_bind] in H; [|discriminate] end.
  injection H as <-. cbn. split_and!; try done. by eexists.
Qed.
Lemma view_kind v d : view_directive v = Some d → vget "dct" v = Some (VKw (cd_dct d)).
Proof. intros (H & _)%view_parts. unfold view_req in H. destruct (vget "dct" v) as [[]|]; try done. by injection H as ->. Qed.
Lemma view_text {A} (f : cval → option A) k v x : view_opt f k v = Some x →
  match x with Some a => ∃ w, vget k v = Some w ∧ f w = Some a | None => vget k v = None end.
Proof.
  unfold view_opt. destruct (vget k v) as [w|]; [|by intros [= <-]]. destruct (f w) eqn:E; [|done]. intros [= <-]. eauto.
Qed.
Lemma view_str_inv w a : view_str w = Some a → w = VStr a.
Proof. destruct w; try done. by intros [= ->]. Qed.
Lemma view_txn v d : view_directive v = Some d → is_txn v = true ↔ cd_dct d = "txn".
Proof.
  intros H%view_kind. unfold is_txn. rewrite H. split; [|by intros ->].
  intros E. by repeat (match type of E with context [match ?x with _ => _ end] => destruct x end; try done).
Qed.
Lemma view_map v d : view_directive v = Some d → is_map v = true.
Proof. intros H%view_kind. by destruct v. Qed.
Lemma view_postings v d : view_directive v = Some d →
  (vget "postings" v = None ∧ cd_postings d = [] ∨
   ∃ l, vget "postings" v = Some (VVec l) ∧ mapM view_posting l = Some (cd_postings d)).
Proof.
  intros (_&_&_&_&_&_&_&ps&H&E)%view_parts. apply view_text in H. destruct ps as [ps|].
  - right. destruct H as (w & Hw & H). destruct w; try done. eexists. split; [done|]. by rewrite E.
  - left. done.
Qed.
Lemma view_vpostings v d : view_directive v = Some d → mapM view_posting (vpostings v) = Some (cd_postings d).
Proof.
  intros [[Hn ->]|(l & Hl & Hm)]%view_postings; unfold vpostings.
  - by rewrite Hn.
  - by rewrite Hl.
Qed.
Lemma view_posting_parts w q : view_posting w = Some q →
  is_map w = true ∧ view_opt view_str "flag" w = Some (cp_flag q) ∧ vget "acc" w = Some (VStr (cp_acc q)) ∧ vget "units" w = Some (VNum (cp_units q)) ∧
  vget "cur" w = Some (VStr (cp_cur q)) ∧ view_opt view_cost "cost" w = Some (cp_cost q) ∧
  cp_date q = None ∧ cp_payee q = None ∧ cp_narration q = None.
Proof.
  unfold view_posting. intros H.
  repeat match type of H with (?x ≫= _) = Some _ => let E := fresh "E" in destruct x eqn:E; cbn [mbind option_bind] in H; [|discriminate] end.
  injection H as <-. cbn. unfold view_req in *.
  destruct (vget "acc" w) as [[]|] eqn:Ea; try done. destruct (vget "units" w) as [[]|] eqn:Eu; try done. destruct (vget "cur" w) as [[]|] eqn:Ec; try done.
  cbn in *. simplify_eq. split_and!; try done. by destruct w.
Qed.
Lemma view_shaped v d : view_directive v = Some d → well_shaped v = true.
Proof.
  intros H. unfold well_shaped. rewrite (view_map _ _ H). cbn [andb]. apply view_vpostings, mapM_Some in H.
  induction H as [|w q ws qs Hw _ IH]; [done|]. cbn [forallb]. apply view_posting_parts in Hw as [-> _]. exact IH.
Qed.
Lemma viewed_flat v d : viewed v d → is_txn v = true ∨ vpostings v = [].
Proof.
  intros (H & [Ht|Hp] & _); [left; by apply (view_txn _ _ H)|right]. apply view_vpostings in H. rewrite Hp in H. apply mapM_Some in H. by inversion H.
Qed.

(** What is hidden is not seen. *)
Lemma mapM_ext' {A B} (f g : A → option B) l k : Forall2 (λ x y, f x = g y) l k → mapM f l = mapM g k.
Proof. induction 1 as [|x y l k H _ IH]; [done|]. cbn. by rewrite H, IH. Qed.
Lemma hidden_view v x d : hidden v x → view_directive v = Some d → view_directive x = Some d.
Proof.
  intros (_ & Hg & Hp) Hv. pose proof (view_postings _ _ Hv) as Hps.
  assert (∃ ps, view_opt (view_list view_posting) "postings" x = Some ps ∧ cd_postings d = default [] ps) as (ps & Eps & Ed).
  { unfold view_opt. destruct Hp as [->|(l & k & El & -> & HF)].
    - destruct Hps as [[-> ->]|(l & -> & Hm)]; [by eexists|]. cbn [view_list]. rewrite Hm. by eexists.
    - destruct Hps as [[? _]|(l' & El' & Hm)]; [congruence|]. assert (l' = l) as -> by congruence. cbn [view_list].
      exists (Some (cd_postings d)). split; [|done]. rewrite <- (mapM_ext' view_posting view_posting l k), Hm; [done|].
      eapply Forall2_impl; [exact HF|]. intros p q (_ & _ & Hk). apply view_posting_ext. intros f Hf. symmetry. apply Hk. set_solver. }
  rewrite (view_directive_ext x v d ps); [rewrite <- Ed; by destruct d| |done|done].
  intros k Hk. apply Hg. set_solver.
Qed.
Lemma viewed_hidden v x d : hidden v x → viewed v d → viewed x d.
Proof. intros Hh [H Ht]. split; [by eapply hidden_view|done]. Qed.

(** * Steps *)

Definition item_viewed (v : cval) (e : item) (d : cdirective) : Prop :=
  match e with Same => viewed v d | New v' => viewed v' d end.
Definition steps (f : cval → option (list item)) (R : change) : Prop :=
  ∀ v d es, viewed v d → f v = Some es → ∃ ds, R d ds ∧ Forall2 (item_viewed v) es ds.

Lemma through_steps spec booked name f R vs ds out :
  steps f R → Forall2 viewed vs ds → through spec booked (name, stepwise f) vs = Some out →
  ∃ l, changed R ds l ∧ Forall2 viewed out l.
Proof.
  intros Hm HF Ht. apply through_stepwise in Ht as (parts & -> & HP).
  revert ds HF. induction HP as [|v part vs parts (es & Hes & Hp) HP IH]; intros ds HF; inversion HF as [|? d ? ds' Hd HF']; subst.
  { exists []. split; [|constructor]. exists []. by split; [constructor|]. }
  destruct (IH _ HF') as (l & (ls & HR & ->) & Hl). destruct (Hm v d es Hd Hes) as (ds0 & HR0 & HE).
  exists (ds0 ++ mjoin ls). split; [exists (ds0 :: ls); split; [by constructor|done]|].
  change (mjoin (part :: parts)) with (part ++ mjoin parts). apply Forall2_app; [|done].
  clear -HE Hp Hd. revert part Hp. induction HE as [|e y es ys He _ IH]; intros part Hp; inversion Hp as [|? x ? part' Hx Hp']; subst; constructor; [|by apply IH].
  destruct e as [|v']; cbn [item_viewed] in He.
  - by subst.
  - eapply viewed_hidden; [|exact He]. eapply hidden_made; [exact Hx|]. destruct He as [He _]. by eapply view_map.
Qed.
Lemma chain_steps spec booked ps : ∀ Rs vs ds out,
  Forall2 (λ (p : string * plugin_xf) R, ∃ f, p.2 = stepwise f ∧ steps f R) ps Rs →
  Forall2 viewed vs ds → chain spec booked ps vs = Some out → ∃ l, changed_by Rs ds l ∧ Forall2 viewed out l.
Proof.
  induction ps as [|[name xf] ps IH]; intros Rs vs ds out HR HF; inversion HR as [|? R ? Rs' (f & Ef & Hf) HR']; subst; cbn [chain].
  - intros [= <-]. by exists ds.
  - cbn [snd] in Ef. subst xf. destruct (through _ _ _ vs) as [mid|] eqn:Et; [|done]. intros Hc.
    destruct (through_steps _ _ _ _ _ _ _ _ Hf HF Et) as (ds' & Hch & HF'). destruct (IH _ _ _ _ HR' HF' Hc) as (l & Hl & HFl).
    exists l. split; [by exists ds'|done].
Qed.

Lemma viewed_assoc k w v v' d : k ∉ ["dct"; "date"; "acc"; "cur"; "payee"; "narration"; "booking"; "postings"] →
  vassoc k w v = Some v' → viewed v d → viewed v' d.
Proof.
  intros Hk Ha [Hv Ht]. split; [|done].
  assert (Hg : ∀ j, j ∈ ["dct"; "date"; "acc"; "cur"; "payee"; "narration"; "booking"; "postings"] → vget j v' = vget j v).
  { intros j Hj. eapply vget_vassoc_other; [|exact Ha]. intros ->. done. }
  destruct (view_parts _ _ Hv) as (_&_&_&_&_&_&_&ps&Hps&Ep).
  rewrite (view_directive_ext v' v d ps); [rewrite <- Ep; by destruct d| |done|].
  - intros j Hj. apply Hg. set_solver.
  - unfold view_opt in *. by rewrite (Hg "postings") by set_solver.
Qed.
Lemma identity_steps : steps (λ _, Some [Same]) kept.
Proof. intros v d es Hv [= <-]. exists [d]. split; [done|]. by constructor; [|constructor]. Qed.
Lemma fail_steps matching message : steps (fail_step matching message) kept.
Proof.
  intros v d es Hv. unfold fail_step. destruct (matches _ _).
  2: { intros [= <-]. exists [d]. split; [done|]. by constructor; [|constructor]. }
  destruct (dct_error _ _ _) as [v'|] eqn:E; [|done]. intros [= <-]. exists [d]. split; [done|]. constructor; [|constructor].
  cbn [item_viewed]. unfold dct_error in E. destruct (match vget "err" v with Some (VVec l) => _ | _ => _ end) as [l|]; [|done]. cbn [mbind option_bind] in E.
  eapply viewed_assoc; [|exact E|done]. away.
Qed.
Lemma simple_eq_str a (l : list string) : existsb (simple_eq (VStr a)) (VStr <$> l) = true ↔ a ∈ l.
Proof.
  induction l as [|x l IH]; [by split; [|intros ?%elem_of_nil]|]. cbn [fmap list_fmap existsb simple_eq].
  rewrite orb_true_iff, IH, elem_of_cons, String.eqb_eq. done.
Qed.
Lemma literal_open k : match Some (VKw k) with Some (VKw "open") => true | _ => false end = String.eqb k "open".
Proof. do 6 try (destruct k as [|[[] [] [] [] [] [] [] []] k]; try reflexivity). Qed.
Lemma literal_event {A} k (x y : A) : match Some (VKw k) with Some (VKw "event") => x | _ => y end = if String.eqb k "event" then x else y.
Proof. do 6 try (destruct k as [|[[] [] [] [] [] [] [] []] k]; try reflexivity). Qed.
Lemma auto_close_steps config accs : config ≫= vget "phase" = Some (VKw "booked") → config ≫= vget "accs" = Some (VSet (VStr <$> accs)) →
  steps (auto_close_step "booked" config) (closed_after accs).
Proof.
  intros Hp Ha v d es Hv. unfold auto_close_step. rewrite Hp, Ha, String.eqb_refl. cbn [andb].
  assert (Hsame : ∀ R : change, R d [d] → Some [Same] = Some es → ∃ ds, R d ds ∧ Forall2 (item_viewed v) es ds).
  { intros R HR [= <-]. exists [d]. split; [done|]. constructor; [done|constructor]. }
  destruct Hv as (Hd & Ht & (t & Hdate)). rewrite (view_kind _ _ Hd), literal_open.
  destruct (view_parts _ _ Hd) as (_&Edate&Eacc&_). apply view_text in Edate, Eacc. rewrite Hdate in Edate.
  destruct Edate as (w & Ew & Et). rewrite Ew. destruct w; try done. injection Et as ->. cbn [default]. unfold id.
  destruct (String.eqb_spec (cd_dct d) "open") as [Ho|Ho]; cbn [andb].
  2: { apply Hsame. right. split; [|done]. by intros [? _]. }
  destruct (cd_acc d) as [a|] eqn:Eac.
  2: { rewrite Eacc. cbn [default]. unfold id. assert (existsb (simple_eq VNil) (VStr <$> accs) = false) as ->.
    { clear. by induction accs. } apply Hsame. right. split; [|done]. intros (_ & a & ? & _). congruence. }
  destruct Eacc as (w & -> & ->%view_str_inv). destruct (existsb _ _) eqn:Ein.
  - apply simple_eq_str in Ein. intros [= <-]. exists [d; CDirective "close" (cd_date d) (Some a) None None None None []].
    split; [left; by exists a|]. constructor; [|constructor; [|constructor]].
    + split; [done|]. split; [done|]. by eexists.
    + cbn [item_viewed]. split; [by rewrite Hdate|]. split; [by right|]. rewrite Hdate. by eexists.
  - apply Hsame. right. split; [|done]. intros (_ & a' & Ha' & Hin). assert (a' = a) as -> by congruence. apply simple_eq_str in Hin. cbn [default] in Ein. unfold id in Ein. congruence.
Qed.
Lemma auto_close_other_steps config : config ≫= vget "phase" ≠ Some (VKw "booked") → steps (auto_close_step "booked" config) kept.
Proof.
  intros Hph v d es H. unfold auto_close_step.
  assert ((match config ≫= vget "phase" with Some (VKw p) => String.eqb p "booked" | _ => false end) = false) as ->.
  { destruct (config ≫= vget "phase") as [[]|]; try done. apply String.eqb_neq. congruence. }
  cbn [andb]. intros [= <-]. exists [d]. split; [done|]. constructor; [done|constructor].
Qed.
Lemma create_event_steps : steps create_event_step announced.
Proof.
  intros v d es Hv. unfold create_event_step. pose proof Hv as (Hd & Ht & (t & Hdate)). rewrite (view_kind _ _ Hd), literal_event.
  destruct (view_parts _ _ Hd) as (_&Edate&_). apply view_text in Edate. rewrite Hdate in Edate.
  destruct Edate as (w & Ew & Et). rewrite Ew. destruct w; try done. injection Et as ->.
  destruct (String.eqb_spec (cd_dct d) "event") as [Ho|Ho]; intros [= <-].
  - exists [CDirective "event" (cd_date d) None None None None None []; d]. split; [by left|].
    constructor; [|constructor; [done|constructor]]. cbn [item_viewed]. split; [by rewrite Hdate|]. split; [by right|]. rewrite Hdate. by eexists.
  - exists [d]. split; [by right|]. constructor; [done|constructor].
Qed.

Definition adjusts (config : option cval) (adj : string → option Q) : Prop :=
  ∀ acc, match config ≫= vget acc with
         | Some (VNum n) => ∃ a, adj acc = Some a ∧ (a == cn_value n)%Q
         | None | Some VNil | Some (VBool false) => adj acc = None
         | Some _ => False
         end.
Lemma adjust_posting_ok config adj w q w' : adjusts config adj → view_posting w = Some q → adjust_posting config w = Some w' →
  ∃ q', posting_adjusted adj q q' ∧ view_posting w' = Some q'.
Proof.
  intros Hadj Hq. destruct (view_posting_parts _ _ Hq) as (_ & _ & Ha & Hu & _). unfold adjust_posting, adjustment. rewrite Ha, Hu.
  specialize (Hadj (cp_acc q)). unfold posting_adjusted. destruct (config ≫= vget (cp_acc q)) as [x|].
  2: { rewrite Hadj. intros [= <-]. by exists q. }
  destruct x as [|[]|n| | | | | | |]; try done; try (rewrite Hadj; intros [= <-]; by exists q).
  destruct Hadj as (a & -> & Hav). destruct (cn_add _ (cp_units q)) as [u|] eqn:Eu; [|done]. cbn [mbind option_bind].
  intros Hw. exists (CPosting (cp_date q) (cp_payee q) (cp_narration q) (cp_flag q) (cp_acc q) u (cp_cur q) (cp_cost q)). split.
  - split; [done|]. cbn [cp_units]. rewrite (cn_add_value _ _ _ Eu), Hav. ring.
  - assert (Hg : ∀ k, k ≠ "units" → vget k w' = vget k w) by (intros k Hk; eapply vget_vassoc_other; [|exact Hw]; done).
    destruct (view_posting_parts _ _ Hq) as (_ & Hf & _ & _ & Hc & Hk & -> & -> & ->).
    unfold view_posting, view_req, view_opt in *. rewrite (Hg "flag"), (Hg "acc"), (Hg "cur"), (Hg "cost") by done.
    rewrite (vget_vassoc_same _ _ _ _ Hw), Hf, Ha, Hc, Hk. done.
Qed.
Lemma adjust_postings_ok config adj ws qs ws' : adjusts config adj → mapM view_posting ws = Some qs → mapM (adjust_posting config) ws = Some ws' →
  ∃ qs', Forall2 (posting_adjusted adj) qs qs' ∧ mapM view_posting ws' = Some qs'.
Proof.
  intros Hadj Hq%mapM_Some Hw%mapM_Some. revert qs Hq. induction Hw as [|w w' ws ws' Hw _ IH]; intros qs Hq; inversion Hq as [|? q ? qs0 Hq0 Hq1]; subst.
  { exists []. by split. }
  destruct (IH _ Hq1) as (qs' & HF & Hm). destruct (adjust_posting_ok _ _ _ _ _ Hadj Hq0 Hw) as (q' & Hqq & Hv).
  exists (q' :: qs'). split; [by constructor|]. cbn [mapM]. by rewrite Hv, Hm.
Qed.
Lemma unadjusted config adj ws qs : adjusts config adj → mapM view_posting ws = Some qs →
  existsb (λ p, bool_decide (is_Some (adjustment config p))) ws = false → Forall2 (posting_adjusted adj) qs qs.
Proof.
  intros Hadj Hq%mapM_Some. induction Hq as [|w q ws qs Hq _ IH]; [constructor|]. cbn [existsb]. intros [H1 H2]%orb_false_iff.
  constructor; [|by apply IH]. destruct (view_posting_parts _ _ Hq) as (_ & _ & Ha & _). apply bool_decide_eq_false in H1.
  unfold adjustment in H1. rewrite Ha in H1. specialize (Hadj (cp_acc q)). unfold posting_adjusted.
  destruct (config ≫= vget (cp_acc q)); [by destruct H1; eexists|]. by rewrite Hadj.
Qed.
Lemma adjust_steps config adj : adjusts config adj → steps (adjust_step config) (adjusted adj).
Proof.
  intros Hadj v d es Hv. unfold adjust_step. pose proof Hv as (Hd & Ht & Hdate). pose proof (view_vpostings _ _ Hd) as Hps.
  destruct (is_txn v) eqn:Et; cbn [andb].
  2: { intros [= <-]. destruct Ht as [Ht|Ht]; [apply (view_txn _ _ Hd) in Ht; congruence|].
    exists [d]. split; [|constructor; [done|constructor]]. exists []. rewrite Ht. split; [constructor|]. destruct d; cbn in *. by subst. }
  destruct (existsb _ _) eqn:Ee.
  2: { intros [= <-]. exists [d]. split; [|constructor; [done|constructor]]. exists (cd_postings d). split; [|by destruct d].
    by eapply unadjusted. }
  destruct (mapM (adjust_posting config) _) as [ws'|] eqn:Ew; [|done]. cbn [mbind option_bind].
  destruct (vassoc "postings" (VVec ws') v) as [v'|] eqn:Ev; [|done]. intros [= <-].
  destruct (adjust_postings_ok _ _ _ _ _ Hadj Hps Ew) as (qs' & HF & Hm).
  exists [with_postings d qs']. split; [by exists qs'|]. constructor; [|constructor]. cbn [item_viewed].
  split; [|split; [left; by apply (view_txn _ _ Hd)|done]].
  apply (view_directive_ext v' v d (Some qs')); [|done|].
  - intros k Hk. eapply vget_vassoc_other; [|exact Ev]. intros <-. set_solver.
  - unfold view_opt. rewrite (vget_vassoc_same _ _ _ _ Ev). cbn [view_list]. by rewrite Hm.
Qed.

Lemma cn_add_none a b : cn_add a b = None ↔ ∃ y z, a = CLong y ∧ b = CLong z ∧ ¬ (- 2 ^ 63 ≤ y + z < 2 ^ 63)%Z.
Proof.
  split.
  - destruct a as [y|y1|y2], b as [z|z1|z2]; cbn [cn_add]; try done. destruct (fits_long (y + z)) eqn:E; [done|]. intros _.
    exists y, z. split; [done|]. split; [done|]. unfold fits_long in E. lia.
  - intros (y & z & -> & -> & Hn). cbn [cn_add]. destruct (fits_long (y + z)) eqn:E; [|done]. unfold fits_long in E. lia.
Qed.
Lemma is_map_assoc k x m : is_map m = true → is_Some (vassoc k x m).
Proof. destruct m; try done; intros _; by eexists. Qed.
Lemma adjust_posting_none config w q : view_posting w = Some q → (adjust_posting config w = None ↔ not_addable config q).
Proof.
  intros Hq. destruct (view_posting_parts _ _ Hq) as (Hm & _ & Ha & Hu & _). unfold adjust_posting, adjustment, not_addable. rewrite Ha, Hu.
  destruct (config ≫= vget (cp_acc q)) as [x|]; [|naive_solver].
  assert ((∃ n, x = VNum n) ∨ ¬ ∃ n, x = VNum n) as [[n ->]|Hx].
  { destruct x; try (right; by intros [? ?]). left. by eexists. }
  - destruct (cn_add n (cp_units q)) as [u|] eqn:E; cbn [mbind option_bind].
    + destruct (is_map_assoc "units" (VNum u) _ Hm) as [w' Hw]. rewrite Hw. split; [done|].
      intros (x & [= <-] & _ & _ & Hn). specialize (Hn _ eq_refl). apply cn_add_none in Hn. congruence.
    + split; [|done]. intros _. exists (VNum n). split; [done|]. split; [done|]. split; [done|]. intros ? [= <-]. by apply cn_add_none.
  - destruct x as [|[]|n| | | | | | |]; try (split; [done|]; naive_solver);
      try (split; [|done]; intros _; eexists; split; [done|]; split; [done|]; split; [done|]; intros ? ?; done).
    destruct Hx. by eexists.
Qed.
Lemma adjust_none config v d : viewed v d → (adjust_step config v = None ↔ Exists (not_addable config) (cd_postings d)).
Proof.
  intros Hv. unfold adjust_step. pose proof Hv as (Hd & Ht & _). pose proof (view_vpostings _ _ Hd) as Hps.
  apply mapM_Some in Hps.
  assert (He : Exists (not_addable config) (cd_postings d) ↔ Exists (λ w, adjust_posting config w = None) (vpostings v)).
  { clear Hd Ht Hv. induction Hps as [|w q ws qs Hw _ IH]; [by rewrite !Exists_nil|].
    rewrite !Exists_cons, IH. by rewrite (adjust_posting_none _ _ _ Hw). }
  rewrite He. assert (Hnone : mapM (adjust_posting config) (vpostings v) = None ↔ Exists (λ w, adjust_posting config w = None) (vpostings v)).
  { clear. induction (vpostings v) as [|w ws IH]; [by rewrite Exists_nil|]. rewrite Exists_cons, <- IH. cbn [mapM].
    clear. destruct (adjust_posting config w), (mapM (adjust_posting config) ws); cbn [mbind option_bind mret option_ret]; naive_solver. }
  destruct (is_txn v) eqn:Et; cbn [andb].
  2: { split; [done|]. destruct Ht as [Ht|Ht]; [apply (view_txn _ _ Hd) in Ht; congruence|].
    rewrite Ht in Hps. inversion Hps. by rewrite Exists_nil. }
  destruct (existsb _ _) eqn:Ee.
  - rewrite <- Hnone. destruct (mapM _ _) as [ws|]; [|done]. cbn [mbind option_bind].
    destruct (is_map_assoc "postings" (VVec ws) _ (view_map _ _ Hd)) as [v' ->]. done.
  - split; [done|]. intros (w & Hw & Hn)%Exists_exists. exfalso.
    apply not_true_iff_false in Ee. apply Ee, existsb_exists. exists w. split; [by apply elem_of_list_In|].
    apply bool_decide_eq_true. unfold adjust_posting in Hn. by destruct (adjustment config w).
Qed.

Lemma alters_steps xf R : alters xf R → ∃ f, xf = stepwise f ∧ steps f R.
Proof.
  destruct 1 as [|config|config accs Hp Ha|config Hp| |config adj Ha]; eexists; (split; [reflexivity|]).
  - apply identity_steps.
  - apply fail_steps.
  - by apply auto_close_steps.
  - by apply auto_close_other_steps.
  - apply create_event_steps.
  - by apply adjust_steps.
Qed.

(** * The reports *)

Lemma registry_reports ds : registry_acc_booking ds = registry_acc_booking (filter of_reports ds).
Proof.
  unfold registry_acc_booking. generalize (∅ : gmap string booking). induction ds as [|d ds IH]; intros m; [done|].
  rewrite filter_cons. cbn [fold_left]. destruct (decide (of_reports d)) as [H|H]; [apply IH|].
  rewrite (proj2 (String.eqb_neq _ _)); [apply IH|]. intros ?. apply H. by right.
Qed.
Lemma xf_reports ds : xf_postings ds = xf_postings (filter of_reports ds).
Proof.
  unfold xf_postings. symmetry. rewrite (filter_filter' _ _ (λ d, cd_dct d = "txn")); [done|]. intros d. unfold of_reports. tauto.
Qed.
Lemma changed_quiet R ds l : quiet R → changed R ds l → filter of_reports l = filter of_reports ds.
Proof.
  intros HR (parts & HF & ->). induction HF as [|d part ds parts Hd _ IH]; [done|].
  change (mjoin (part :: parts)) with (part ++ mjoin parts). change (d :: ds) with ([d] ++ ds). by rewrite !filter_app, IH, (HR _ _ Hd).
Qed.
Lemma changed_all_quiet Rs : ∀ ds l, Forall quiet Rs → changed_by Rs ds l → filter of_reports l = filter of_reports ds.
Proof.
  induction Rs as [|R Rs IH]; intros ds l HR; cbn [changed_by]; [by intros ->|]. apply Forall_cons in HR as [H1 H2].
  intros (ds' & Hc & Hl). rewrite (IH _ _ H2 Hl). by eapply changed_quiet.
Qed.

(** [p'] is the posting [p] with [t] of its account added to the units. *)
Definition shifted (t : string → Q) (p p' : cposting) : Prop :=
  item_of_posting p' = item_of_posting p ∧ cp_flag p' = cp_flag p ∧ cp_acc p' = cp_acc p ∧ cp_cur p' = cp_cur p ∧ cp_cost p' = cp_cost p ∧
  (cn_value (cp_units p') == cn_value (cp_units p) + t (cp_acc p))%Q.
Lemma shifted_trans (t u : string → Q) p q r : shifted t p q → shifted u q r → shifted (λ a, t a + u a)%Q p r.
Proof.
  intros (A1&A2&A3&A4&A5&A6) (B1&B2&B3&B4&B5&B6). unfold shifted. split_and!; try congruence. rewrite B6, A6, A3. ring.
Qed.
Lemma changed_adjusted adj ds l : changed (adjusted adj) ds l →
  Forall2 (shifted (λ a, default 0 (adj a))%Q) (xf_postings ds) (xf_postings l).
Proof.
  intros (parts & HF & ->). induction HF as [|d part ds parts (ps & Hps & ->) _ IH]; [constructor|].
  change (mjoin ([?x] :: parts)) with ([x] ++ mjoin parts). change (d :: ds) with ([d] ++ ds).
  rewrite !xf_postings_app. apply Forall2_app; [|exact IH]. rewrite !xf_postings_one. cbn [cd_dct]. destruct (decide _); [|constructor].
  cbn [cd_postings]. apply Forall2_fmap. eapply Forall2_impl; [exact Hps|]. intros q q'. unfold posting_adjusted.
  destruct (adj (cp_acc q)) as [a|] eqn:Ea.
  - intros [-> Hv]. cbn [cp_units cp_acc cp_cur cp_cost cp_flag] in *. unfold shifted, dated. cbn. split_and!; try done. rewrite Ea. exact Hv.
  - intros ->. unfold shifted, dated. cbn. split_and!; try done. rewrite Ea. cbn. ring.
Qed.
Lemma changed_adds Rs t : adds Rs t → ∀ ds l, changed_by Rs ds l → Forall2 (shifted t) (xf_postings ds) (xf_postings l).
Proof.
  induction 1 as [|R Rs t HR Ha IH|adj Rs t Ha IH]; intros ds l; cbn [changed_by].
  - intros ->. apply Forall_Forall2_diag, Forall_forall. intros p _. unfold shifted. split_and!; try done. ring.
  - intros (ds' & Hc & Hl). apply changed_quiet in Hc; [|done]. rewrite (xf_reports ds), <- Hc, <- xf_reports. by apply IH.
  - intros (ds' & Hc & Hl). apply changed_adjusted in Hc. apply IH in Hl. revert Hl. generalize (xf_postings l). clear -Hc.
    induction Hc as [|p q ps qs Hp _ IH']; intros rs HF; inversion HF; subst; constructor; [|by apply IH']. by eapply shifted_trans.
Qed.

(** The entries with the units shifted. *)
Definition entry_shifted (t : string → Q) (p : cposting) (e : citem * posting) : Prop :=
  item_of_posting p = e.1 ∧ cp_acc p = p_acc e.2 ∧ cp_cur p = p_cur e.2 ∧
  (cn_value (cp_units p) == dec_value (p_units e.2) + t (p_acc e.2))%Q.
Lemma entries_shifted (t : string → Q) ps qs es : Forall2 entry_seen ps es → Forall2 (shifted t) ps qs → Forall2 (entry_shifted t) qs es.
Proof.
  intros HF. revert qs. induction HF as [|p e ps es [Hi (Ha&Hc&[Hu _]&_)] _ IH]; intros qs H; inversion H as [|? q ? qs' Hq Hqs]; subst; constructor; [|by apply IH].
  destruct Hq as (B1&_&B3&B4&_&B6). unfold entry_shifted. split_and!; try congruence. by rewrite B6, Hu, Ha.
Qed.
Lemma selected_shifted t ds o bs Rs ds' filters :
  Forall2 directive_seen ds bs → adds Rs t → changed_by Rs ds ds' →
  Forall2 (entry_shifted t) (selected (Beans ds' o) filters) (entries_selected filters bs).
Proof.
  intros H%xf_entries Ha Hc. pose proof (changed_adds _ _ Ha _ _ Hc) as Hs. pose proof (entries_shifted _ _ _ _ H Hs) as He.
  unfold selected, entries_selected. cbn [be_directives]. eapply Forall2_filter; [|exact He].
  intros p e [Hi _]. by rewrite forallb_Forall, Hi.
Qed.
Lemma qsum_shifted (t : string → Q) ps es : Forall2 (entry_shifted t) ps es →
  (qsum ((λ p, cn_value (cp_units p)) <$> ps) == qsum ((λ e, dec_value (p_units e.2) + t (p_acc e.2)) <$> es))%Q.
Proof.
  induction 1 as [|p e ps es (_&_&_&Hu) HF IH]; [reflexivity|]. cbn [fmap list_fmap qsum]. by rewrite Hu, IH.
Qed.
Lemma posted_shifted t acc cur ps es : Forall2 (entry_shifted t) ps es →
  (InventorySpec.posted acc cur ps == entry_units_with t cur (to_account acc es))%Q.
Proof.
  intros H. unfold InventorySpec.posted, entry_units_with, to_account.
  rewrite (filter_filter' _ _ (λ e : citem * posting, p_acc e.2 = acc ∧ p_cur e.2 = cur)) by tauto.
  apply qsum_shifted. eapply Forall2_filter; [|exact H]. intros p e (_&Ha&Hc&_). by rewrite Ha, Hc.
Qed.
Lemma running_shifted t cur ps es : Forall2 (entry_shifted t) ps es → (running cur ps == entry_units_with t cur es)%Q.
Proof.
  intros H. unfold running, entry_units_with. apply qsum_shifted. eapply Forall2_filter; [|exact H].
  intros p e (_&_&Hc&_). by rewrite Hc.
Qed.

Lemma kept_quiet : quiet kept.
Proof. by intros d ds ->. Qed.
Lemma closed_quiet accs : quiet (closed_after accs).
Proof. intros d ds [(a & _ & _ & _ & ->)|[_ ->]]; [|done]. rewrite !filter_cons, !filter_nil. destruct (decide (of_reports d)); done. Qed.
Lemma announced_quiet : quiet announced.
Proof. intros d ds [[_ ->]|[_ ->]]; [|done]. rewrite !filter_cons, !filter_nil. destruct (decide (of_reports d)); done. Qed.
