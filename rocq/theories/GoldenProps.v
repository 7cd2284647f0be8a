(** Theorems about golden tests. *)
From Coq Require Import Ascii QArith.
From stdpp Require Import prelude gmap strings.
From Verif Require Import DecModel LedgerTypes IsoModel JsonModel CljModel InventoryModel ClientModel FormatModel PluginModel LoaderModel PrintModel TextFacts
  ReadModel ReadSpec ReadFacts EdnModel EdnSpec EdnForms EdnProps GoldenModel GoldenSpec GoldenFacts.
Local Open Scope nat_scope.

(** * C97: which tests there are, and which pass *)

(** The tests are the ledgers with a golden directory beside them, in the order in which
    they are found.  Files with no name before the dot are left out. *)
Theorem C97_found_partial exists_ ignore paths : (∀ path, path ∈ paths → ¬ nameless path) →
  (∀ t, t ∈ find_golden_tests exists_ ignore paths ↔
    ∃ path, path ∈ paths ∧ is_test path t ∧ (ignore = true ∨ exists_ (gt_dir t) = true)) ∧
  gt_beanfile <$> find_golden_tests exists_ ignore paths `sublist_of` paths.
Proof.
  intros Hn. unfold find_golden_tests. split.
  - intros t. rewrite elem_of_list_filter, elem_of_list_fmap. split.
    + intros (He&path&->&Hp). apply elem_of_list_filter in Hp as [Hb Hp]. exists path. split; [done|]. split.
      * apply is_test_for. split_and!; [by destruct (is_beanfile path)|by apply Hn|done].
      * apply Is_true_true, orb_true_iff in He. done.
    + intros (path&Hp&Ht&He). apply is_test_for in Ht as (Hb&_&->). split; [by apply Is_true_true, orb_true_iff|].
      exists path. split; [done|]. apply elem_of_list_filter. by rewrite Hb.
  - clear Hn. induction paths as [|path paths IH]; [constructor|]. rewrite filter_cons. destruct (decide _); [|by constructor].
    rewrite fmap_cons, filter_cons. destruct (decide _); [by constructor|by constructor].
Qed.
Print Assumptions C97_found_partial.
(** A file with no name before the dot is tested by another directory than the one it
    should be, and which may be another ledger's. *)
Theorem C97_found_refuted : ∃ exists_ paths t u,
  find_golden_tests exists_ false paths = [t; u] ∧ gt_beanfile t ≠ gt_beanfile u ∧ gt_dir t = gt_dir u.
Proof.
  exists (λ d, String.eqb d "tests/a.golden"), ["tests"; "tests/a"; "tests/a/.beancount"; "tests/a.beancount"; "tests/a.golden"; "tests/a.golden/directives.fyi.beancount"],
    (GoldenTest "a" "tests/a/.beancount" "tests/a.golden"), (GoldenTest "a" "tests/a.beancount" "tests/a.golden"). by vm_compute.
Qed.
Print Assumptions C97_found_refuted.
(** Otherwise no two ledgers have the same directory. *)
Theorem C97_apart_partial path t path' t' : is_test path t → is_test path' t' → gt_dir t = gt_dir t' → path = path'.
Proof.
  intros (d&n&Hd&Hn&Hne&->&Hf&->) (d'&n'&Hd'&Hn'&Hne'&->&Hf'&->). cbn [gt_dir]. rewrite <- !TextFacts.string_app_assoc. intros E. apply app_cancel in E. by rewrite E.
Qed.
Print Assumptions C97_apart_partial.
Lemma sublist_nodup {A} (l k : list A) : l `sublist_of` k → NoDup k → NoDup l.
Proof.
  induction 1 as [|x l k Hs IH|x l k Hs IH]; intros H; [done| |].
  - apply NoDup_cons in H as [H1 H2]. apply NoDup_cons. split; [|by apply IH]. intros Hx. apply H1. by eapply elem_of_submseteq; [|apply sublist_submseteq].
  - apply NoDup_cons in H as [_ H2]. by apply IH.
Qed.
Lemma tests_dirs exists_ ignore paths : (∀ path, path ∈ paths → ¬ nameless path) → NoDup paths →
  NoDup (gt_dir <$> find_golden_tests exists_ ignore paths).
Proof.
  intros Hn Hd. destruct (C97_found_partial exists_ ignore paths Hn) as [Hf Hs].
  assert (Hnd : NoDup (gt_beanfile <$> find_golden_tests exists_ ignore paths)) by (by eapply sublist_nodup).
  assert (Hi : ∀ t u, t ∈ find_golden_tests exists_ ignore paths → u ∈ find_golden_tests exists_ ignore paths → gt_dir t = gt_dir u → gt_beanfile t = gt_beanfile u).
  { intros t u Ht Hu E. apply Hf in Ht as (p&_&Ht&_). apply Hf in Hu as (q&_&Hu&_). pose proof (C97_apart_partial _ _ _ _ Ht Hu E) as ->.
    destruct Ht as (?&?&_&_&_&_&_&->), Hu as (?&?&_&_&_&_&_&->). done. }
  clear Hf Hs. induction (find_golden_tests exists_ ignore paths) as [|t ts IH]; [constructor|].
  rewrite fmap_cons in *. apply NoDup_cons in Hnd as [H1 H2]. apply NoDup_cons. split.
  - intros (u&E&Hu)%elem_of_list_fmap. apply H1. rewrite (Hi t u); [by apply elem_of_list_fmap_1|by left|by right|done].
  - apply IH; [done|]. intros a b Ha Hb. apply Hi; by right.
Qed.
Example C97_found_example :
  find_golden_tests (λ d, String.eqb d "t/a.golden") false ["t"; "t/a.beancount"; "t/a.golden"; "t/a.golden/directives.fyi.beancount"; "t/b.beancount"; "t/c.txt"] =
    [GoldenTest "a" "t/a.beancount" "t/a.golden"] ∧
  (∀ path, path ∈ ["t"; "t/a.beancount"; "t/a.golden"; "t/a.golden/directives.fyi.beancount"; "t/b.beancount"; "t/c.txt"] → ¬ nameless path) ∧
  is_test "t/a.beancount" (GoldenTest "a" "t/a.beancount" "t/a.golden").
Proof.
  split; [by vm_compute|]. split.
  - intros path Hp (d&Hd&->).
    assert (Hn : file_name (d +:+ ".beancount") = ".beancount") by (rewrite file_name_folder by done; done).
    repeat (apply elem_of_cons in Hp as [E|Hp]; [rewrite E in Hn; by vm_compute in Hn|]). by apply elem_of_nil in Hp.
  - exists "t/", "a". split_and!; try done.
    + right. by exists "t".
    + intros [m E]. apply (f_equal String.length) in E. rewrite ReadFacts.length_app in E. cbn in E. lia.
Qed.

Section Match.
Context (strict_match : edn → edn → bool) (finds : string → string → Prop) (elements : edn → option (list edn))
  (Hmatch : ∀ p x, strict_match p x = true ↔ alike finds elements p x).

Lemma at_key_get b k v : k ∈ keys → at_key b k v ↔ v = get_key b k.
Proof.
  intros Hk. unfold keys in Hk. split.
  - intros H. destruct H; by repeat (apply elem_of_cons in Hk as [->|Hk]; [done|]); try by apply elem_of_nil in Hk.
  - intros ->. destruct b as [b|]; [|constructor]. repeat (apply elem_of_cons in Hk as [->|Hk]; [constructor|]). by apply elem_of_nil in Hk.
Qed.
(** The tests pass if every golden file there is has the text of a pattern of what the
    ledger gives now. *)
Theorem C97_passes fs ts load : api_tests strict_match fs ts load = true ↔
  ∀ t key text v, t ∈ ts → key ∈ keys → fs !! (gt_dir t +:+ "/" +:+ key +:+ ".edn") = Some text → at_key (load (gt_beanfile t)) key v →
    ∃ p, begins_with p text ∧ alike finds elements p v.
Proof using Hmatch.
  unfold api_tests, api_test. rewrite forallb_forall. split.
  - intros H t key text v Ht Hk Hf Hv. apply elem_of_list_In in Ht. specialize (H t Ht). rewrite forallb_forall in H. pose proof Hk as Hk'.
    apply elem_of_list_In in Hk'. specialize (H key Hk'). unfold api_check, in_dir in H. rewrite Hf in H. apply at_key_get in Hv as ->; [|done].
    destruct (edn_read text) as [p|] eqn:Er; [|done]. exists p. split; [by apply C94_reads|by apply Hmatch].
  - intros H t Ht. apply forallb_forall. intros key Hk. apply elem_of_list_In in Ht, Hk. unfold api_check.
    destruct (fs !! in_dir _ _) as [text|] eqn:Hf; [|done].
    destruct (H t key text (get_key (load (gt_beanfile t)) key) Ht Hk Hf) as (p&Hp&Ha); [by apply at_key_get|].
    apply C94_reads in Hp. rewrite Hp. by apply Hmatch.
Qed.
(** Without regular expressions the values are equal, if vectors are compared with lists
    and vectors only. *)
Lemma equal_refl v : without_regex v → equal v v.
Proof.
  clear Hmatch. intros H. apply same_spec. induction v as [|x|x|x|x|x|x|x|x|l IH|l IH|l IH|l IH] using edn_ind'; try done.
  - cbn [same]. apply eqb_reflx.
  - cbn [same]. apply cn_equiv_spec. by split.
  - cbn [same]. apply String.eqb_refl.
  - cbn [same]. apply String.eqb_refl.
  - cbn [same]. apply String.eqb_refl.
  - cbn [same]. apply String.eqb_refl.
  - cbn [same]. by apply bool_decide_eq_true.
  - rewrite same_list. induction IH as [|x l Hx _ IHl]; [done|]. destruct H as [H1 H2]. cbn [each]. by rewrite Hx, IHl.
  - rewrite same_vec. induction IH as [|x l Hx _ IHl]; [done|]. destruct H as [H1 H2]. cbn [each]. by rewrite Hx, IHl.
  - cbn [same]. rewrite Nat.eqb_refl. cbn [andb]. apply forallb_forall. intros x Hx. apply existsb_exists. exists x. split; [done|].
    revert Hx. induction IH as [|y l Hy _ IHl]; [done|]. destruct H as [H1 H2]. intros [<-|Hx]; [by apply Hy|by apply IHl].
  - cbn [same]. rewrite Nat.eqb_refl. cbn [andb]. apply forallb_forall. intros x Hx. apply existsb_exists. exists x. split; [done|].
    revert Hx. induction IH as [|y l [Hy Hz] _ IHl]; [done|]. destruct H as [[H0 H1] H2]. intros [<-|Hx]; [by rewrite Hy, Hz|by apply IHl].
Qed.
Lemma without_regex_list l x : foldr (λ x P, without_regex x ∧ P) True l → x ∈ l → without_regex x.
Proof. clear Hmatch. intros H Hx. induction Hx as [x l|x y l Hx IH]; destruct H; auto. Qed.
Lemma without_regex_map l x : foldr (λ (kv : edn * edn) P, (without_regex kv.1 ∧ without_regex kv.2) ∧ P) True l → x ∈ l → without_regex x.2.
Proof. clear Hmatch. intros H Hx. induction Hx as [x l|x y l Hx IH]; destruct H as [[? ?] ?]; auto. Qed.
Theorem C97_equal p v : (∀ v l, elements v = Some l → v = EList l ∨ v = EVec l) → without_regex p → alike finds elements p v → equal p v.
Proof using.
  clear Hmatch. intros He. revert v. induction p as [|x|x|x|x|x|x|x|x|l IH|l IH|l IH|l IH] using edn_ind'; intros v Hr Ha; inversion Ha; subst; try done.
  - match goal with H : elements _ = _ |- _ => apply He in H end. eapply Q_seq; [by right|eassumption|].
    match goal with H : Forall2 _ _ _ |- _ => revert H end. cbn in Hr. clear Ha. generalize dependent xs. rewrite Forall_forall in IH.
    intros xs _ HF. assert (Hall : ∀ p, p ∈ l → ∀ x, alike finds elements p x → equal p x) by (intros p Hp x; apply IH; [done|by eapply without_regex_list]).
    clear -HF Hall. induction HF as [|p x l xs Hpx _ IHl]; [constructor|]. constructor; [apply Hall; [by left|done]|]. apply IHl. intros q Hq. apply Hall. by right.
  - constructor; [done|]. apply Forall_forall. intros kp Hkp. rewrite Forall_forall in IH. match goal with H : Forall _ _ |- _ => rewrite Forall_forall in H; specialize (H kp Hkp); apply Exists_exists in H as (kx&Hkx&Hk&Hv) end.
    apply Exists_exists. exists kx. split; [done|]. split; [done|]. destruct (IH kp Hkp) as [_ IH2]. apply IH2; [|done]. by eapply without_regex_map.
Qed.
End Match.
Print Assumptions C97_passes.
Print Assumptions C97_equal.
(** So do the tests of what is shown: each file there is has exactly the text which the
    expression of the query shows now, and it does end without an exception. *)
Theorem C97_shown fs t run : app_test fs t run = true ↔
  ∀ q e text, query q e → fs !! (gt_dir t +:+ "/" +:+ q) = Some text → run (gt_beanfile t) e = Some text.
Proof.
  unfold app_test, in_dir. rewrite forallb_forall. split.
  - intros H q e text Hq Hf. assert (In q ["inventory"; "rollup"; "journal"] ∧ query_expr q = e) as [Hin <-] by (destruct Hq; split; by auto 10 using in_eq, in_cons).
    specialize (H q Hin). cbn beta in H. rewrite Hf in H. destruct (run _ _) as [s|]; [|done]. by apply String.eqb_eq in H as ->.
  - intros H q Hin. assert (query q (query_expr q)) as Hq by (destruct Hin as [<-|[<-|[<-|[]]]]; constructor).
    destruct (fs !! _) as [text|] eqn:Ef; [|done]. rewrite (H _ _ _ Hq Ef). apply String.eqb_refl.
Qed.
Print Assumptions C97_shown.

(** * C98: golden files which are written, and then tested *)
Section Written.
Context (zprint print : edn → string) (shown : string → beans → string) (fs fs' : files) (ts : list golden_test) (load : string → option beans)
  (Hdirs : NoDup (gt_dir <$> ts)) (Hall : update_all zprint print shown fs ts load = (fs', true)).

Lemma written_at t b n : t ∈ ts → load (gt_beanfile t) = Some b → n ∈ read_names →
  fs' !! in_dir (gt_dir t) n = update_test zprint print shown fs t b !! in_dir (gt_dir t) n.
Proof using Hall Hdirs. intros Ht Hb Hn. destruct (update_all_at _ _ _ _ _ _ _ Hdirs Hall t Ht) as (b'&Hb'&H). rewrite Hb in Hb'. injection Hb' as <-. by apply H. Qed.
Ltac listed := repeat first [apply elem_of_list_here|apply elem_of_list_further].
(** Of a ledger without errors the directives are written if plugins have changed them or
    the file is there, and the queries if their files are there.  Nothing else is. *)
Theorem C98_written t b : t ∈ ts → load (gt_beanfile t) = Some b → be_error b = None →
  fs' !! (gt_dir t +:+ "/directives.edn") =
    (if decide (is_Some (be_booked_xf b) ∨ is_Some (fs !! (gt_dir t +:+ "/directives.edn"))) then Some (zprint (default ENil (be_directives b))) else None) ∧
  fs' !! (gt_dir t +:+ "/raw-xf-directives.edn") =
    (if decide (is_Some (be_raw_xf b) ∨ is_Some (fs !! (gt_dir t +:+ "/raw-xf-directives.edn"))) then Some (zprint (default ENil (be_raw_xf b))) else None) ∧
  (∀ q e, query q e → fs' !! (gt_dir t +:+ "/" +:+ q) = if decide (is_Some (fs !! (gt_dir t +:+ "/" +:+ q))) then Some (shown q b) else None) ∧
  fs' !! (gt_dir t +:+ "/error.edn") = fs !! (gt_dir t +:+ "/error.edn").
Proof using Hall Hdirs.
  intros Ht Hb He. change "/directives.edn" with ("/" +:+ "directives.edn"). change "/raw-xf-directives.edn" with ("/" +:+ "raw-xf-directives.edn").
  change "/error.edn" with ("/" +:+ "error.edn"). fold (in_dir (gt_dir t) "directives.edn"). fold (in_dir (gt_dir t) "raw-xf-directives.edn"). fold (in_dir (gt_dir t) "error.edn").
  split_and!.
  - rewrite (written_at t b) by (done || listed).
    pose proof (update_output zprint print shown fs t b (nth 0 (OUTPUTS zprint print shown) (Output "" (λ _, "") None (λ _ _, false))) He) as Hu.
    cbn [nth OUTPUTS o_file o_required o_text] in Hu. rewrite Hu by (unfold OUTPUTS; listed). clear Hu.
    destruct (fs !! _) eqn:E; destruct (be_booked_xf b); repeat case_bool_decide; repeat case_decide; cbn [orb]; try done; naive_solver.
  - rewrite (written_at t b) by (done || listed).
    pose proof (update_output zprint print shown fs t b (nth 1 (OUTPUTS zprint print shown) (Output "" (λ _, "") None (λ _ _, false))) He) as Hu.
    cbn [nth OUTPUTS o_file o_required o_text] in Hu. rewrite Hu by (unfold OUTPUTS; listed). clear Hu.
    destruct (fs !! _) eqn:E; destruct (be_raw_xf b); repeat case_bool_decide; repeat case_decide; cbn [orb]; try done; naive_solver.
  - intros q e Hq. fold (in_dir (gt_dir t) q). assert (Hn : q ∈ read_names) by (destruct Hq; listed).
    rewrite (written_at t b) by done.
    assert (Ho : ∃ o, o ∈ OUTPUTS zprint print shown ∧ o_file o = q ∧ o_required o = (λ _ there, there) ∧ o_text o = shown q).
    { destruct Hq.
      - exists (Output "inventory" (shown "inventory") None (λ _ there, there)). split; [|done]. unfold OUTPUTS. listed.
      - exists (Output "rollup" (shown "rollup") None (λ _ there, there)). split; [|done]. unfold OUTPUTS. listed.
      - exists (Output "journal" (shown "journal") None (λ _ there, there)). split; [|done]. unfold OUTPUTS. listed. }
    destruct Ho as (o&Ho&<-&Hr&Hx). rewrite update_output by done. rewrite Hr, Hx.
    destruct (fs !! _) eqn:E; repeat case_bool_decide; repeat case_decide; try done; naive_solver.
  - rewrite (written_at t b) by (done || listed). by apply update_no_error.
Qed.
(** Of a ledger with an error only the error is written. *)
Theorem C98_error t b e : t ∈ ts → load (gt_beanfile t) = Some b → be_error b = Some e →
  fs' !! (gt_dir t +:+ "/error.edn") = Some (zprint e) ∧
  ∀ n, n ∈ ["directives.edn"; "raw-xf-directives.edn"; "inventory"; "rollup"; "journal"] → fs' !! (gt_dir t +:+ "/" +:+ n) = fs !! (gt_dir t +:+ "/" +:+ n).
Proof using Hall Hdirs.
  intros Ht Hb He. split.
  - change "/error.edn" with ("/" +:+ "error.edn"). fold (in_dir (gt_dir t) "error.edn"). rewrite (written_at t b) by (done || listed).
    rewrite (update_error _ _ _ _ _ _ e) by (done || (unfold golden_names; listed)). by rewrite decide_True.
  - intros n Hn. fold (in_dir (gt_dir t) n). assert (Hr : n ∈ read_names ∧ n ≠ "error.edn").
    { repeat (apply elem_of_cons in Hn as [->|Hn]; [split; [unfold read_names; listed|done]|]). by apply elem_of_nil in Hn. }
    destruct Hr as [Hr Hne]. rewrite (written_at t b) by done. rewrite (update_error _ _ _ _ _ _ e) by (done || by apply read_golden). by rewrite decide_False.
Qed.
End Written.
(** No other file is written, whether or not all the ledgers can be loaded. *)
Theorem C98_nothing_else zprint print shown fs ts load path :
  (∀ t name, t ∈ ts → name ∈ golden_names → path ≠ gt_dir t +:+ "/" +:+ name) →
  (update_all zprint print shown fs ts load).1 !! path = fs !! path.
Proof. intros H. apply update_all_other. intros t n Ht Hn. by apply H. Qed.
Print Assumptions C98_written.
Print Assumptions C98_error.
Print Assumptions C98_nothing_else.

Section Tested.
Context (strict_match : edn → edn → bool) (finds : string → string → Prop) (elements : edn → option (list edn))
  (Hmatch : ∀ p x, strict_match p x = true ↔ alike finds elements p x)
  (zprint print : edn → string) (shown : string → beans → string) (fs fs' : files)
  (exists_ : string → bool) (ignore : bool) (paths : list string) (load : string → option beans)
  (Hpaths : NoDup paths) (Hnames : ∀ path, path ∈ paths → ¬ nameless path).
Local Notation ts := (find_golden_tests exists_ ignore paths).
Context (Hall : update_all zprint print shown fs ts load = (fs', true)).
(** The text of each value which is written is that value's. *)
Context (Hprint : ∀ t b key v, t ∈ ts → load (gt_beanfile t) = Some b → key ∈ keys → at_key (Some b) key v → begins_with v (zprint v)).

Lemma tests_nodup : NoDup (gt_dir <$> ts).
Proof using Hpaths Hnames. by apply tests_dirs. Qed.
Lemma golden_content t b key v text : t ∈ ts → load (gt_beanfile t) = Some b → not_stale fs t b → key ∈ keys → at_key (Some b) key v →
  fs' !! (gt_dir t +:+ "/" +:+ key +:+ ".edn") = Some text → text = zprint v ∧ (key = "error" ↔ be_error b ≠ None).
Proof using Hall Hpaths Hnames.
  intros Ht Hb Hs Hk Hv Hf. unfold not_stale in Hs. apply at_key_get in Hv as ->; [|done]. destruct (be_error b) as [e|] eqn:He.
  - destruct (C98_error _ _ _ _ _ _ _ tests_nodup Hall t b e Ht Hb He) as [H1 H2].
    unfold keys in Hk. repeat (apply elem_of_cons in Hk as [->|Hk]).
    + change ("raw-xf-directives" +:+ ".edn") with "raw-xf-directives.edn" in Hf. rewrite H2 in Hf by (repeat first [apply elem_of_list_here|apply elem_of_list_further]).
      rewrite Hs in Hf; [done|unfold golden_names; repeat first [apply elem_of_list_here|apply elem_of_list_further]|done].
    + change ("directives" +:+ ".edn") with "directives.edn" in Hf. rewrite H2 in Hf by (repeat first [apply elem_of_list_here|apply elem_of_list_further]).
      rewrite Hs in Hf; [done|unfold golden_names; repeat first [apply elem_of_list_here|apply elem_of_list_further]|done].
    + change ("/" +:+ "error" +:+ ".edn") with "/error.edn" in Hf. rewrite H1 in Hf. injection Hf as <-. unfold get_key. cbn [mbind option_bind]. cbn. by rewrite He.
    + by apply elem_of_nil in Hk.
  - destruct (C98_written _ _ _ _ _ _ _ tests_nodup Hall t b Ht Hb He) as (H1&H2&_&H3).
    unfold keys in Hk. repeat (apply elem_of_cons in Hk as [->|Hk]).
    + change ("/" +:+ "raw-xf-directives" +:+ ".edn") with "/raw-xf-directives.edn" in Hf. rewrite H2 in Hf. destruct (decide _); [|done]. injection Hf as <-. done.
    + change ("/" +:+ "directives" +:+ ".edn") with "/directives.edn" in Hf. rewrite H1 in Hf. destruct (decide _); [|done]. injection Hf as <-. done.
    + change ("/" +:+ "error" +:+ ".edn") with "/error.edn" in Hf. by rewrite H3, Hs in Hf.
    + by apply elem_of_nil in Hk.
Qed.
(** What has been written passes for as long as every ledger gives equal values, unless
    what was there before is of another kind. *)
Theorem C98_passes_partial load' :
  (∀ t b, t ∈ ts → load (gt_beanfile t) = Some b → not_stale fs t b) →
  (∀ t b, t ∈ ts → load (gt_beanfile t) = Some b → ∃ b', load' (gt_beanfile t) = Some b' ∧ equal_beans b b') →
  api_tests strict_match fs' ts load' = true.
Proof using Hall Hpaths Hnames Hmatch Hprint.
  intros Hs Hl. apply (C97_passes strict_match finds elements Hmatch). intros t key text v' Ht Hk Hf Hv'.
  destruct (update_all_at _ _ _ _ _ _ _ tests_nodup Hall t Ht) as (b&Hb&_). destruct (Hl t b Ht Hb) as (b'&Hb'&He). rewrite Hb' in Hv'.
  pose proof (proj2 (at_key_get (Some b) key (get_key (Some b) key) Hk) eq_refl) as Hv.
  destruct (golden_content t b key _ text Ht Hb (Hs t b Ht Hb) Hk Hv Hf) as [-> _].
  exists (get_key (Some b) key). split; [by eapply Hprint|]. apply K_equal. apply at_key_get in Hv' as ->; [|done].
  destruct He as (H1&H2&H3). unfold keys in Hk. repeat (apply elem_of_cons in Hk as [->|Hk]); [| | |by apply elem_of_nil in Hk].
  - change (equal (default ENil (be_raw_xf b)) (default ENil (be_raw_xf b'))). destruct H1; [done|constructor].
  - change (equal (default ENil (be_directives b)) (default ENil (be_directives b'))). destruct H2; [done|constructor].
  - change (equal (default ENil (be_error b)) (default ENil (be_error b'))). destruct H3; [done|constructor].
Qed.
(** If they pass later, then each value which was written is the pattern of the value
    there is now. *)
Theorem C98_tells_partial load' t b key v v' :
  (∀ t b, t ∈ ts → load (gt_beanfile t) = Some b → not_stale fs t b) →
  api_tests strict_match fs' ts load' = true →
  t ∈ ts → load (gt_beanfile t) = Some b → key ∈ keys → is_Some (fs' !! (gt_dir t +:+ "/" +:+ key +:+ ".edn")) →
  at_key (Some b) key v → at_key (load' (gt_beanfile t)) key v' → alike finds elements v v'.
Proof using Hall Hpaths Hnames Hmatch Hprint.
  intros Hs Hp Ht Hb Hk [text Hf] Hv Hv'. destruct (proj1 (C97_passes strict_match finds elements Hmatch fs' ts load') Hp t key text v' Ht Hk Hf Hv') as (p&Hp1&Hp2).
  destruct (golden_content t b key v text Ht Hb (Hs t b Ht Hb) Hk Hv Hf) as [-> _].
  by rewrite (C94_one _ _ _ (Hprint t b key v Ht Hb Hk Hv) Hp1).
Qed.
(** The queries which have been written pass if they show the same, unless the ledger has
    an error. *)
Theorem C98_shown_partial run :
  (∀ t b, t ∈ ts → load (gt_beanfile t) = Some b → not_stale fs t b) →
  (∀ t b q e, t ∈ ts → load (gt_beanfile t) = Some b → be_error b = None → query q e → run (gt_beanfile t) e = Some (shown q b)) →
  ∀ t, t ∈ ts → app_test fs' t run = true.
Proof using Hall Hpaths Hnames.
  intros Hs Hr t Ht. destruct (update_all_at _ _ _ _ _ _ _ tests_nodup Hall t Ht) as (b&Hb&_).
  unfold app_test. apply forallb_forall. intros q Hq.
  assert (Hqe : query q (query_expr q)). { destruct Hq as [<-|[<-|[<-|[]]]]; constructor. }
  unfold in_dir. specialize (Hs t b Ht Hb). unfold not_stale in Hs. destruct (be_error b) as [e|] eqn:He.
  - destruct (C98_error _ _ _ _ _ _ _ tests_nodup Hall t b e Ht Hb He) as [_ H2].
    rewrite H2 by (destruct Hqe; repeat first [apply elem_of_list_here|apply elem_of_list_further]).
    rewrite Hs; [done|destruct Hqe; unfold golden_names; repeat first [apply elem_of_list_here|apply elem_of_list_further]|by destruct Hqe].
  - destruct (C98_written _ _ _ _ _ _ _ tests_nodup Hall t b Ht Hb He) as (_&_&H3&_). rewrite (H3 q _ Hqe). destruct (decide _); [|done].
    rewrite (Hr t b q _ Ht Hb He Hqe). apply String.eqb_refl.
Qed.
End Tested.
Print Assumptions C98_passes_partial.
Print Assumptions C98_tells_partial.
Print Assumptions C98_shown_partial.

(** What was written for a ledger which had an error is not removed when it has none any
    more, nor the other way round: then the tests fail although they have just been
    written. *)
Theorem C98_stale_refuted : ∃ t load fs fs' load2 fs2, is_test (gt_beanfile t) t ∧
  update_all pr pr (λ _ _, "") ∅ [t] load = (fs, true) ∧ update_all pr pr (λ _ _, "") fs [t] load2 = (fs', true) ∧
  update_all pr pr (λ _ _, "") fs' [t] load = (fs2, true) ∧
  ∀ strict_match finds elements, (∀ p x, strict_match p x = true ↔ alike finds elements p x) → (∀ l, elements ENil = Some l → l = []) →
    api_tests strict_match fs' [t] load2 = false ∧ api_tests strict_match fs2 [t] load = false.
Proof.
  set (t := GoldenTest "a" "a.beancount" "a.golden"). set (e := EMap [(EKw "parser", EVec [EStr "found"])]). set (v := EVec [EMap [(EKw "dct", EKw "open")]]).
  set (load := λ _ : string, Some (Beans None None None (Some e))). set (load2 := λ _ : string, Some (Beans None (Some v) (Some v) None)).
  exists t, load, (update_all pr pr (λ _ _, "") ∅ [t] load).1, (update_all pr pr (λ _ _, "") (update_all pr pr (λ _ _, "") ∅ [t] load).1 [t] load2).1, load2,
    (update_all pr pr (λ _ _, "") (update_all pr pr (λ _ _, "") (update_all pr pr (λ _ _, "") ∅ [t] load).1 [t] load2).1 [t] load).1.
  split_and!; [| | | |].
  - exists "", "a". split_and!; try done; [by left|]. intros [m E]. apply (f_equal String.length) in E. rewrite ReadFacts.length_app in E. cbn in E. lia.
  - done.
  - done.
  - done.
  - intros sm finds elements Hm Hnil. split; apply not_true_iff_false; intros H; rewrite (C97_passes sm finds elements Hm) in H.
    + destruct (H t "error" (pr e) ENil) as (p&Hp&Ha); [by left|by repeat (apply elem_of_list_here || apply elem_of_list_further)|by vm_compute|apply (K_error (Beans None (Some v) (Some v) None))|].
      apply C94_reads in Hp. vm_compute in Hp. injection Hp as <-. inversion Ha as [? ? He| | |]; subst. by apply same_spec in He.
    + destruct (H t "directives" (pr v) ENil) as (p&Hp&Ha); [by left|by repeat (apply elem_of_list_here || apply elem_of_list_further)|by vm_compute|apply (K_directives (Beans None None None (Some e)))|].
      apply C94_reads in Hp. vm_compute in Hp. injection Hp as <-. inversion Ha as [? ? He| |? ? ? He HF|]; subst; [by apply same_spec in He|].
      apply Hnil in He as ->. by apply Forall2_cons_nil_inv in HF.
Qed.
Print Assumptions C98_stale_refuted.

(** ** Examples *)

(** A matcher as the theorems ask for: regular expressions which are found in themselves
    only, and [nil] as an empty vector. *)
Definition its_elements (x : edn) : option (list edn) := match x with ENil => Some [] | EVec l | EList l => Some l | _ => None end.
Fixpoint matches (p x : edn) {struct p} : bool :=
  let fix each (l l' : list edn) {struct l} : bool :=
    match l, l' with [], [] => true | x :: l, y :: l' => matches x y && each l l' | _, _ => false end in
  same p x ||
  match p with
  | ERegex re => match x with EStr s => String.eqb re s | _ => false end
  | EVec ps => match its_elements x with Some xs => each ps xs | None => false end
  | EMap ps =>
      match x with
      | EMap xs => Nat.eqb (length ps) (length xs) && forallb (λ kp, existsb (λ kx : edn * edn, same kp.1 kx.1 && matches kp.2 kx.2) xs) ps
      | _ => false
      end
  | _ => false
  end.
Fixpoint each_matches (l l' : list edn) : bool :=
  match l, l' with [], [] => true | x :: l, y :: l' => matches x y && each_matches l l' | _, _ => false end.
Lemma matches_vec ps x : matches (EVec ps) x = same (EVec ps) x || match its_elements x with Some xs => each_matches ps xs | None => false end.
Proof. by destruct x. Qed.
Lemma matches_spec p x : matches p x = true ↔ alike eq its_elements p x.
Proof.
  revert x. induction p as [|y|y|y|y|y|y|y|y|l IH|l IH|l IH|l IH] using edn_ind'; intros x;
    try (cbn [matches]; rewrite orb_false_r, same_spec; split; [by apply K_equal|by inversion 1]).
  - change (matches (ERegex y) x) with (same (ERegex y) x || match x with EStr s => String.eqb y s | _ => false end). rewrite orb_true_iff, same_spec. split.
    + intros [H|H]; [by apply K_equal|]. destruct x; try done. apply String.eqb_eq in H as ->. by apply K_regex.
    + intros H. inversion H; subst; [by left|]. right. apply String.eqb_refl.
  - rewrite matches_vec, orb_true_iff, same_spec.
    assert (HF : ∀ xs, each_matches l xs = true ↔ Forall2 (alike eq its_elements) l xs).
    { induction IH as [|p l Hp _ IHl]; intros [|y xs]; cbn [each_matches].
      - split; [constructor|done].
      - split; [done|by intros ?%Forall2_nil_cons_inv].
      - split; [done|by intros ?%Forall2_cons_nil_inv].
      - rewrite andb_true_iff, Hp, IHl. split; [by intros [? ?]; constructor|by intros [? ?]%Forall2_cons]. }
    split.
    + intros [H|H]; [by apply K_equal|]. destruct (its_elements x) as [xs|] eqn:E; [|done]. eapply K_vector; [exact E|by apply HF].
    + intros H. inversion H as [| |? ? xs E HF'|]; subst; [by left|]. right. rewrite E. by apply HF.
  - cbn [matches]. rewrite orb_true_iff, same_spec. split.
    + intros [H|H]; [by apply K_equal|]. destruct x as [| | | | | | | | | | | |xs]; try done. apply andb_true_iff in H as [H1 H2]. apply Nat.eqb_eq in H1.
      apply K_map; [done|]. apply (forallb_spec _ (λ kp, Exists (λ kx, equal kp.1 kx.1 ∧ alike eq its_elements kp.2 kx.2) xs)) in H2; [done|].
      eapply Forall_impl; [exact IH|]. intros kp [_ Hv]. apply existsb_Exists. intros kx. by rewrite andb_true_iff, same_spec, Hv.
    + intros H. inversion H as [| | |? xs Hl HF]; subst; [by left|]. right. apply andb_true_iff. split; [by apply Nat.eqb_eq|].
      apply (forallb_spec _ (λ kp, Exists (λ kx, equal kp.1 kx.1 ∧ alike eq its_elements kp.2 kx.2) xs)); [|done].
      eapply Forall_impl; [exact IH|]. intros kp [_ Hv]. apply existsb_Exists. intros kx. by rewrite andb_true_iff, same_spec, Hv.
Qed.

(** A ledger which plugins have changed, and one with an error. *)
Definition ex_directives : edn :=
  EVec [EMap [(EKw "date", EDate (Date 2024 2 29)); (EKw "dct", EKw "open"); (EKw "acc", EStr "Assets:Cash"); (EKw "currencies", ESet [EStr "NZD"; EStr "USD"])];
        EMap [(EKw "date", EDate (Date 2024 3 1)); (EKw "dct", EKw "txn"); (EKw "postings", EVec [EMap [(EKw "acc", EStr "Assets:Cash"); (EKw "units", ENum (CDec (Dec 1050 2)))]])]].
(** The same with the elements of the set in another order. *)
Definition ex_directives2 : edn :=
  EVec [EMap [(EKw "dct", EKw "open"); (EKw "date", EDate (Date 2024 2 29)); (EKw "acc", EStr "Assets:Cash"); (EKw "currencies", ESet [EStr "USD"; EStr "NZD"])];
        EMap [(EKw "date", EDate (Date 2024 3 1)); (EKw "dct", EKw "txn"); (EKw "postings", EVec [EMap [(EKw "acc", EStr "Assets:Cash"); (EKw "units", ENum (CDec (Dec 105 1)))]])]].
Definition ex_error : edn := EMap [(EKw "parser", EMap [(EKw "spanned-reports", EVec [EMap [(EKw "message", EStr "found 'T' expected ""x""")]])])].
Definition ex_load (ds : edn) (path : string) : option beans :=
  if String.eqb path "t/a.beancount" then Some (Beans None (Some ds) (Some ds) None)
  else if String.eqb path "t/b.beancount" then Some (Beans None None None (Some ex_error)) else None.
Definition ex_paths : list string := ["t"; "t/a.beancount"; "t/b.beancount"; "t/a.golden"; "t/a.golden/inventory"].
Definition ex_files : files := {["t/a.golden/inventory" := "old"]}.
Definition ex_shown (q : string) (_ : beans) : string := q +:+ " of a".
Definition ex_tests : list golden_test := find_golden_tests (λ _, false) true ex_paths.
Definition ex_written : files := (update_all pr pr ex_shown ex_files ex_tests (ex_load ex_directives)).1.
Lemma ex_updated : update_all pr pr ex_shown ex_files ex_tests (ex_load ex_directives) = (ex_written, true).
Proof. done. Qed.
Lemma ex_names path : path ∈ ex_paths → ¬ nameless path.
Proof.
  intros Hp (d&Hd&->). assert (Hn : file_name (d +:+ ".beancount") = ".beancount") by (rewrite file_name_folder by done; done).
  unfold ex_paths in Hp. repeat (apply elem_of_cons in Hp as [E|Hp]; [rewrite E in Hn; by vm_compute in Hn|]). by apply elem_of_nil in Hp.
Qed.
Lemma ex_tests_are : ex_tests = [GoldenTest "a" "t/a.beancount" "t/a.golden"; GoldenTest "b" "t/b.beancount" "t/b.golden"].
Proof. by vm_compute. Qed.
Lemma ex_prints t b key v : t ∈ ex_tests → ex_load ex_directives (gt_beanfile t) = Some b → key ∈ keys → at_key (Some b) key v → begins_with v (pr v).
Proof.
  rewrite ex_tests_are. intros Ht Hb Hk Hv. apply at_key_get in Hv as ->; [|done]. apply C94_reads. unfold keys in Hk.
  repeat (apply elem_of_cons in Ht as [->|Ht]); [| |by apply elem_of_nil in Ht]; injection Hb as <-;
    repeat (apply elem_of_cons in Hk as [->|Hk]; [by vm_compute|]); by apply elem_of_nil in Hk.
Qed.
Lemma ex_not_stale t b : t ∈ ex_tests → ex_load ex_directives (gt_beanfile t) = Some b → not_stale ex_files t b.
Proof.
  rewrite ex_tests_are. intros Ht Hb. repeat (apply elem_of_cons in Ht as [->|Ht]); [| |by apply elem_of_nil in Ht]; injection Hb as <-.
  - by vm_compute.
  - intros n Hn _. unfold golden_names in Hn. repeat (apply elem_of_cons in Hn as [->|Hn]; [by vm_compute|]). by apply elem_of_nil in Hn.
Qed.
Example C98_example :
  ex_written !! "t/a.golden/directives.edn" = Some (pr ex_directives) ∧ ex_written !! "t/a.golden/raw-xf-directives.edn" = None ∧
  ex_written !! "t/a.golden/inventory" = Some "inventory of a" ∧ ex_written !! "t/b.golden/error.edn" = Some (pr ex_error) ∧
  api_tests matches ex_written ex_tests (ex_load ex_directives2) = true ∧
  (∀ t, t ∈ ex_tests → app_test ex_written t (λ _ e, if String.eqb e "(show (inventory))" then Some "inventory of a" else
     if String.eqb e "(show (journal))" then Some "journal of a" else Some "rollup of a") = true) ∧
  api_tests matches ex_written ex_tests (ex_load (EVec [])) = false.
Proof.
  pose proof (C98_passes_partial matches eq its_elements matches_spec pr pr ex_shown ex_files ex_written (λ _, false) true ex_paths (ex_load ex_directives)
    ltac:(by apply (bool_decide_unpack _)) ex_names ex_updated ex_prints (ex_load ex_directives2) ex_not_stale) as H.
  pose proof (C98_shown_partial pr pr ex_shown ex_files ex_written (λ _, false) true ex_paths (ex_load ex_directives)
    ltac:(by apply (bool_decide_unpack _)) ex_names ex_updated
    (λ _ e, if String.eqb e "(show (inventory))" then Some "inventory of a" else if String.eqb e "(show (journal))" then Some "journal of a" else Some "rollup of a")
    ex_not_stale) as H2.
  split_and!; [by vm_compute..| | |by vm_compute].
  - apply H. clear H H2. intros t b Ht Hb. change (t ∈ ex_tests) in Ht. rewrite ex_tests_are in Ht. repeat (apply elem_of_cons in Ht as [->|Ht]); [| |by apply elem_of_nil in Ht]; injection Hb as <-.
    + exists (Beans None (Some ex_directives2) (Some ex_directives2) None). split; [by vm_compute|]. split; [constructor|]. split; [|constructor].
      constructor. apply same_spec. by vm_compute.
    + exists (Beans None None None (Some ex_error)). split; [by vm_compute|]. split; [constructor|]. split; [constructor|].
      constructor. apply same_spec. by vm_compute.
  - apply H2. clear H H2. intros t b q e Ht Hb He Hq. change (t ∈ ex_tests) in Ht. rewrite ex_tests_are in Ht. repeat (apply elem_of_cons in Ht as [->|Ht]); [| |by apply elem_of_nil in Ht]; injection Hb as <-.
    + by destruct Hq.
    + done.
Qed.
Example C97_passes_example :
  alike eq its_elements (EVec [ERegex "x"; EMap [(EKw "a", ENum (CLong 1))]]) (EVec [EStr "x"; EMap [(EKw "a", ENum (CBig 1))]]) ∧
  ¬ alike eq its_elements (EMap [(EKw "a", ENil)]) (EMap [(EKw "a", ENil); (EKw "b", ENil)]) ∧
  without_regex ex_directives ∧ alike eq its_elements ex_directives ex_directives2.
Proof.
  rewrite <- !matches_spec. split_and!; by vm_compute.
Qed.
