(** How golden tests are found, and what writing them does to the files. *)
From Coq Require Import Ascii QArith.
From stdpp Require Import prelude gmap strings.
From Verif Require Import DecModel LedgerTypes IsoModel JsonModel CljModel InventoryModel ClientModel FormatModel PluginModel LoaderModel PrintModel TextFacts
  ReadModel ReadSpec ReadFacts EdnModel EdnSpec EdnForms GoldenModel GoldenSpec.
Local Open Scope nat_scope.
Local Notation app_assoc := TextFacts.string_app_assoc.
Local Notation length_app := ReadFacts.length_app.

(** * Strings *)
Lemma app_cons c (a b : string) : String c a +:+ b = String c (a +:+ b).
Proof. done. Qed.
Lemma app_end (a : string) : a +:+ "" = a.
Proof. induction a as [|c a IH]; [done|]. by rewrite app_cons, IH. Qed.
Lemma app_cancel (a b c : string) : a +:+ c = b +:+ c → a = b.
Proof.
  revert b. induction a as [|x a IH]; intros [|y b] H; [done| | |].
  - apply (f_equal String.length) in H. rewrite app_cons in H. cbn [String.length] in H. change ("" +:+ c) with c in H. rewrite length_app in H. lia.
  - apply (f_equal String.length) in H. rewrite app_cons in H. cbn [String.length] in H. change ("" +:+ c) with c in H. rewrite length_app in H. lia.
  - rewrite !app_cons in H. injection H as -> H. f_equal. by apply IH.
Qed.
Lemma ends_with_spec suf s : ends_with suf s = true ↔ ∃ a, s = a +:+ suf.
Proof.
  induction s as [|c s IH]; cbn [ends_with]; rewrite orb_true_iff, String.eqb_eq.
  - split; [intros [->|?]; [by exists ""|done]|]. intros [a H]. left. destruct a; [done|]. by rewrite app_cons in H.
  - rewrite IH. split.
    + intros [<-|[a ->]]; [by exists ""|by exists (String c a)].
    + intros [[|d a] H]; [by left|]. rewrite app_cons in H. injection H as -> ->. right. by exists a.
Qed.
Lemma strip_beancount_spec s : strip_beancount (s +:+ ".beancount") = s.
Proof.
  induction s as [|c s IH]; [done|]. rewrite app_cons. cbn [strip_beancount].
  destruct (String.eqb_spec (s +:+ ".beancount") "beancount") as [E|_]; [|by rewrite IH].
  exfalso. apply (f_equal String.length) in E. rewrite length_app in E. cbn [String.length] in E. lia.
Qed.
Lemma no_last_slash_same s c : c ≠ "/"%char → no_last_slash (s +:+ String c "") = s +:+ String c "".
Proof.
  intros Hc. induction s as [|d s IH].
  - change ("" +:+ ?r) with r. cbn [no_last_slash]. by rewrite (proj2 (Ascii.eqb_neq _ _) Hc).
  - rewrite app_cons. cbn [no_last_slash]. destruct (String.eqb_spec (s +:+ String c "") "") as [E|_]; [by destruct s|]. by rewrite andb_false_r, IH.
Qed.
Lemma last_char s : s ≠ "" → ∃ a c, s = a +:+ String c "".
Proof.
  induction s as [|c s IH]; [done|]. intros _. destruct s as [|d s]; [by exists "", c|]. destruct IH as (a&e&->); [done|]. by exists (String c a), e.
Qed.
Lemma io_file_same d n : no_slash n → n ≠ "" → io_file (d +:+ n) = d +:+ n.
Proof.
  intros Hn Hne. destruct (last_char n Hne) as (a&c&->). apply every_app in Hn as [_ [Hc _]]. unfold io_file. rewrite <- app_assoc.
  destruct (String.eqb _ _); [done|]. by apply no_last_slash_same.
Qed.
Lemma file_name_folder d s : folder d → file_name (d +:+ s) = file_name s.
Proof.
  intros [->|[d' ->]]; [done|]. rewrite app_assoc. change ("/" +:+ s) with (String "/" s). unfold file_name.
  generalize "" at 1 as acc. induction d' as [|c d IH]; intros acc; [done|]. rewrite app_cons. cbn [file_name_from]. destruct (Ascii.eqb c "/"); apply IH.
Qed.
Lemma file_name_no_slash s : no_slash s → file_name s = s.
Proof.
  unfold file_name. intros H. transitivity ("" +:+ s); [|done]. revert H. generalize "" as acc. induction s as [|c s IH]; intros acc H; [cbn; by rewrite app_end|].
  destruct H as [Hc H]. cbn [file_name_from]. rewrite (proj2 (Ascii.eqb_neq _ _) Hc), IH by done. by rewrite app_assoc.
Qed.
Lemma split_path path : ∃ d n, folder d ∧ no_slash n ∧ path = d +:+ n.
Proof.
  induction path as [|c p (d&n&Hd&Hn&->)]; [by exists "", ""; split; [left|]|].
  destruct (decide (c = "/"%char)) as [->|Hc].
  - exists (String "/" d), n. split; [|done]. right. destruct Hd as [->|[d' ->]]; [by exists ""|by exists (String "/" d')].
  - destruct Hd as [->|[d' ->]]; [exists "", (String c n); split; [by left|]; done|exists (String c (d' +:+ "/")), n; split; [|done]].
    right. by exists (String c d').
Qed.
Lemma folder_unique d n e m : folder d → folder e → no_slash n → no_slash m → d +:+ n = e +:+ m → d = e ∧ n = m.
Proof.
  intros Hd He Hn Hm E. assert (n = m) as ->; [|split; [|done]; by eapply app_cancel].
  apply (f_equal file_name) in E. by rewrite !file_name_folder, !file_name_no_slash in E.
Qed.

(** * Tests *)
Lemma is_beanfile_spec d n : folder d → no_slash n → is_beanfile (d +:+ n) = true ↔ ∃ m, n = m +:+ ".beancount" ∧ ¬ ∃ k, m = k +:+ ".fyi".
Proof.
  intros Hd Hn. unfold is_beanfile. rewrite file_name_folder, file_name_no_slash by done.
  rewrite andb_true_iff, negb_true_iff, <- not_true_iff_false, !ends_with_spec. split.
  - intros [[m ->] H]. exists m. split; [done|]. intros [k ->]. apply H. exists k. by rewrite app_assoc.
  - intros (m&->&H). split; [by exists m|]. intros [k E]. apply H. exists k. change ".fyi.beancount" with (".fyi" +:+ ".beancount") in E.
    rewrite <- app_assoc in E. by eapply app_cancel.
Qed.
Lemma is_test_for path t : is_test path t ↔ is_beanfile path = true ∧ ¬ nameless path ∧ t = test_for path.
Proof.
  split.
  - intros (d&n&Hd&Hn&Hne&->&Hf&->). assert (Hs : no_slash (n +:+ ".beancount")) by (apply every_app; split; [done|by cbn; split_and!]).
    split_and!.
    + apply (is_beanfile_spec d (n +:+ ".beancount") Hd Hs). by exists n.
    + intros (e&He&E). apply folder_unique in E as [_ E]; [|done..|by cbn; split_and!].
      apply (f_equal String.length) in E. rewrite length_app in E. destruct n; cbn in E; [done|lia].
    + unfold test_for. rewrite <- app_assoc, strip_beancount_spec, io_file_same by done.
      rewrite file_name_folder, file_name_no_slash, !app_assoc by done. done.
  - intros (H&Hn&->). destruct (split_path path) as (d&n&Hd&Hs&->). apply is_beanfile_spec in H as (m&->&Hf); [|done..].
    apply every_app in Hs as [Hs _]. exists d, m. destruct (decide (m = "")) as [->|Hne].
    { exfalso. apply Hn. by exists d. }
    split_and!; [done..|]. unfold test_for. rewrite <- app_assoc, strip_beancount_spec, io_file_same by done.
    rewrite file_name_folder, file_name_no_slash, !app_assoc by done. done.
Qed.

(** * Files *)
Lemma in_dir_inj d e n m : no_slash n → no_slash m → in_dir d n = in_dir e m → d = e ∧ n = m.
Proof.
  unfold in_dir. rewrite <- !app_assoc. intros Hn Hm E. apply folder_unique in E as [E ->]; [|right; by eexists..|done|done].
  split; [by eapply app_cancel|done].
Qed.
Lemma golden_no_slash n : n ∈ golden_names → no_slash n.
Proof. unfold golden_names. intros H. repeat (apply elem_of_cons in H as [->|H]; [by cbn; split_and!|]). by apply elem_of_nil in H. Qed.
Lemma names_apart dir n m : n ∈ golden_names → m ∈ golden_names → n ≠ m → in_dir dir n ≠ in_dir dir m.
Proof. intros Hn Hm Hne E. apply in_dir_inj in E as [_ E]; [done|by apply golden_no_slash..]. Qed.
Lemma dirs_apart d e n m : n ∈ golden_names → m ∈ golden_names → d ≠ e → in_dir d n ≠ in_dir e m.
Proof. intros Hn Hm Hne E. apply in_dir_inj in E as [E _]; [done|by apply golden_no_slash..]. Qed.

Section Create.
Context (zprint print : edn → string) (shown : string → beans → string).
Local Notation OUT := (OUTPUTS zprint print shown).
Local Notation update := (update_test zprint print shown).

Lemma write_other dir b fs o path : path ≠ in_dir dir (o_file o) → (∀ p, o_fyi o = Some p → path ≠ in_dir dir p.1) →
  write_output dir b fs o !! path = fs !! path.
Proof.
  intros H1 H2. unfold write_output. destruct (o_required _ _ _); [|done]. destruct (o_fyi o) as [[name f]|].
  - rewrite lookup_insert_ne by (intros <-; by apply (H2 _ eq_refl)). by rewrite lookup_insert_ne.
  - by rewrite lookup_insert_ne.
Qed.
Lemma write_own dir b fs o : (∀ p, o_fyi o = Some p → in_dir dir (o_file o) ≠ in_dir dir p.1) →
  write_output dir b fs o !! in_dir dir (o_file o) =
  if o_required o b (bool_decide (is_Some (fs !! in_dir dir (o_file o)))) then Some (o_text o b) else fs !! in_dir dir (o_file o).
Proof.
  intros H. unfold write_output. destruct (o_required _ _ _); [|done]. destruct (o_fyi o) as [[name f]|].
  - rewrite lookup_insert_ne by (intros E; by apply (H _ eq_refl)). by rewrite lookup_insert.
  - by rewrite lookup_insert.
Qed.
Ltac golden := unfold golden_names; repeat first [apply elem_of_list_here|apply elem_of_list_further].
Ltac apart' := apply names_apart; [by golden..|done].
Lemma outputs_golden o : o ∈ OUT → o_file o ∈ golden_names ∧ ∀ p, o_fyi o = Some p → p.1 ∈ golden_names.
Proof.
  unfold OUTPUTS. intros H. repeat (apply elem_of_cons in H as [->|H]; [split; [cbn; golden|intros p Hp; cbn in Hp; simplify_eq/=; golden]|]). by apply elem_of_nil in H.
Qed.
Lemma writes_other dir b os fs path : (∀ o, o ∈ os → o ∈ OUT) → (∀ n, n ∈ golden_names → path ≠ in_dir dir n) →
  foldl (write_output dir b) fs os !! path = fs !! path.
Proof.
  intros Hos Hp. revert fs. induction os as [|o os IH]; intros fs; [done|]. cbn [foldl]. rewrite IH by (intros; apply Hos; by right).
  destruct (outputs_golden o) as [H1 H2]; [apply Hos; by left|]. apply write_other; [by apply Hp|]. intros p E. by apply Hp, H2.
Qed.
Lemma update_other fs t b path : (∀ n, n ∈ golden_names → path ≠ in_dir (gt_dir t) n) → update fs t b !! path = fs !! path.
Proof.
  intros Hp. unfold update_test. destruct (be_error b).
  - rewrite lookup_insert_ne; [done|]. intros E. apply (Hp "error.edn"); [golden|done].
  - by apply writes_other.
Qed.
Lemma update_no_error fs t b : be_error b = None → update fs t b !! in_dir (gt_dir t) "error.edn" = fs !! in_dir (gt_dir t) "error.edn".
Proof.
  intros E. unfold update_test. rewrite E. unfold OUTPUTS. cbn [foldl].
  repeat (rewrite write_other; [|apart'|intros p Hp; cbn [o_fyi] in Hp; simplify_eq/=; apart']). done.
Qed.
Lemma update_error fs t b e : be_error b = Some e → ∀ n, n ∈ golden_names →
  update fs t b !! in_dir (gt_dir t) n = if decide (n = "error.edn") then Some (zprint e) else fs !! in_dir (gt_dir t) n.
Proof.
  intros E n Hn. unfold update_test. rewrite E. case_decide as H; [subst; by rewrite lookup_insert|].
  rewrite lookup_insert_ne; [done|]. apply names_apart; [golden|done|congruence].
Qed.
Ltac other := rewrite write_other; [|cbn [o_file]; apart'|intros p Hp; cbn [o_fyi] in Hp; simplify_eq/=; apart'].
Lemma update_output fs t b o : be_error b = None → o ∈ OUT →
  update fs t b !! in_dir (gt_dir t) (o_file o) =
  if o_required o b (bool_decide (is_Some (fs !! in_dir (gt_dir t) (o_file o)))) then Some (o_text o b) else fs !! in_dir (gt_dir t) (o_file o).
Proof.
  intros E Ho. unfold update_test. rewrite E.
  assert (Hown : ∀ p, o_fyi o = Some p → in_dir (gt_dir t) (o_file o) ≠ in_dir (gt_dir t) p.1).
  { intros p Hp. destruct (outputs_golden o Ho) as [H1 H2]. apply names_apart; [done|by apply H2|].
    unfold OUTPUTS in Ho. repeat (apply elem_of_cons in Ho as [->|Ho]; [cbn in Hp; simplify_eq/=; done|]). by apply elem_of_nil in Ho. }
  pose proof Ho as Hin. apply elem_of_list_split in Ho as (l1&l2&Hl).
  enough (Hd : ∀ o', o' ∈ l1 ++ l2 → ∀ fs', write_output (gt_dir t) b fs' o' !! in_dir (gt_dir t) (o_file o) = fs' !! in_dir (gt_dir t) (o_file o)).
  { rewrite Hl, foldl_app. cbn [foldl].
    assert (Hd1 : ∀ os, (∀ o', o' ∈ os → o' ∈ l1 ++ l2) → ∀ fs', foldl (write_output (gt_dir t) b) fs' os !! in_dir (gt_dir t) (o_file o) = fs' !! in_dir (gt_dir t) (o_file o)).
    { induction os as [|o' os IH]; intros Hos fs'; [done|]. cbn [foldl]. rewrite IH by (intros; apply Hos; by right). apply Hd, Hos. by left. }
    rewrite Hd1 by (intros; apply elem_of_app; by right). rewrite write_own by done. rewrite !Hd1 by (intros; apply elem_of_app; by left). done. }
  intros o' Ho' fs'. unfold OUTPUTS in Hl.
  repeat (destruct l1 as [|? l1]; cbn [app] in Hl; [simplify_list_eq; repeat (apply elem_of_cons in Ho' as [->|Ho']; [by other|]); by apply elem_of_nil in Ho'|];
    injection Hl as <- Hl).
  destruct l1; discriminate.
Qed.
End Create.

(** * All the tests *)
Definition read_names : list string := ["directives.edn"; "raw-xf-directives.edn"; "inventory"; "rollup"; "journal"; "error.edn"].
Lemma read_golden n : n ∈ read_names → n ∈ golden_names.
Proof.
  unfold read_names, golden_names. intros H.
  repeat (apply elem_of_cons in H as [->|H]; [repeat first [apply elem_of_list_here|apply elem_of_list_further]|]). by apply elem_of_nil in H.
Qed.
Section All.
Context (zprint print : edn → string) (shown : string → beans → string).
Local Notation OUT := (OUTPUTS zprint print shown).
Local Notation update := (update_test zprint print shown).
Local Notation update_all := (update_all zprint print shown).

Lemma read_output n : n ∈ read_names → n = "error.edn" ∨ ∃ o, o ∈ OUT ∧ o_file o = n.
Proof.
  intros H. enough (n = "error.edn" ∨ n ∈ o_file <$> OUT) as [->|(o&->&Ho)%elem_of_list_fmap]; [by left|right; by exists o|].
  unfold read_names in H. repeat (apply elem_of_cons in H as [->|H]; [first [by left|right; cbn [fmap list_fmap OUTPUTS o_file]; repeat first [apply elem_of_list_here|apply elem_of_list_further]]|]).
  by apply elem_of_nil in H.
Qed.
Lemma update_local fs fs2 t b : (∀ n, n ∈ golden_names → fs !! in_dir (gt_dir t) n = fs2 !! in_dir (gt_dir t) n) →
  ∀ n, n ∈ read_names → update fs t b !! in_dir (gt_dir t) n = update fs2 t b !! in_dir (gt_dir t) n.
Proof.
  intros H n Hn. destruct (be_error b) as [e|] eqn:E.
  - rewrite !(update_error _ _ _ _ _ _ e) by (done || by apply read_golden). rewrite H by (by apply read_golden). done.
  - destruct (read_output n Hn) as [->|(o&Ho&<-)].
    + rewrite !update_no_error by done. by apply H, read_golden.
    + rewrite !update_output by done. rewrite H by (by apply read_golden). done.
Qed.
Lemma update_all_other fs ts load path : (∀ t n, t ∈ ts → n ∈ golden_names → path ≠ in_dir (gt_dir t) n) →
  (update_all fs ts load).1 !! path = fs !! path.
Proof.
  revert fs. induction ts as [|t ts IH]; intros fs H; [done|]. cbn [GoldenModel.update_all]. destruct (load (gt_beanfile t)) as [b|]; [|done].
  rewrite IH by (intros t' n Ht; apply H; by right). apply update_other. intros n Hn. apply H; [by left|done].
Qed.
Lemma update_all_at fs fs' ts load : NoDup (gt_dir <$> ts) → update_all fs ts load = (fs', true) → ∀ t, t ∈ ts →
  ∃ b, load (gt_beanfile t) = Some b ∧ ∀ n, n ∈ read_names → fs' !! in_dir (gt_dir t) n = update fs t b !! in_dir (gt_dir t) n.
Proof.
  revert fs. induction ts as [|t ts IH]; intros fs Hd E t0 Ht; [by apply elem_of_nil in Ht|].
  rewrite fmap_cons in Hd. apply NoDup_cons in Hd as [Hd1 Hd2]. cbn [GoldenModel.update_all] in E. destruct (load (gt_beanfile t)) as [b|] eqn:El; [|done].
  assert (Hne : ∀ t', t' ∈ ts → gt_dir t ≠ gt_dir t') by (intros t' Ht' Eq; apply Hd1; rewrite Eq; by apply elem_of_list_fmap_1).
  apply elem_of_cons in Ht as [->|Ht].
  - exists b. split; [done|]. intros n Hn. pose proof (update_all_other (update fs t b) ts load (in_dir (gt_dir t) n)) as Ho. rewrite E in Ho.
    apply Ho. intros t' m Ht' Hm. apply dirs_apart; [by apply read_golden|done|by apply Hne].
  - destruct (IH _ Hd2 E t0 Ht) as (b0&El0&H). exists b0. split; [done|]. intros n Hn. rewrite H by done.
    apply update_local; [|done]. intros m Hm. apply update_other. intros k Hk. apply dirs_apart; [done..|]. apply not_eq_sym. by apply Hne.
Qed.
End All.
