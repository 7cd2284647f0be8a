(** Lemmas about [show]. *)
From Coq Require Import Ascii QArith.
From stdpp Require Import prelude gmap strings pretty sorting.
From Verif Require Import DecModel LedgerTypes IsoModel JsonModel JsonText WireModel BookModel SpanModel ParserModel ServerModel TextFacts CljModel InventoryModel ClientModel
  RollupModel FormatModel NumText NumFacts PluginModel LoaderModel EncodeModel ReadModel ReadSpec ReadFacts ReadWrite OrderFacts SystemModel PipeModel PipeSpec PipeFacts
  UserModel CellModel CellFacts ShowModel ShowSpec.
Local Open Scope nat_scope.

Lemma cell_ind' (P : cell → Prop) :
  P CEmpty → (∀ l, (∀ c, c ∈ l → P c) → P (CStack l)) → (∀ l g, (∀ c, c ∈ l → P c) → P (CRow l g)) →
  (∀ s, P (CAligned s)) → (∀ s i, P (CAnchored s i)) → ∀ c, P c.
Proof.
  intros He Hs Hr Ha Hn. fix IH 1. intros [|l|l g|s|s i]; [done| | |apply Ha|apply Hn].
  - apply Hs, Forall_forall. induction l as [|c l IHl]; constructor; [apply IH|exact IHl].
  - apply Hr, Forall_forall. induction l as [|c l IHl]; constructor; [apply IH|exact IHl].
Qed.
Lemma cval_ind' (P : cval → Prop) :
  P VNil → (∀ b, P (VBool b)) → (∀ n, P (VNum n)) → (∀ s, P (VStr s)) → (∀ k, P (VKw k)) → (∀ d, P (VDate d)) → P VThrow →
  (∀ l, (∀ v, v ∈ l → P v) → P (VVec l)) → (∀ l, (∀ v, v ∈ l → P v) → P (VSet l)) →
  (∀ fs, (∀ kv, kv ∈ fs → P kv.2) → P (VMap fs)) → ∀ v, P v.
Proof.
  intros H1 H2 H3 H4 H5 H6 H7 Hv Hs Hm. fix IH 1. intros v.
  destruct v as [|b|n|s|k|d| |l|l|fs]; [exact H1|apply H2|apply H3|apply H4|apply H5|apply H6|exact H7| | |].
  - apply Hv, Forall_forall. induction l as [|c l IHl]; constructor; [apply IH|exact IHl].
  - apply Hs, Forall_forall. induction l as [|c l IHl]; constructor; [apply IH|exact IHl].
  - apply Hm, (Forall_forall (λ kv, P kv.2)). induction fs as [|[k c] l IHl]; constructor; [apply IH|exact IHl].
Qed.

(** * What the tabulator reads *)
Lemma anchored_all l : foldr (λ c P, anchored_well c ∧ P) True l ↔ Forall anchored_well l.
Proof. induction l as [|c l IH]; cbn; [done|]. by rewrite Forall_cons, IH. Qed.
Lemma mapM_cells l : (∀ c, c ∈ l → anchored_well c → get_cell (cell_json c) = Some c) → Forall anchored_well l →
  mapM get_cell (map cell_json l) = Some l.
Proof.
  induction l as [|c l IH]; intros H Hw; [done|]. apply Forall_cons in Hw as [Hc Hl]. cbn [map mapM].
  rewrite (H c) by (done || by left). cbn [mbind option_bind]. rewrite IH by (auto || (intros x Hx; apply H; by right)). done.
Qed.
Lemma get_cell_json c : anchored_well c → get_cell (cell_json c) = Some c.
Proof.
  induction c as [|l IH|l g IH|s|s i] using cell_ind'; intros Hw; [done| | |done|].
  - cbn [cell_json get_cell]. cbn [anchored_well] in Hw. rewrite anchored_all in Hw.
    change (String.eqb "stack" "empty") with false. change (String.eqb "stack" "stack") with true. cbn match. rewrite mapM_cells by done. done.
  - cbn [cell_json get_cell]. cbn [anchored_well] in Hw. rewrite anchored_all in Hw.
    change (String.eqb "row" "empty") with false. change (String.eqb "row" "stack") with false. change (String.eqb "row" "row") with true.
    cbn match. rewrite mapM_cells by done. done.
  - cbn in Hw |- *. destruct (Z.leb_spec 0 i); [done|lia].
Qed.

(** * How deep cells go *)
Definition sized (n : nat) (c : cell) : Prop := deep n (cell_json c).
Lemma sized_stack n l : Forall (sized n) l → sized (2 + n) (CStack l).
Proof.
  intros H. unfold sized. cbn [cell_json]. apply deep_obj. constructor; [|done]. cbn [snd]. apply deep_arr. by apply Forall_fmap.
Qed.
Lemma sized_row n l g : Forall (sized n) l → sized (3 + n) (CRow l g).
Proof.
  intros H. unfold sized. cbn [cell_json]. apply deep_obj. constructor; [|done]. cbn [snd]. apply deep_arr. constructor.
  - apply deep_arr. by apply Forall_fmap.
  - constructor; [|done]. by apply deep_leaf.
Qed.
Lemma sized_more n m c : sized n c → n ≤ m → sized m c.
Proof. apply deep_more. Qed.
Lemma sized_str n s : 2 ≤ n → sized n (str_cell s).
Proof. intros H. apply (sized_more 2); [|done]. unfold sized, deep. by vm_compute; lia. Qed.
Lemma sized_num n x : 2 ≤ n → sized n (num_cell x).
Proof. intros H. apply (sized_more 2); [|done]. unfold sized, deep, num_cell. cbn. lia. Qed.
Lemma sized_empty n : 2 ≤ n → sized n CEmpty.
Proof. intros H. unfold sized, deep. cbn. lia. Qed.
Lemma sized_opt {A} n (f : A → cell) o : 2 ≤ n → (∀ x, sized n (f x)) → sized n (opt_cell f o).
Proof. intros H Hf. destruct o; [apply Hf|by apply sized_empty]. Qed.
Lemma sized_vec n l : 2 ≤ n → Forall (sized n) l → sized (2 + n) (vec_cell l).
Proof.
  intros Hn H. destruct l as [|a [|b l]]; cbn [vec_cell].
  - apply sized_empty. lia.
  - apply Forall_cons in H as [H _]. apply (sized_more n); [done|lia].
  - by apply sized_stack.
Qed.
Lemma sized_map {A} n (f : A → cell) (m : gmap string A) : 2 ≤ n → (∀ x, sized n (f x)) → sized (5 + n) (map_cell f m).
Proof.
  intros Hn Hf. unfold map_cell. apply (sized_stack (3 + n)). apply Forall_forall. intros c (k & _ & Hk)%elem_of_list_omap.
  apply fmap_Some in Hk as (v & _ & ->). apply sized_row. constructor; [by apply sized_str|]. by constructor.
Qed.
Ltac sizes := repeat match goal with
  | |- Forall (sized _) [] => constructor
  | |- Forall (sized _) (_ :: _) => constructor
  | |- sized _ CEmpty => apply sized_empty; lia
  | |- sized _ (str_cell _) => apply sized_str; lia
  | |- sized _ (date_cell _) => apply sized_str; lia
  | |- sized _ (num_cell _) => apply sized_num; lia
  | |- sized _ (opt_cell _ _) => apply sized_opt; [lia|intros ?]
  end.
Lemma sized_position p : sized 8 (position_cell p).
Proof.
  unfold position_cell.
  assert (sized 5 (CRow [num_cell (pos_units p); str_cell (pos_cur p)] space_minor)) as Hu by (apply (sized_row 2); sizes).
  destruct (pos_cost p) as [c|]; apply (sized_row 5); (constructor; [done|]); [|constructor].
  constructor; [|constructor]. unfold cost_cell. apply (sized_row 2). sizes. destruct (cc_merge c) as [[]|]; sizes.
Qed.
Lemma sized_inventory inv : sized 15 (inventory_cell inv).
Proof. unfold inventory_cell. apply (sized_map 10); [lia|]. intros ps. apply (sized_vec 8); [lia|]. apply Forall_fmap, Forall_true. apply sized_position. Qed.
Lemma sized_journal j : sized 15 (journal_cell j).
Proof.
  unfold journal_cell. apply (sized_vec 13); [lia|]. apply Forall_fmap, Forall_true. intros [p bal]. cbn. apply (sized_row 10). sizes.
  apply (sized_vec 8); [lia|]. apply Forall_fmap, Forall_true. apply sized_position.
Qed.
Lemma sized_rollup r : sized 10 (rollup_cell r).
Proof.
  unfold rollup_cell. apply (sized_map 5); [lia|]. intros e. apply (sized_row 2). apply Forall_fmap, Forall_true. intros o. cbn. sizes.
Qed.
Lemma try_sort_perm {A} (l : list (cval * A)) : try_sort l ≡ₚ l.
Proof. unfold try_sort. destruct (_ || _); [|done]. apply sort_by_perm. Qed.
Lemma levels_elem l v : v ∈ l → levels v ≤ max_list (map levels l).
Proof. intros H. apply max_list_elem_of_le, elem_of_list_fmap. by exists v. Qed.
Lemma sized_value v : sized (5 * levels v + 2) (value_cell v).
Proof.
  induction v as [|b|n|s|k|d| |l IH|l IH|fs IH] using cval_ind'; try (cbn [value_cell]; sizes; fail).
  - cbn [value_cell levels]. set (m := max_list _). apply (sized_more (2 + (5 * m + 2))); [|lia]. apply sized_vec; [lia|].
    apply Forall_fmap, Forall_forall. intros v Hv. cbn. eapply sized_more; [by apply IH|]. pose proof (levels_elem l v Hv). lia.
  - cbn [value_cell levels]. set (m := max_list _). apply (sized_more (2 + (5 * m + 2))); [|lia]. apply sized_vec; [lia|].
    apply Forall_fmap. rewrite try_sort_perm. apply Forall_fmap, Forall_forall. intros v Hv. cbn. eapply sized_more; [by apply IH|].
    pose proof (levels_elem l v Hv). lia.
  - cbn [value_cell levels]. set (m := max_list _). apply (sized_more (2 + (3 + (5 * m + 2)))); [|lia]. apply sized_stack.
    apply Forall_fmap. rewrite sort_by_perm. apply Forall_fmap, Forall_forall. intros [k v] Hv. cbn. apply sized_row. constructor; [sizes|].
    constructor; [|constructor]. eapply sized_more; [by apply (IH (k, v))|]. cbn.
    assert (levels v ≤ m); [|lia]. apply max_list_elem_of_le, elem_of_list_fmap. by exists (k, v).
Qed.

(** * Anchors *)
Lemma anchor_first s c s' : s = String c s' → c ≠ "."%char → c ≠ "/"%char → (0 ≤ text_anchor s)%Z.
Proof.
  intros -> H1 H2. unfold text_anchor. cbn [index_of]. apply Ascii.eqb_neq in H1, H2. rewrite H1, H2.
  destruct (index_of "." s'); cbn [fmap option_fmap option_map]; [lia|]. destruct (index_of "/" s'); cbn [fmap option_fmap option_map String.length]; lia.
Qed.
Lemma pretty_first (x : N) s : ∃ c r, pretty x +:+ s = String c r ∧ c ≠ "."%char ∧ c ≠ "/"%char.
Proof.
  destruct (pretty_fixed x) as (n & -> & _). destruct (fixed_first n x) as (y & r & -> & Hy). rewrite str_app_cons.
  eexists _, _. split; [done|]. split; apply Ascii.eqb_neq; [by apply digit_not_point|by apply digit_not_slash].
Qed.
Lemma signed_first (b : bool) (t : string) :
  (∃ c r, t = String c r ∧ c ≠ "."%char ∧ c ≠ "/"%char) →
  ∃ c r, (if b then "-" else "") +:+ t = String c r ∧ c ≠ "."%char ∧ c ≠ "/"%char.
Proof. intros H. destruct b; [|done]. by exists "-"%char, t. Qed.
Lemma print_first d : ∃ c r, print_dec d = String c r ∧ c ≠ "."%char ∧ c ≠ "/"%char.
Proof. unfold print_dec. apply signed_first. apply pretty_first. Qed.
Lemma num_text_first n : ∃ c r, num_text n = String c r ∧ c ≠ "."%char ∧ c ≠ "/"%char.
Proof.
  destruct n as [z|z|d]; cbn [num_text]; [apply print_first..|]. unfold dec_text. destruct (_ && _); [|apply print_first].
  apply signed_first. unfold FormatModel.digits. destruct (pretty_first (Z.to_N (Z.abs (dec_mant d))) "") as (c & r & E & Hc). rewrite str_app_nil in E. rewrite E.
  destruct r as [|c' r]; rewrite str_app_cons; by eexists _, _.
Qed.
Lemma num_well n : anchored_well (num_cell n).
Proof. unfold num_cell. cbn [anchored_well]. destruct (num_text_first n) as (c & r & E & H1 & H2). by eapply anchor_first. Qed.
Lemma well_list l : Forall anchored_well l → anchored_well (CStack l).
Proof. intros H. cbn [anchored_well]. by apply anchored_all. Qed.
Lemma well_row l g : Forall anchored_well l → anchored_well (CRow l g).
Proof. intros H. cbn [anchored_well]. by apply anchored_all. Qed.
Lemma well_vec l : Forall anchored_well l → anchored_well (vec_cell l).
Proof.
  intros H. destruct l as [|a [|b l]]; cbn [vec_cell]; [done|by apply Forall_cons in H as [H _]|by apply well_list].
Qed.
Lemma well_opt {A} (f : A → cell) o : (∀ x, anchored_well (f x)) → anchored_well (opt_cell f o).
Proof. intros H. destruct o; [apply H|done]. Qed.
Lemma well_map {A} (f : A → cell) (m : gmap string A) : (∀ x, anchored_well (f x)) → anchored_well (map_cell f m).
Proof.
  intros H. unfold map_cell. apply well_list, Forall_forall. intros c (k & _ & Hk)%elem_of_list_omap.
  apply fmap_Some in Hk as (v & _ & ->). apply well_row. constructor; [done|]. by constructor.
Qed.
Ltac wells := repeat match goal with
  | |- Forall anchored_well [] => constructor
  | |- Forall anchored_well (_ :: _) => constructor
  | |- anchored_well CEmpty => done
  | |- anchored_well (str_cell _) => done
  | |- anchored_well (date_cell _) => done
  | |- anchored_well (num_cell _) => apply num_well
  | |- anchored_well (CRow _ _) => apply well_row
  | |- anchored_well (opt_cell _ _) => apply well_opt; intros ?
  end.
Lemma well_position p : anchored_well (position_cell p).
Proof.
  unfold position_cell. destruct (pos_cost p) as [c|]; wells. unfold cost_cell. wells. destruct (cc_merge c) as [[]|]; done.
Qed.
Lemma well_positions ps : anchored_well (vec_cell (position_cell <$> ps)).
Proof. apply well_vec, Forall_fmap, Forall_true. apply well_position. Qed.
Lemma well_inventory inv : anchored_well (inventory_cell inv).
Proof. apply well_map. apply well_positions. Qed.
Lemma well_journal j : anchored_well (journal_cell j).
Proof.
  apply well_vec, Forall_fmap, Forall_true. intros [p bal]. change (anchored_well (journal_entry_cell (p, bal))). unfold journal_entry_cell. wells. apply well_positions.
Qed.
Lemma well_rollup r : anchored_well (rollup_cell r).
Proof. apply well_map. intros e. apply well_row, Forall_fmap, Forall_true. intros o. cbn [compose]. wells. Qed.
Lemma well_value v : anchored_well (value_cell v).
Proof.
  induction v as [|b|n|s|k|d| |l IH|l IH|fs IH] using cval_ind'; try (cbn [value_cell]; wells; fail).
  - cbn [value_cell]. apply well_vec, Forall_fmap, Forall_forall. exact IH.
  - cbn [value_cell]. apply well_vec, Forall_fmap. rewrite try_sort_perm. apply Forall_fmap, Forall_forall. exact IH.
  - cbn [value_cell]. apply well_list, Forall_fmap. rewrite sort_by_perm. apply Forall_fmap, Forall_forall. intros [k v] Hv. cbn.
    repeat split. by apply (IH (k, v)).
Qed.

(** * Texts *)
Lemma texts_vec l : cell_texts (vec_cell l) = concat (map cell_texts l).
Proof. destruct l as [|a [|b l]]; cbn [vec_cell]; [done| |done]. cbn. by rewrite app_nil_r. Qed.
Lemma concat_perm {A} (l1 l2 : list (list A)) : l1 ≡ₚ l2 → concat l1 ≡ₚ concat l2.
Proof. induction 1; cbn; [done|by apply Permutation_app_head| |by etransitivity]. rewrite !(assoc_L (++)). apply Permutation_app_tail, Permutation_app_comm. Qed.
Lemma concat_perms {A B} (f g : A → list B) (l : list A) : (∀ x, x ∈ l → f x ≡ₚ g x) → concat (map f l) ≡ₚ concat (map g l).
Proof.
  induction l as [|x l IH]; intros H; [done|]. cbn. rewrite (H x) by left. apply Permutation_app_head, IH. intros y Hy. apply H. by right.
Qed.
Lemma texts_value v : cell_texts (value_cell v) ≡ₚ value_texts v.
Proof.
  induction v as [|b|n|s|k|d| |l IH|l IH|fs IH] using cval_ind'; try done.
  - cbn [value_cell value_texts]. rewrite texts_vec, map_map. by apply concat_perms.
  - cbn [value_cell value_texts]. rewrite texts_vec.
    rewrite (concat_perm (map cell_texts (try_sort (map (λ x, (x, value_cell x)) l)).*2) (map cell_texts (map (λ x, (x, value_cell x)) l).*2)).
    2:{ apply Permutation_map. apply (Permutation_map snd). apply try_sort_perm. }
    change ((map (λ x, (x, value_cell x)) l).*2) with (map snd (map (λ x, (x, value_cell x)) l)). rewrite !map_map. cbn [snd]. by apply concat_perms.
  - cbn [value_cell value_texts cell_texts].
    set (f := λ kc : string * cell, CRow [str_cell (":" +:+ kc.1); kc.2] space_medium).
    rewrite (concat_perm _ (map cell_texts (f <$> map (λ kv, (kv.1, value_cell kv.2)) fs))).
    2:{ apply Permutation_map. apply (Permutation_map f). apply sort_by_perm. }
    change (f <$> ?l) with (map f l). rewrite !map_map. apply concat_perms. intros [k v] Hv. unfold f. cbn. rewrite app_nil_r. constructor. by apply (IH (k, v)).
Qed.
