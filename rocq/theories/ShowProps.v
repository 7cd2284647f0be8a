(** Theorems about what [show] prints. *)
From Coq Require Import Ascii QArith Sorted.
From stdpp Require Import prelude gmap strings pretty sorting.
From Verif Require Import DecModel LedgerTypes IsoModel JsonModel JsonText WireModel BookModel SpanModel ParserModel ServerModel TextFacts CljModel InventoryModel ClientModel
  RollupModel FormatModel NumText NumFacts PluginModel LoaderModel EncodeModel ReadModel ReadSpec ReadFacts ReadWrite ReadProps OrderFacts SystemModel
  PipeModel PipeSpec PipeFacts UserModel CellModel CellFacts ShowModel ShowSpec ShowFacts.
Local Open Scope nat_scope.

(** * C90: [show] prints what it is given, or throws *)

Section Show.
(** The program is started, and its input is read as text. *)
Context (utf8 : string → bool) (depth : nat) (layout : cell → string) (complaint : string → string).
Context (Hutf8 : ∀ c, utf8 (generate_string (cell_json c)) = true).
Notation show := (show utf8 depth layout complaint).
Definition printed (c : cell) : Prop := show None c = (layout c +:+ ServerModel.line_end, Returned).

Lemma show_cell c : anchored_well c → nesting (cell_json c) ≤ depth → printed c.
Proof using Hutf8.
  intros Hw Hn. unfold printed, ShowModel.show, render, try_sh, tabulate. rewrite Hutf8, C84_client_text by done. cbn [mbind option_bind].
  by rewrite get_cell_json.
Qed.
(** Inventories, journals and roll-ups are always printed, however many positions,
    postings and accounts there are; other values are if they are not nested too
    deeply: serde allows for 127 levels of JSON. *)
Theorem C90_inventory inv : 15 ≤ depth → printed (inventory_cell inv).
Proof using Hutf8. intros H. apply show_cell; [apply well_inventory|]. etransitivity; [apply sized_inventory|done]. Qed.
Theorem C90_journal j : 15 ≤ depth → printed (journal_cell j).
Proof using Hutf8. intros H. apply show_cell; [apply well_journal|]. etransitivity; [apply sized_journal|done]. Qed.
Theorem C90_rollup r : 10 ≤ depth → printed (rollup_cell r).
Proof using Hutf8. intros H. apply show_cell; [apply well_rollup|]. etransitivity; [apply sized_rollup|done]. Qed.
Theorem C90_value_partial v : 5 * levels v + 2 ≤ depth → printed (value_cell v).
Proof using Hutf8. intros H. apply show_cell; [apply well_value|]. etransitivity; [apply sized_value|done]. Qed.

(** Whatever the cell, and whether or not the program is found: it is printed as a
    whole, or nothing is printed and an exception says why. *)
Lemma get_cell_none c : get_cell (cell_json c) = Some c ∨ get_cell (cell_json c) = None.
Proof using.
  clear. revert c. assert (∀ l, (∀ c, c ∈ l → get_cell (cell_json c) = Some c ∨ get_cell (cell_json c) = None) →
    mapM get_cell (map cell_json l) = Some l ∨ mapM get_cell (map cell_json l) = None) as Hl.
  { induction l as [|c l IH]; intros H; [by left|]. cbn [map mapM]. destruct (H c) as [->| ->]; [by left| |by right]. cbn [mbind option_bind].
    destruct IH as [->| ->]; [|by left|by right]. intros x Hx. apply H. by right. }
  intros c. induction c as [|l IH|l g IH|s|s i] using cell_ind'; [by left| | |by left|].
  - cbn [cell_json get_cell]. change (String.eqb "stack" "empty") with false. change (String.eqb "stack" "stack") with true. cbn match.
    destruct (Hl l IH) as [->| ->]; [by left|by right].
  - cbn [cell_json get_cell]. change (String.eqb "row" "empty") with false. change (String.eqb "row" "stack") with false.
    change (String.eqb "row" "row") with true. cbn match. destruct (Hl l IH) as [->| ->]; [by left|by right].
  - cbn. destruct (_ <=? _)%Z; [by left|by right].
Qed.
Theorem C90_all_or_nothing found c :
  found = None ∧ printed c ∨
  ∃ e why, show found c = ("", Threw e) ∧ ex_user_error e = Some why ∧ why ≠ "".
Proof using Hutf8.
  unfold printed, ShowModel.show, render, try_sh. destruct found as [why|].
  { right. eexists _, _. split_and!; [done|done|]. by destruct why. }
  unfold tabulate. rewrite Hutf8. destruct (parse_json depth (generate_string (cell_json c))) as [j|] eqn:E; cbn [mbind option_bind].
  2:{ right. by eexists _, _. }
  assert (j = cell_json c) as ->.
  { apply C84_reads in E. eapply (C84_one_meaning depth (nesting (cell_json c))); [done|]. apply C84_reads. by apply C84_client_text. }
  destruct (get_cell_none c) as [->| ->]; [by left|]. right. by eexists _, _.
Qed.
End Show.
Print Assumptions C90_inventory.
Print Assumptions C90_journal.
Print Assumptions C90_rollup.
Print Assumptions C90_value_partial.
Print Assumptions C90_all_or_nothing.

(** Nothing in a value is left out, and nothing is added; *)
Theorem C90_everything v : cell_texts (value_cell v) ≡ₚ value_texts v.
Proof. apply texts_value. Qed.
Print Assumptions C90_everything.
(** a map has a row for each key, in the order of the keys; *)
Theorem C90_map fs :
  ∃ l, l ≡ₚ fs ∧ StronglySorted (λ x y, str_compare x.1 y.1 ≠ Gt) l ∧
    value_cell (VMap fs) = CStack ((λ kv, CRow [CAligned (":" +:+ kv.1); value_cell kv.2] "  ") <$> l).
Proof.
  exists (sort_by (λ x y, str_compare x.1 y.1) fs). split_and!.
  - apply sort_by_perm.
  - apply sort_by_sorted. apply (good_map fst), good_str.
  - cbn [value_cell]. f_equal.
    assert (sort_by (λ x y : string * cell, str_compare x.1 y.1) (map (λ kv, (kv.1, value_cell kv.2)) fs) =
            (λ kv, (kv.1, value_cell kv.2)) <$> sort_by (λ x y : string * cval, str_compare x.1 y.1) fs) as ->.
    { assert (∀ (x : string * cval) l, insert_by (λ x y : string * cell, str_compare x.1 y.1) (x.1, value_cell x.2) ((λ kv, (kv.1, value_cell kv.2)) <$> l) =
        (λ kv, (kv.1, value_cell kv.2)) <$> insert_by (λ x y : string * cval, str_compare x.1 y.1) x l) as Hi.
      { intros x l. induction l as [|y l IH]; [done|]. cbn. destruct (is_le _); [done|]. cbn. by f_equal. }
      induction fs as [|x fs IH]; [done|]. cbn [map sort_by foldr]. rewrite <- Hi, <- IH. done. }
    by rewrite <- list_fmap_compose.
Qed.
Print Assumptions C90_map.
(** a vector has what its elements have, in their order, whether it has none, one or
    more of them; a set of strings is shown like the vector of its elements in
    alphabetical order. *)
Theorem C90_vector l : cell_texts (value_cell (VVec l)) = concat ((λ v, cell_texts (value_cell v)) <$> l).
Proof. cbn [value_cell]. by rewrite texts_vec, map_map. Qed.
Print Assumptions C90_vector.
Theorem C90_set ss :
  ∃ l, l ≡ₚ ss ∧ StronglySorted (λ x y, str_compare x y ≠ Gt) l ∧ value_cell (VSet (VStr <$> ss)) = value_cell (VVec (VStr <$> l)).
Proof.
  exists (sort_by str_compare ss). split_and!.
  - apply sort_by_perm.
  - apply sort_by_sorted, good_str.
  - cbn [value_cell]. f_equal. unfold try_sort.
    assert (forallb (λ x : cval * cell, named false x.1) (map (λ x, (x, value_cell x)) (VStr <$> ss)) = true) as ->.
    { apply forallb_forall. intros x Hx. apply in_map_iff in Hx as (v & <- & Hv). by apply in_map_iff in Hv as (s & <- & _). }
    cbn [orb].
    assert (∀ l, sort_by (λ x y : cval * cell, str_compare (name_of x.1) (name_of y.1)) (map (λ x, (x, value_cell x)) (VStr <$> l)) =
      map (λ x, (x, value_cell x)) (VStr <$> sort_by str_compare l)) as ->.
    { assert (∀ s l, insert_by (λ x y : cval * cell, str_compare (name_of x.1) (name_of y.1)) (VStr s, value_cell (VStr s)) (map (λ x, (x, value_cell x)) (VStr <$> l)) =
        map (λ x, (x, value_cell x)) (VStr <$> insert_by str_compare s l)) as Hi.
      { intros s l. induction l as [|y l IH]; [done|]. cbn. destruct (is_le _); [done|]. cbn. by f_equal. }
      induction l as [|x l IH]; [done|]. cbn [map sort_by foldr fmap list_fmap]. rewrite <- Hi. f_equal. exact IH. }
    change (?l.*2) with (map snd l). by rewrite map_map.
Qed.
Print Assumptions C90_set.
(** So is a set of keywords. *)
Theorem C90_keywords ss :
  ∃ l, l ≡ₚ ss ∧ StronglySorted (λ x y, str_compare x y ≠ Gt) l ∧ value_cell (VSet (VKw <$> ss)) = value_cell (VVec (VKw <$> l)).
Proof.
  exists (sort_by str_compare ss). split_and!.
  - apply sort_by_perm.
  - apply sort_by_sorted, good_str.
  - cbn [value_cell]. f_equal. unfold try_sort.
    assert (forallb (λ x : cval * cell, named true x.1) (map (λ x, (x, value_cell x)) (VKw <$> ss)) = true) as ->.
    { apply forallb_forall. intros x Hx. apply in_map_iff in Hx as (v & <- & Hv). by apply in_map_iff in Hv as (s & <- & _). }
    rewrite orb_true_r.
    assert (∀ l, sort_by (λ x y : cval * cell, str_compare (name_of x.1) (name_of y.1)) (map (λ x, (x, value_cell x)) (VKw <$> l)) =
      map (λ x, (x, value_cell x)) (VKw <$> sort_by str_compare l)) as ->.
    { assert (∀ s l, insert_by (λ x y : cval * cell, str_compare (name_of x.1) (name_of y.1)) (VKw s, value_cell (VKw s)) (map (λ x, (x, value_cell x)) (VKw <$> l)) =
        map (λ x, (x, value_cell x)) (VKw <$> insert_by str_compare s l)) as Hi.
      { intros s l. induction l as [|y l IH]; [done|]. cbn. destruct (is_le _); [done|]. cbn. by f_equal. }
      induction l as [|x l IH]; [done|]. cbn [map sort_by foldr fmap list_fmap]. rewrite <- Hi. f_equal. exact IH. }
    change (?l.*2) with (map snd l). by rewrite map_map.
Qed.
Print Assumptions C90_keywords.
(** A set with both a string and a keyword is shown in the order it has: they can not be
    compared. *)
Theorem C90_mixed l s k : VStr s ∈ l → VKw k ∈ l → value_cell (VSet l) = value_cell (VVec l).
Proof.
  intros Hs Hk. cbn [value_cell]. f_equal. unfold try_sort.
  assert (∀ b x, x ∈ l → named b x = false → forallb (λ x : cval * cell, named b x.1) (map (λ x, (x, value_cell x)) l) = false) as Hb.
  { intros b x Hx Hn. apply not_true_iff_false. rewrite forallb_forall. intros H. specialize (H (x, value_cell x)).
    cbn [fst] in H. rewrite H in Hn; [done|]. apply (in_map (λ x, (x, value_cell x))). by apply elem_of_list_In. }
  rewrite (Hb false _ Hk), (Hb true _ Hs) by done. cbn [orb].
  clear. induction l as [|x l IH]; [done|]. cbn. by f_equal.
Qed.
Print Assumptions C90_mixed.
Example C90_mixed_example :
  value_cell (VSet [VStr "y"; VKw "x"; VStr "a"]) = value_cell (VVec [VStr "y"; VKw "x"; VStr "a"]) ∧
  value_cell (VSet [VKw "y"; VKw "x"]) = value_cell (VVec [VKw "x"; VKw "y"]).
Proof. by vm_compute. Qed.

Definition ascii_text (s : string) : bool := true.
Definition flat (c : cell) : string := String.concat "|" (cell_texts c).
Example C90_example :
  let v := VMap [("b", VSet [VStr "y"; VStr "x"]); ("a", VVec [VNum (CDec (Dec 150 2)); VNil; VKw "k"])] in
  levels v = 2 ∧ value_texts v = [":b"; "y"; "x"; ":a"; "1.50"; ":k"] ∧
  show ascii_text 127 flat id None (value_cell v) = (":a|1.50|:k|:b|x|y" +:+ ServerModel.line_end, Returned) ∧
  show ascii_text 4 flat (λ _, "recursion limit exceeded") None (value_cell (VVec [VVec [VNil; VNil]; VNil])) =
    ("", Threw (Exn ["limabean-podfailed"]
      (Some ("limabean-pod JSON decode error: recursion limit exceeded" +:+ ServerModel.line_end +:+
             "{""stack"":[{""stack"":[{""empty"":null},{""empty"":null}]},{""empty"":null}]}" +:+ ServerModel.line_end)))).
Proof. by vm_compute. Qed.

(** The full statement does not hold: a value which is nested deeply is not printed, *)
Fixpoint in_maps (n : nat) : cval := match n with O => VNil | S n => VMap [("k", in_maps n)] end.
Theorem C90_refuted :
  ∃ v, levels v = 26 ∧ ∀ layout complaint, ∃ e, show ascii_text 127 layout complaint None (value_cell v) = ("", Threw e).
Proof. exists (in_maps 26). split; [by vm_compute|]. intros layout complaint. eexists. vm_compute. reflexivity. Qed.
Print Assumptions C90_refuted.
(** and what the REPL then says is the same whatever was wrong. *)
Theorem C90_reason_refuted utf8 depth layout complaint found c e :
  (show utf8 depth layout complaint found c).2 = Threw e →
  handle_exception e = "Exception: limabean-podfailed" +:+ FormatModel.line_end ∨
  handle_exception e = "Exception: limabean-podexception" +:+ FormatModel.line_end.
Proof.
  unfold show, render, try_sh. destruct found as [why|].
  { intros [= <-]. right. by vm_compute. }
  destruct (_ =? _)%Z; [done|]. intros [= <-]. left. by vm_compute.
Qed.
Print Assumptions C90_reason_refuted.
