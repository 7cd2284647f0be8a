(** Theorems about what [show] shows. *)
From Coq Require Import Ascii QArith Sorted.
From stdpp Require Import prelude gmap strings pretty sorting.
From Verif Require Import DecModel LedgerTypes IsoModel JsonModel JsonText WireModel WireSpec CljModel InventoryModel InventorySpec RollupModel FormatModel
  NumText NumFacts FormatProps CellModel CellSpec CellFacts.
Local Open Scope nat_scope.

(** * C74: numbers are lined up at the decimal point *)

(** The anchor of a number is the place before its point, or its last place if it has
    none: the text up to the anchor is the whole part of the number, the rest are the
    point and as many digits as the number has.  Missing: numbers which are written
    with an exponent. *)
Theorem C74_anchored_partial n :
  (∀ d, n = CDec d → dec_scale d ≤ 6 ∨ (10 ^ Z.of_nat (dec_scale d) ≤ Z.abs (dec_mant d) * 10 ^ 6)%Z) →
  ∃ text i whole rest,
    num_cell n = CAnchored text i ∧ read_number text = Some (cn_dec n) ∧
    text = whole +:+ rest ∧ (i + 1)%Z = Z.of_nat (String.length whole) ∧
    read_number whole = Some (Dec (dec_mant (cn_dec n) ÷ 10 ^ Z.of_nat (dec_scale (cn_dec n))) 0) ∧
    match dec_scale (cn_dec n) with
    | 0 => rest = ""
    | S _ => ∃ ds, rest = String "." ds ∧ String.length ds = dec_scale (cn_dec n)
    end.
Proof.
  intros H. assert (num_text n = print_dec (cn_dec n)) as Hp.
  { destruct n as [z|z|d]; [done|done|]. cbn [num_text cn_dec]. unfold dec_text. by rewrite (proj2 (small_exponent d) (H d eq_refl)). }
  destruct (anchor_print (cn_dec n)) as (whole & rest & H1 & H2 & H3 & H4).
  exists (num_text n), (text_anchor (num_text n)), whole, rest. rewrite Hp. split_and!; [by unfold num_cell; rewrite Hp|apply read_print|done|done| |done].
  by rewrite <- pow10_pow.
Qed.
Print Assumptions C74_anchored_partial.
Example C74_example :
  num_cell (CDec (Dec (-12345) 2)) = CAnchored "-123.45" 3 ∧ num_cell (CLong 70) = CAnchored "70" 1 ∧ num_cell (CDec (Dec (-5) 1)) = CAnchored "-0.5" 1.
Proof. by vm_compute. Qed.
(** A number with an exponent is lined up at the last digit of the exponent. *)
Theorem C74_refuted :
  ∃ d, dec_scale d = 7 ∧ dec_mant d = 3%Z ∧ num_cell (CDec d) = CAnchored "3E-7" 3.
Proof. exists (Dec 3 7). by vm_compute. Qed.
Print Assumptions C74_refuted.

(** * C75: tables show everything *)

(** Two inventories look the same only if they have the same accounts, with the same
    positions in the same order. *)
Theorem C75_inventory inv1 inv2 :
  (∀ acc ps, inv1 !! acc = Some ps → Forall position_dated ps) →
  (∀ acc ps, inv2 !! acc = Some ps → Forall position_dated ps) →
  inventory_cell inv1 = inventory_cell inv2 ↔ shown_positions <$> inv1 = shown_positions <$> inv2.
Proof.
  intros H1 H2. unfold inventory_cell. rewrite map_cell_inj.
  apply (fmap_map_inj _ _ (Forall position_dated)); [|done|done]. intros x y Hx Hy. by apply positions_cell_inj.
Qed.
Print Assumptions C75_inventory.
(** The same for journals, *)
Theorem C75_journal j1 j2 :
  Forall entry_dated j1 → Forall entry_dated j2 →
  journal_cell j1 = journal_cell j2 ↔ shown_entry <$> j1 = shown_entry <$> j2.
Proof.
  intros H1 H2. rewrite <- (fmap_inj_on journal_entry_cell shown_entry entry_dated); [|clear; intros [p b] [p' b'] [Hd Hb] [Hd' Hb'] |done|done].
  - unfold journal_cell. split; [|by intros ->]. apply vec_cell_inj; apply Forall_forall; intros c ([p b] & -> & _)%elem_of_list_fmap; done.
  - unfold shown_entry, journal_entry_cell. cbn [fst snd] in *. split.
    + intros E. assert (opt_cell date_cell (cp_date p) = opt_cell date_cell (cp_date p')) as E1 by congruence.
      apply (opt_cell_inj _ ok_date) in E1; [|done|apply date_cell_inj|done|done].
      assert (opt_cell str_cell (cp_payee p) = opt_cell str_cell (cp_payee p')) as E2%opt_str_inj by congruence.
      assert (opt_cell str_cell (cp_narration p) = opt_cell str_cell (cp_narration p')) as E3%opt_str_inj by congruence.
      assert (opt_cell str_cell (cp_flag p) = opt_cell str_cell (cp_flag p')) as E4%opt_str_inj by congruence.
      assert (num_cell (cp_units p) = num_cell (cp_units p')) as E5%num_cell_inj by congruence.
      assert (vec_cell (position_cell <$> b) = vec_cell (position_cell <$> b')) as E6 by congruence. apply positions_cell_inj in E6; [|done..].
      unfold str_cell in E. assert (cp_acc p = cp_acc p') as E7 by congruence. assert (cp_cur p = cp_cur p') as E8 by congruence.
      fold (shown_positions b) (shown_positions b') in E6. by rewrite E1, E2, E3, E4, E5, E6, E7, E8.
    + intros E. assert (cp_units_eq : cn_dec (cp_units p) = cn_dec (cp_units p')) by congruence. apply num_cell_inj in cp_units_eq.
      assert (shown_positions b = shown_positions b') as E6 by congruence. apply positions_cell_inj in E6; [|done..].
      rewrite cp_units_eq, E6. congruence.
Qed.
Print Assumptions C75_journal.
(** The text in a cell, if there is any. *)
Definition text_in (c : cell) : option string :=
  match c with CAligned s | CAnchored s _ => Some s | _ => None end.
(** The columns of a journal: date, account, payee, narration, flag, number and currency,
    and then what is held.  What a posting does not have is left empty. *)
Theorem C75_columns j : ∃ rows,
  journal_cell j = match rows with [] => CEmpty | [row] => row | _ => CStack rows end ∧
  Forall2 (λ e row, ∃ cells held, row = CRow (cells ++ [held]) "  " ∧
    text_in <$> cells = [fmt_date <$> cp_date e.1; Some (cp_acc e.1); cp_payee e.1; cp_narration e.1; cp_flag e.1;
      Some (num_text (cp_units e.1)); Some (cp_cur e.1)] ∧
    (held = CEmpty ↔ e.2 = [])) j rows.
Proof.
  exists (journal_entry_cell <$> j). split; [done|]. apply Forall2_fmap_r, Forall_Forall2_diag, Forall_forall. intros [p bal] _.
  cbn [journal_entry_cell fst snd].
  exists [opt_cell date_cell (cp_date p); str_cell (cp_acc p); opt_cell str_cell (cp_payee p); opt_cell str_cell (cp_narration p);
    opt_cell str_cell (cp_flag p); num_cell (cp_units p); str_cell (cp_cur p)], (vec_cell (position_cell <$> bal)).
  split; [done|]. split.
  - cbn [fmap list_fmap]. by destruct (cp_date p), (cp_payee p), (cp_narration p), (cp_flag p).
  - destruct bal as [|q [|q' bal]]; [done| |done]. split; [|done]. cbn. unfold position_cell. by destruct (pos_cost q).
Qed.
Print Assumptions C75_columns.
(** The columns of a position: number and currency, and of what it cost the date, currency,
    number, label and a star if lots were merged. *)
Theorem C75_position p : ∃ units,
  text_in <$> units = [Some (num_text (pos_units p)); Some (pos_cur p)] ∧
  match pos_cost p with
  | None => position_cell p = CRow [CRow units " "] "  "
  | Some c => ∃ cost, position_cell p = CRow [CRow units " "; CRow cost " "] "  " ∧
      text_in <$> cost = [Some (fmt_date (cc_date c)); Some (cc_cur c); Some (num_text (cc_per_unit c)); cc_label c;
        if decide (cc_merge c = Some true) then Some "*" else None]
  end.
Proof.
  exists [num_cell (pos_units p); str_cell (pos_cur p)]. split; [done|]. unfold position_cell. destruct (pos_cost p) as [c|]; [|done].
  eexists. split; [done|]. cbn [fmap list_fmap text_in date_cell str_cell num_cell].
  destruct (cc_label c), (cc_merge c) as [[|]|]; done.
Qed.
Print Assumptions C75_position.
(** and for roll-ups: what is in which column (see C67). *)
Theorem C75_rollup r1 r2 :
  rollup_cell r1 = rollup_cell r2 ↔ entry_cells <$> r1 = entry_cells <$> r2.
Proof.
  unfold rollup_cell. rewrite map_cell_inj. apply (fmap_map_inj _ _ (λ _, True)); [|done|done]. intros x y _ _. unfold rollup_entry_cell.
  split; [|by intros ->]. intros [= E]. revert E. generalize (entry_cells x) (entry_cells y).
  induction l as [|a l IH]; intros [|b l']; cbn; try done. intros [= E1 E2]. rewrite (IH l') by done. f_equal.
  destruct a as [a|], b as [b|]; try done. f_equal. by apply (num_cell_inj (CDec a) (CDec b)).
Qed.
Print Assumptions C75_rollup.
(** There is one row for each account, in the order of their names. *)
Theorem C75_order inv :
  ∃ accs rows, inventory_cell inv = CStack rows ∧ StronglySorted before accs ∧ (∀ a, a ∈ accs ↔ is_Some (inv !! a)) ∧
    Forall2 (λ a row, ∃ c g, row = CRow [CAligned a; c] g) accs rows.
Proof.
  exists (rows inv).*1. eexists. split; [apply map_cell_rows|]. split; [apply rows_sorted|]. split.
  - intros a. rewrite rows_perm. rewrite elem_of_list_fmap. split.
    + intros ([k v] & -> & H). apply elem_of_map_to_list in H. by exists v.
    + intros [v Hv]. exists (a, v). split; [done|]. by apply elem_of_map_to_list.
  - rewrite Forall2_fmap. apply Forall_Forall2_diag, Forall_forall. intros [k v] _. unfold str_cell. cbn [fst snd]. eauto.
Qed.
Print Assumptions C75_order.

Definition a_position (m : Z) : position := Position (CDec (Dec m 2)) "CHF" (Some (CCost (Date 2024 3 1) "EUR" (CDec (Dec 95 2)) (CDec (Dec 9500 2)) (Some "lot") None)).
Example C75_example :
  position_dated (a_position 10000) ∧
  inventory_cell {[ "Assets:A" := [a_position 10000]; "Assets:B" := [a_position 5; Position (CLong 3) "EUR" None] ]} =
    CStack [CRow [CAligned "Assets:A"; position_cell (a_position 10000)] "  ";
            CRow [CAligned "Assets:B"; CStack [position_cell (a_position 5); CRow [CRow [CAnchored "3" 0; CAligned "EUR"] " "] "  "]] "  "] ∧
  position_cell (a_position 10000) =
    CRow [CRow [CAnchored "100.00" 2; CAligned "CHF"] " "; CRow [CAligned "2024-03-01"; CAligned "EUR"; CAnchored "0.95" 0; CAligned "lot"; CEmpty] " "] "  ".
Proof. split; [done|]. split; by vm_compute. Qed.
Example C75_journal_example :
  let e := (CPosting (Some (Date 2024 3 1)) None (Some "x") (Some "*") "Assets:A" (CLong 3) "EUR" None, [Position (CLong 3) "EUR" None]) in
  entry_dated e ∧ ∃ c, journal_cell [e; e] = CStack [c; c] ∧ journal_cell [e] = c.
Proof. split; [split; [done|by repeat constructor]|]. eexists. split; by vm_compute. Qed.
