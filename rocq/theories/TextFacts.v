(** The text of a JSON tree is a single line, and input is split into lines. *)
From Coq Require Import Ascii.
From stdpp Require Import prelude gmap strings pretty.
From Verif Require Import DecModel LedgerTypes JsonModel JsonText ServerModel WireSpec ServerSpec.

Lemma occurs_app c a b : occurs c (a +:+ b) ↔ occurs c a ∨ occurs c b.
Proof.
  induction a as [|x a IH]; [cbn; tauto|]. change (String x a +:+ b) with (String x (a +:+ b)).
  cbn [occurs]. rewrite IH. tauto.
Qed.

Lemma no_newline_pretty (n : N) : ¬ occurs newline (pretty n).
Proof.
  assert (∀ (n : N) s, occurs newline (pretty_N_go n s) → occurs newline s) as Hgo.
  { intros x. induction (N.lt_wf_0 x) as [x _ IH]. intros s.
    destruct (decide (x = 0%N)) as [->|Hx]; [by rewrite pretty_N_go_0|].
    rewrite pretty_N_go_step by lia. intros H%IH; [|apply N.div_lt; lia]. destruct H as [H|H]; [|done].
    exfalso. unfold pretty_N_char in H. by repeat case_match. }
  unfold pretty, pretty_N. intros H. case_decide; [by destruct H as [H|[]]|]. by apply Hgo in H.
Qed.

Lemma no_newline_fixed n m : ¬ occurs newline (fixed_digits n m).
Proof.
  revert m. induction n as [|n IH]; intros m; [by intros []|]. cbn [fixed_digits]. rewrite occurs_app.
  intros [H|[H|[]]]; [by apply IH in H|]. apply (f_equal N_of_ascii) in H.
  assert (m mod 10 < 10)%N as Hm by (apply N.mod_lt; lia). revert H Hm. generalize (m mod 10)%N. intros k H Hk.
  rewrite N_ascii_embedding in H by lia. assert (N_of_ascii newline = 10%N) as E by done. rewrite E in H. lia.
Qed.

Lemma no_newline_escape s : ¬ occurs newline (escape s).
Proof.
  induction s as [|c s IH]; [by intros []|]. cbn [escape]. rewrite occurs_app. intros [H|H]; [|done]. clear IH.
  destruct c as [[] [] [] [] [] [] [] []]; vm_compute in H; intuition discriminate.
Qed.

Lemma no_newline_quote s : ¬ occurs newline (quote s).
Proof.
  unfold quote. change (String """" (escape s +:+ """")) with ("""" +:+ (escape s +:+ """")).
  rewrite !occurs_app. intros [[H|[]]|[H|[H|[]]]]; [done| |done]. by apply no_newline_escape in H.
Qed.

Lemma no_newline_dec d : ¬ occurs newline (print_dec d).
Proof.
  unfold print_dec. rewrite !occurs_app. intros [H|[H|H]].
  - destruct (dec_mant d <? 0)%Z; [|by destruct H]. by destruct H as [H|[]].
  - by apply no_newline_pretty in H.
  - destruct (dec_scale d) as [|n]; [by destruct H|]. rewrite occurs_app in H. destruct H as [[H|[]]|H]; [done|].
    by apply no_newline_fixed in H.
Qed.

Lemma no_newline_commas l : (∀ x, x ∈ l → ¬ occurs newline x) → ¬ occurs newline (commas l).
Proof.
  unfold commas. induction l as [|x [|y l] IH]; intros Hl; [by intros []|apply Hl; left|].
  change (String.concat "," (x :: y :: l)) with (x +:+ "," +:+ String.concat "," (y :: l)).
  rewrite !occurs_app. intros [H|[[H|[]]|H]]; [|done|].
  - revert H. apply Hl. left.
  - revert H. apply IH. intros z Hz. apply Hl. by right.
Qed.

Fixpoint json_size (j : json) : nat :=
  match j with
  | JArr l => S (sum_list (map json_size l))
  | JObj fs => S (sum_list (map (λ kv, json_size kv.2) fs))
  | _ => 1
  end.
Lemma size_elem_arr l j : j ∈ l → json_size j < json_size (JArr l).
Proof.
  cbn. induction l as [|x l IH]; [by intros ?%elem_of_nil|]. intros [->|H]%elem_of_cons; cbn; [lia|].
  specialize (IH H). cbn in IH. lia.
Qed.
Lemma size_elem_obj fs kv : kv ∈ fs → json_size kv.2 < json_size (JObj fs).
Proof.
  cbn. induction fs as [|x l IH]; [by intros ?%elem_of_nil|]. intros [->|H]%elem_of_cons; cbn; [lia|].
  specialize (IH H). cbn in IH. lia.
Qed.

(** Induction on trees. *)
Lemma json_ind' (P : json → Prop) :
  P JNull → (∀ b, P (JBool b)) → (∀ d, P (JNum d)) → (∀ s, P (JStr s)) →
  (∀ l, (∀ j, j ∈ l → P j) → P (JArr l)) →
  (∀ fs, (∀ kv, kv ∈ fs → P kv.2) → P (JObj fs)) → ∀ j, P j.
Proof.
  intros H1 H2 H3 H4 H5 H6 j. remember (json_size j) as n eqn:E. revert j E.
  induction (lt_wf n) as [n _ IH]. intros j ->. destruct j; try done.
  - apply H5. intros j Hj. eapply IH; [by apply size_elem_arr|done].
  - apply H6. intros j Hj. eapply IH; [by apply size_elem_obj|done].
Qed.

Lemma no_newline_json j : ¬ occurs newline (print_json j).
Proof.
  induction j as [|b|d|s|l IH|fs IH] using json_ind'; cbn [print_json].
  - cbn. intuition discriminate.
  - destruct b; cbn; intuition discriminate.
  - apply no_newline_dec.
  - apply no_newline_quote.
  - rewrite !occurs_app. intros [[H|[]]|[H|[H|[]]]]; [done| |done]. revert H. apply no_newline_commas.
    intros x Hx. apply elem_of_list_In, in_map_iff in Hx as (j & <- & Hj). apply IH. by apply elem_of_list_In.
  - rewrite !occurs_app. intros [[H|[]]|[H|[H|[]]]]; [done| |done]. revert H. apply no_newline_commas.
    intros x Hx. apply elem_of_list_In, in_map_iff in Hx as (kv & <- & Hj). rewrite !occurs_app.
    intros [H|[[H|[]]|H]]; [by apply no_newline_quote in H|done|].
    revert H. apply IH. by apply elem_of_list_In.
Qed.

(** ** Lines *)

Lemma split_exists input : ∃ lines rest, splits_into input lines rest.
Proof.
  induction input as [|c s (lines & rest & -> & Hl & Hr)].
  - exists [], "". split; [done|]. split; [by intros ? ?%elem_of_nil|by intros []].
  - destruct (decide (c = newline)) as [->|Hc].
    + exists ("" :: lines), rest. split; [done|]. split; [|done].
      intros l [->|H]%elem_of_cons; [by intros []|by apply Hl].
    + destruct lines as [|l lines].
      * exists [], (String c rest). split; [done|]. split; [done|]. intros [H|H]; [by subst|done].
      * exists (String c l :: lines), rest. split; [done|]. split; [|done].
        intros l' [->|H]%elem_of_cons; [|apply Hl; by right]. intros [H|H]; [by subst|]. revert H. apply Hl. left.
Qed.

Lemma string_app_assoc (a b c : string) : (a +:+ b) +:+ c = a +:+ (b +:+ c).
Proof. induction a as [|x a IH]; [done|]. change (String x ((a +:+ b) +:+ c) = String x (a +:+ (b +:+ c))). by rewrite IH. Qed.

Lemma read_lines_nil s : read_lines s = [] → s = "".
Proof. destruct s as [|c s]; [done|]. cbn. destruct (_ =? _)%char; [done|]. by destruct (read_lines s). Qed.

Lemma read_lines_line l s : ¬ occurs newline l → read_lines (l +:+ line_end +:+ s) = (l +:+ line_end) :: read_lines s.
Proof.
  induction l as [|c l IH]; intros Hl; [done|].
  change (read_lines (String c (l +:+ line_end +:+ s)) = String c (l +:+ line_end) :: read_lines s).
  cbn [read_lines]. destruct (c =? newline)%char eqn:E; [apply Ascii.eqb_eq in E as ->; exfalso; apply Hl; by left|].
  rewrite IH; [done|]. intros H. apply Hl. by right.
Qed.
Lemma read_lines_rest r : ¬ occurs newline r → read_lines r = if String.eqb r "" then [] else [r].
Proof.
  induction r as [|c r IH]; intros Hr; [done|]. cbn [read_lines].
  destruct (c =? newline)%char eqn:E; [apply Ascii.eqb_eq in E as ->; exfalso; apply Hr; by left|].
  rewrite IH by (intros H; apply Hr; by right). by destruct r.
Qed.
Lemma read_lines_split input lines rest : splits_into input lines rest →
  read_lines input = ((λ l, l +:+ line_end) <$> lines) ++ if String.eqb rest "" then [] else [rest].
Proof.
  intros (-> & Hl & Hr). induction lines as [|l lines IH]; [by apply read_lines_rest|].
  cbn [fmap list_fmap foldr join app]. fold (join ((λ l, l +:+ line_end) <$> lines)).
  rewrite !string_app_assoc, read_lines_line by (apply Hl; left). f_equal. apply IH. intros l' H. apply Hl. by right.
Qed.

Lemma terminated_line l : terminated (l +:+ line_end) = true.
Proof.
  induction l as [|c l IH]; [done|]. change (((c =? newline)%char || terminated (l +:+ line_end)) = true).
  rewrite IH. apply orb_true_r.
Qed.
Lemma terminated_rest r : ¬ occurs newline r → terminated r = false.
Proof.
  induction r as [|c r IH]; intros Hr; [done|]. cbn [terminated].
  destruct (c =? newline)%char eqn:E; [apply Ascii.eqb_eq in E as ->; exfalso; apply Hr; by left|].
  apply IH. intros H. apply Hr. by right.
Qed.

Lemma lines_taken_read input lines rest (fails : bool) : splits_into input lines rest →
  (if fails then filter (λ l, terminated l = true) (read_lines input) else read_lines input) =
  lines_taken lines rest fails.
Proof.
  intros Hs. rewrite (read_lines_split _ _ _ Hs). unfold lines_taken. destruct fails; [|done].
  cbn [orb]. destruct Hs as (_ & _ & Hr). rewrite filter_app. f_equal.
  - induction lines as [|l lines IH]; [done|]. cbn [fmap list_fmap].
    rewrite filter_cons_True by apply terminated_line. by rewrite IH.
  - destruct (String.eqb rest "") eqn:E; [done|]. rewrite filter_cons_False; [done|].
    by rewrite (terminated_rest _ Hr).
Qed.
