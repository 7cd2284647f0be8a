(** Theorems about JSON text. *)
From Coq Require Import Ascii QArith.
From stdpp Require Import prelude gmap strings pretty.
From Verif Require Import DecModel LedgerTypes JsonModel JsonText ServerModel ServerSpec TextFacts CljModel InventoryModel ClientModel FormatModel
  ReadModel ReadSpec ReadFacts ReadWrite.
Local Open Scope nat_scope.

Lemma text_nesting n t j : value_text n t j → nesting j ≤ n.
Proof.
  revert n t. induction j as [|b|d|s|l IH|fs IH] using json_ind'; intros n t H; try (cbn; lia).
  - destruct n as [|n]; [done|]. cbn [value_text nesting] in *. apply le_n_S. destruct H as [[-> _]|(_&ts&Hts&_)]; [cbn; lia|].
    induction Hts as [|t' x ts l Ht Hts IHt]; [cbn; lia|]. cbn [map max_list_with max_list].
    apply Nat.max_lub; [|apply IHt; intros y Hy; apply IH; by right]. destruct Ht as (a&u&b&_&_&_&Hu).
    eapply (IH x); [by left|done].
  - destruct n as [|n]; [done|]. cbn [value_text nesting] in *. apply le_n_S. destruct H as [[-> _]|(_&ts&Hts&_)]; [cbn; lia|].
    induction Hts as [|t' x ts l Ht Hts IHt]; [cbn; lia|]. cbn [map max_list_with max_list].
    apply Nat.max_lub; [|apply IHt; intros y Hy; apply IH; by right]. destruct Ht as (a&q&b&v&_&_&_&_&(a'&u&b'&_&_&_&Hu)).
    eapply (IH x); [by left|done].
Qed.

Lemma text_deeper n m t j : value_text n t j → n ≤ m → value_text m t j.
Proof.
  revert n m t. induction j as [|b|d|s|l IH|fs IH] using json_ind'; intros n m t H Hm; try (by destruct n, m).
  - destruct n as [|n]; [done|]. destruct m as [|m]; [lia|]. cbn [value_text] in *. destruct H as [H|(Hl&ts&Hts&->)]; [by left|right].
    split; [done|]. exists ts. split; [|done]. clear Hl. induction Hts as [|t' x ts l Ht Hts IHt]; [done|].
    constructor; [|apply IHt; intros y Hy; apply IH; by right]. destruct Ht as (a&u&b&->&Ha&Hb&Hu). exists a, u, b. split_and!; try done.
    apply (IH x) with n; [by left|done|lia].
  - destruct n as [|n]; [done|]. destruct m as [|m]; [lia|]. cbn [value_text] in *. destruct H as [H|(Hl&ts&Hts&->)]; [by left|right].
    split; [done|]. exists ts. split; [|done]. clear Hl. induction Hts as [|t' x ts l Ht Hts IHt]; [done|].
    constructor; [|apply IHt; intros y Hy; apply IH; by right]. destruct Ht as (a&q&b&v&->&Ha&Hb&Hq&(a'&u&b'&->&Ha'&Hb'&Hu)).
    exists a, q, b, (a' +:+ u +:+ b'). split_and!; try done. exists a', u, b'. split_and!; try done.
    apply (IH x) with n; [by left|done|lia].
Qed.

(** Reading accepts what is JSON text, nested no deeper than it may be, and nothing else;
    and it gives what the text denotes. *)
Theorem C84_reads depth s j : parse_json depth s = Some j ↔ json_text depth s j.
Proof. apply parse_json_spec. Qed.
Print Assumptions C84_reads.
Theorem C84_depth depth s j : json_text depth s j → nesting j ≤ depth.
Proof. intros (a&u&b&_&_&_&H). by eapply text_nesting. Qed.
Print Assumptions C84_depth.
(** A text denotes one thing, whatever the depth. *)
Theorem C84_one_meaning n m s j1 j2 : json_text n s j1 → json_text m s j2 → j1 = j2.
Proof.
  intros H1 H2. assert (∀ k j, json_text k s j → k ≤ n + m → parse_json (n + m) s = Some j) as H.
  { intros k j (a&u&b&->&Ha&Hb&Hu) Hk. apply parse_json_spec. exists a, u, b. split_and!; try done. by eapply text_deeper. }
  apply H in H1, H2; [|lia..]. congruence.
Qed.
Print Assumptions C84_one_meaning.
Example C84_reads_example :
  json_text 2 " [1.50, -2e1,{""a"" :""é\n""}] " (JArr [JNum (Dec 150 2); JNum (Dec (-20) 0); JObj [("a", JStr "é
")]]).
Proof. apply parse_json_spec. by vm_compute. Qed.
Example C84_refuses_example :
  parse_json 1 "[[]]" = None ∧ parse_json 9 "[1,]" = None ∧ parse_json 9 "01" = None ∧ parse_json 9 ".5" = None ∧
  parse_json 9 "nul" = None ∧ parse_json 9 "[1] 2" = None ∧ parse_json 9 """\ud800""" = None ∧ parse_json 9 "{""a"":1" = None.
Proof. by vm_compute. Qed.

(** What the server writes is read as what it meant, whatever the strings and numbers in
    it; so is what the client writes. *)
Theorem C84_server_text depth j : nesting j ≤ depth → parse_json depth (print_json j) = Some j.
Proof. intros H. apply parse_json_spec, padded_self. by apply print_json_text. Qed.
Print Assumptions C84_server_text.
Theorem C84_client_text depth j : nesting j ≤ depth → parse_json depth (generate_string j) = Some j.
Proof. intros H. apply parse_json_spec, padded_self. by apply generate_string_text. Qed.
Print Assumptions C84_client_text.
(** Neither has a character in it which could end a line. *)
Lemma occurs_plain c s : occurs c s → plain s → (32 ≤ N_of_ascii c)%N.
Proof. induction s as [|d s IH]; [done|]. intros [->|H] [Hd Hs]; [done|auto]. Qed.
Theorem C84_one_line j c : occurs c (print_json j) ∨ occurs c (generate_string j) → (32 ≤ N_of_ascii c)%N.
Proof. intros [H|H]; eapply occurs_plain in H; try done; [apply print_json_plain|apply generate_string_plain]. Qed.
Print Assumptions C84_one_line.
Example C84_text_example :
  let j := JObj [("a""b", JArr [JNum (Dec 15 8); JNum (Dec (-50) 1); JStr (String "010" (String "031" "\"))]); ("", JNull)] in
  nesting j = 2 ∧ print_json j = "{""a\""b"":[0.00000015,-5.0,""\n\u001f\\""],"""":null}" ∧
  generate_string j = "{""a\""b"":[1.5E-7,-5.0,""\n\u001F\\""],"""":null}" ∧
  parse_json 2 (print_json j) = Some j ∧ parse_json 2 (generate_string j) = Some j ∧ parse_json 1 (print_json j) = None.
Proof. by vm_compute. Qed.
