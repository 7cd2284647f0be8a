(** What survives the wire.  [dec_parse] is the library's reading of a number
    given as a string; [ord] is the order in which hash tables are written. *)
From Coq Require Import Ascii.
From stdpp Require Import prelude gmap strings.
From Verif Require Import DecModel LedgerTypes IsoModel IsoFacts JsonModel WireModel WireSpec WireFacts SampleLedgers WireSamples.

(** ** C25: metadata values survive the wire *)
Theorem C25_metadata_round_trip :
  ∀ dec_parse v, ok_meta v → get_meta dec_parse (put_meta v) = Some v.
Proof. exact meta_round_trip. Qed.
Print Assumptions C25_metadata_round_trip.

(** Exactly the trees described by [meta_json] are accepted. *)
Theorem C25_metadata_accepted :
  ∀ dec_parse j v, get_meta dec_parse j = Some v ↔ meta_json dec_parse j v.
Proof. exact get_meta_iff. Qed.
Print Assumptions C25_metadata_accepted.

Example C25_example :
  ok_meta (MVAmount (Dec 1050 2) "USD") ∧
  get_meta no_strings (JObj [("cur", JStr "USD"); ("units", JNum (Dec 1050 2))]) = Some (MVAmount (Dec 1050 2) "USD") ∧
  get_meta no_strings (put_meta (MVString "a ""b""")) = Some (MVString "a ""b""") ∧
  get_meta no_strings (JObj []) = None ∧ get_meta no_strings (JObj [("null", JNull)]) = None ∧
  get_meta no_strings (JObj [("tag", JStr "a"); ("link", JStr "b")]) = None.
Proof. by vm_compute. Qed.

(** ** C26: spans and element indices survive the wire *)
Theorem C26_span_round_trip : ∀ s, get_span (put_span s) = Some s.
Proof. exact span_round_trip. Qed.
Print Assumptions C26_span_round_trip.

Theorem C26_span_accepted : ∀ j s, get_span j = Some s ↔ span_json j s.
Proof. exact get_span_iff. Qed.
Print Assumptions C26_span_accepted.

Theorem C26_index_form :
  ∀ e, put_eidx e = JArr (of_nat <$> match ei_posting e with
                                     | None => [ei_directive e]
                                     | Some p => [ei_directive e; p]
                                     end).
Proof. exact put_eidx_form. Qed.
Print Assumptions C26_index_form.

Theorem C26_index_determined : ∀ e e', put_eidx e = put_eidx e' → e = e'.
Proof. exact put_eidx_inj. Qed.
Print Assumptions C26_index_determined.

Example C26_example :
  get_span (JArr [of_nat 1; of_nat 2]) = None ∧ get_span (JArr [of_nat 1; of_nat 2; of_nat 3; of_nat 4]) = None ∧
  get_span (JArr [of_nat 1; of_nat 2; JNum (Dec (-3) 0)]) = None ∧
  put_eidx (EIdx 7 (Some 1)) = JArr [of_nat 7; of_nat 1] ∧ put_eidx (EIdx 7 None) = JArr [of_nat 7].
Proof. by vm_compute. Qed.

(** ** C27: dates survive the wire *)
Theorem C27_date_round_trip : ∀ d, valid_date d = true → parse_date (fmt_date d) = Some d.
Proof. exact parse_fmt_date. Qed.
Print Assumptions C27_date_round_trip.

(** What is accepted is the text of an existing date, but for a redundant sign. *)
Theorem C27_date_accepted :
  ∀ s d, parse_date s = Some d ↔
    valid_date d = true ∧
    (s = fmt_date d ∨ (s = "+" +:+ fmt_date d ∧ (0 <= date_year d)%Z) ∨
     (s = "-" +:+ fmt_date d ∧ date_year d = 0%Z)).
Proof. exact parse_date_iff. Qed.
Print Assumptions C27_date_accepted.

(** The dates which exist. *)
Theorem C27_valid_dates :
  ∀ d, valid_date d = true ↔
    (-9999 <= date_year d <= 9999 ∧ 1 <= date_month d <= 12 ∧ 1 <= date_day d ∧
     (date_month d ∈ [1; 3; 5; 7; 8; 10; 12] → date_day d <= 31) ∧
     (date_month d ∈ [4; 6; 9; 11] → date_day d <= 30) ∧
     (date_month d = 2 → date_day d <= 29 ∧
        (date_day d = 29 → (4 | date_year d) ∧ ((100 | date_year d) → (400 | date_year d)))))%Z.
Proof. exact valid_date_iff. Qed.
Print Assumptions C27_valid_dates.

Example C27_example :
  fmt_date (Date 2024 2 29) = "2024-02-29" ∧ parse_date "2024-02-29" = Some (Date 2024 2 29) ∧
  parse_date "2023-02-29" = None ∧ parse_date "2000-02-29" = Some (Date 2000 2 29) ∧
  parse_date "1900-02-29" = None ∧ parse_date "2024-2-29" = None ∧ parse_date "2024-02-29 " = None.
Proof. by vm_compute. Qed.

(** ** C28: directives survive the wire *)
Theorem C28_directive_round_trip :
  ∀ dec_parse ord, any_order ord → ∀ d, ok_directive d →
    get_directive dec_parse (put_directive ord d) = Some d.
Proof. exact @directive_round_trip. Qed.
Print Assumptions C28_directive_round_trip.

(** Exactly the trees described by [directive_json], in which fields may be
    reordered and added, are accepted. *)
Theorem C28_directive_accepted :
  ∀ dec_parse j d, get_directive dec_parse j = Some d ↔ directive_json dec_parse j d.
Proof. exact get_directive_iff. Qed.
Print Assumptions C28_directive_accepted.

(** Adding a field the server does not know changes nothing. *)
Theorem C28_unknown_fields_ignored :
  ∀ dec_parse fs k v fs', k ∉ directive_fields →
    get_directive dec_parse (JObj (fs ++ (k, v) :: fs')) = get_directive dec_parse (JObj (fs ++ fs')).
Proof. exact unknown_field. Qed.
Print Assumptions C28_unknown_fields_ignored.

(** A character which a JSON text has as it is, not as an escape. *)
Definition unescaped (c : ascii) : Prop := (32 ≤ N_of_ascii c)%N ∧ c ≠ """"%char ∧ c ≠ "\"%char.
Lemma plain_char_iff c : plain_char c = true ↔ unescaped c.
Proof.
  unfold plain_char, unescaped. rewrite !andb_true_iff, !negb_true_iff, N.leb_le, !Ascii.eqb_neq. tauto.
Qed.
(** The names which may be sent are those without a character which needs escaping. *)
Theorem C28_names : ∀ s, ok_name s ↔ ∀ i c, String.get i s = Some c → unescaped c.
Proof.
  unfold ok_name. induction s as [|c s IH]; [by split|]. cbn [plain]. rewrite andb_true_iff, plain_char_iff, IH. split.
  - intros [Hc Hs] [|i] d; cbn; [by intros [= <-]|apply Hs].
  - intros H. split; [by apply (H 0)|]. intros i d Hi. by apply (H (S i)).
Qed.
Print Assumptions C28_names.

(** A name which needs escaping is refused. *)
Theorem C28_odd_names_refused :
  ∀ dec_parse ord d o i c, d_variant d = DOpen o → String.get i (op_acc o) = Some c → ¬ unescaped c →
    get_directive dec_parse (put_directive ord d) = None.
Proof.
  intros p ord d o i c Hd Hi Hc. eapply odd_account_refused; [done|]. destruct (plain (op_acc o)) eqn:E; [|done].
  destruct Hc. by apply (proj1 (C28_names (op_acc o)) E i).
Qed.
Print Assumptions C28_odd_names_refused.

Example C28_example :
  ok_directive wire_txn ∧ get_directive no_strings (put_directive plain_order wire_txn) = Some wire_txn ∧
  get_directive no_strings (put_directive plain_order odd_open) = None ∧
  ("provenance" : string) ∉ directive_fields.
Proof.
  split; [exact wire_txn_ok|]. split; [by apply C28_directive_round_trip; [apply plain_order_any|apply wire_txn_ok]|].
  split; [vm_compute; reflexivity|]. by apply (bool_decide_unpack _); vm_compute.
Qed.
