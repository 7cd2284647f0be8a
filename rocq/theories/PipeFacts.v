(** Lemmas about the pipe. *)
From Coq Require Import Ascii QArith.
From stdpp Require Import prelude gmap strings.
From Verif Require Import DecModel LedgerTypes IsoModel JsonModel WireModel BookModel SpanModel ParserModel JsonText ServerModel ServerSpec TextFacts
  CljModel InventoryModel ClientModel FormatModel PluginModel LoaderModel EncodeModel ReadModel ReadSpec ReadFacts ReadWrite SystemModel PipeModel PipeSpec.
Local Open Scope nat_scope.
Local Notation line_end := ServerModel.line_end.
Local Notation string_app_assoc := TextFacts.string_app_assoc.

(** * How deep answers go *)
Definition deep (n : nat) (j : json) : Prop := nesting j ≤ n.
Definition all_deep (n : nat) (fs : list (string * json)) : Prop := Forall (λ kv, deep n kv.2) fs.
Lemma max_list_le l n : Forall (λ x, x ≤ n) l → max_list l ≤ n.
Proof. induction 1; cbn; lia. Qed.
Lemma deep_obj n fs : all_deep n fs → deep (S n) (JObj fs).
Proof. intros H. unfold deep. cbn [nesting]. apply le_n_S, max_list_le, Forall_fmap. exact H. Qed.
Lemma deep_arr n l : Forall (deep n) l → deep (S n) (JArr l).
Proof. intros H. unfold deep. cbn [nesting]. apply le_n_S, max_list_le, Forall_fmap. exact H. Qed.
Lemma deep_map {A} n (f : A → json) l : (∀ x, deep n (f x)) → deep (S n) (JArr (f <$> l)).
Proof. intros H. apply deep_arr, Forall_fmap, Forall_true. exact H. Qed.
Lemma all_deep_app n a b : all_deep n a → all_deep n b → all_deep n (a ++ b).
Proof. intros. by apply Forall_app. Qed.
Lemma all_deep_cons n k j a : deep n j → all_deep n a → all_deep n ((k, j) :: a).
Proof. intros. by constructor. Qed.
Lemma all_deep_nil n : all_deep n [].
Proof. constructor. Qed.
Lemma all_deep_opt {A} n k (f : A → json) o : (∀ x, deep n (f x)) → all_deep n (put_opt k f o).
Proof. intros H. destruct o; repeat constructor. apply H. Qed.
Lemma all_deep_map {A} n (f : A → string * json) l : (∀ x, deep n (f x).2) → all_deep n (f <$> l).
Proof. intros H. apply Forall_fmap, Forall_true. exact H. Qed.
Lemma deep_leaf n j : nesting j = 0 → deep n j.
Proof. unfold deep. lia. Qed.
Lemma deep_more n m j : deep n j → n ≤ m → deep m j.
Proof. unfold deep. lia. Qed.
Ltac dig := repeat match goal with
  | |- all_deep _ [] => apply all_deep_nil
  | |- all_deep _ (_ :: _) => apply all_deep_cons
  | |- all_deep _ (_ ++ _) => apply all_deep_app
  | |- all_deep _ (put_opt _ _ _) => apply all_deep_opt; intros ?
  | |- all_deep _ (_ <$> _) => apply all_deep_map; intros ?; cbn [snd]
  | |- deep _ (JArr (_ <$> _)) => apply deep_map; intros ?
  | |- deep _ (JArr _) => apply deep_arr
  | |- deep _ (JObj _) => apply deep_obj
  | |- Forall _ [] => constructor
  | |- Forall _ (_ :: _) => constructor
  | |- deep _ _ => apply deep_leaf; reflexivity
  end.
Section Depth.
Context {P S : Type} (env : server_env P S) (ord : hash_order).
Lemma deep_set X n : deep (Datatypes.S n) (put_set ord X).
Proof. unfold put_set. dig. Qed.
Lemma deep_span x n : deep (Datatypes.S n) (put_span x).
Proof. unfold put_span. dig. Qed.
Lemma deep_eidx x n : deep (Datatypes.S n) (put_eidx x).
Proof. unfold put_eidx. destruct (ei_posting x); dig. Qed.
Lemma deep_meta x n : deep (Datatypes.S n) (put_meta x).
Proof. destruct x; cbn [put_meta]; dig. Qed.
Lemma deep_metadata x n : deep (2 + n) (put_metadata ord x).
Proof. unfold put_metadata. cbn [Nat.add]. dig. apply deep_meta. Qed.
Lemma deep_price x n : deep (Datatypes.S n) (put_price x).
Proof. unfold put_price. dig. Qed.
Lemma deep_posting_spec x : deep 3 (put_posting_spec ord x).
Proof.
  unfold put_posting_spec. dig; try apply deep_span; try apply deep_set; try apply (deep_metadata _ 0).
  - unfold put_cost_spec. dig. destruct (cs_merge _); dig.
  - unfold put_price_spec. dig.
Qed.
Lemma deep_posting x : deep 3 (put_posting ord x).
Proof.
  unfold put_posting. dig; try apply deep_price; try apply deep_set; try apply (deep_metadata _ 0).
  unfold put_cost. dig. destruct (c_merge _); dig.
Qed.
Lemma deep_directive x : deep 5 (put_directive ord x).
Proof.
  unfold put_directive. dig; try apply deep_span; try apply deep_set; try apply (deep_metadata _ 2).
  destruct (d_variant x); cbn [put_variant]; unfold put_price_dct, put_balance, put_open, put_pad, put_custom; dig;
    try apply deep_price; try apply deep_set; try apply deep_meta. apply deep_posting_spec.
Qed.
Lemma deep_bdirective x : deep 5 (put_bdirective ord x).
Proof.
  unfold put_bdirective. dig; try apply deep_set; try apply (deep_metadata _ 2).
  destruct (b_variant x); cbn [put_bvariant]; unfold put_price_dct, put_balance, put_open, put_pad, put_custom; dig;
    try apply deep_price; try apply deep_set; try apply deep_meta. apply deep_posting.
Qed.
Lemma deep_id i n : deep n (or_null (put_id env) i).
Proof. apply deep_leaf. by destruct i as [[]|]. Qed.
Lemma deep_result i r n : deep n r → deep (Datatypes.S n) (result_response env i r).
Proof. intros H. unfold result_response. dig; [apply deep_id|done]. Qed.
Lemma deep_error i c m d : (∀ r, d = Some r → deep 6 r) → deep 8 (error_response env i c m d).
Proof.
  intros H. unfold error_response. destruct d as [r|]; cbn [put_opt]; dig; try apply deep_id. by apply H.
Qed.
Lemma deep_report r : deep 5 (put_report r).
Proof. unfold put_report. dig; try apply deep_span; unfold put_labelled_span; dig; apply deep_span. Qed.
Lemma deep_reports i rs : deep 8 (error_reports env i rs).
Proof. apply deep_error. intros r [= <-]. dig. apply deep_report. Qed.
Lemma deep_indexed i rs : deep 8 (indexed_error_reports env i rs).
Proof. apply deep_error. intros r [= <-]. dig. unfold put_indexed_report. dig; apply deep_eidx. Qed.
End Depth.
Lemma deep_options {P} (h : orders P) x : deep 7 (put_options h x).
Proof. unfold put_options. dig; try apply deep_set. Qed.
Lemma method_deep {P S} (env : server_env P S) hl h s i m s' r : dispatch_method env hl h s i m = (s', Reply r) → deep 8 r.
Proof.
  unfold dispatch_method. destruct hl as [p|why]; [|intros [= _ <-]; by apply deep_error].
  destruct m.
  - intros [= _ <-]. by apply deep_result, deep_leaf.
  - unfold parser_plugins. destruct p as [p|es]; intros [= _ <-]; [|apply deep_reports]. apply deep_result. unfold put_plugin. dig.
    apply deep_leaf. by destruct (ppl_config _).
  - unfold parser_directives. destruct p as [p|es]; intros [= _ <-]; [|apply deep_reports]. apply deep_result. dig. apply deep_directive.
  - unfold parser_options. destruct p as [p|es]; intros [= _ <-]; [|apply deep_reports]. apply deep_result, deep_options.
  - unfold parser_format_report. case_match; [|done]. intros [= _ <-]. apply deep_result. dig.
  - unfold parser_format_report. case_match; [|done]. intros [= _ <-]. apply deep_result. dig.
  - unfold parser_resolve_spans. case_match; [|done]. intros [= _ <-]. apply deep_result. unfold put_spanned_source. dig.
  - unfold parser_create_synthetic_spans. case_match. intros [= _ <-]. apply deep_result. dig. apply deep_span.
  - unfold book_request. destruct p as [p|es]; [|intros [= _ <-]; apply deep_reports].
    destruct (match _ with Some ds => (ds, false) | None => _ end) as [ds sp]. destruct (book _ _ _ _).
    + intros [= _ <-]. apply deep_result. dig. apply deep_bdirective.
    + destruct sp; [|intros [= _ <-]; apply deep_indexed]. case_match; [|done]. intros [= _ <-]. apply deep_reports.
    + done.
Qed.

Theorem reply_deep {P S} (env : server_env P S) hl h s j s' r : dispatch_tree env hl h s j = (s', Reply r) → deep 8 r.
Proof.
  unfold dispatch_tree. destruct (get_request env j) as [rq|]; [|intros [= _ <-]; by apply deep_error].
  case_match; [apply method_deep|intros [= _ <-]; by apply deep_error].
Qed.
Theorem dispatch_deep {P S} (env : server_env P S) hl h s line s' r : dispatch env hl h s line = (s', Reply r) → deep 8 r.
Proof.
  unfold dispatch. destruct (read_request env line) as [rq|]; [|intros [= _ <-]; by apply deep_error].
  case_match; [apply method_deep|intros [= _ <-]; by apply deep_error].
Qed.

(** * Lines *)
Lemma plain_no_newline s : plain s → some_newline s = false ∧ ¬ occurs newline s.
Proof.
  induction s as [|c s IH]; [by split; [|intros []]|]. intros [Hc H]. destruct (IH H) as [IH1 IH2].
  assert (c ≠ newline) by (intros ->; by apply Hc). cbn [some_newline occurs]. split.
  - destruct (Ascii.eqb_spec c newline); [done|]. done.
  - intros [Hx|Hx]; [congruence|done].
Qed.
Lemma write_line_plain s : plain s → write_line s = Some (s +:+ line_end).
Proof. intros H. unfold write_line. by rewrite (proj1 (plain_no_newline s H)). Qed.
Lemma take_line_plain s r : plain s → take_line (s +:+ line_end +:+ r) = (s, r).
Proof.
  induction s as [|c s IH]; [done|]. intros [Hc H]. rewrite app_cons. cbn [take_line].
  destruct (Ascii.eqb_spec c "010") as [->|]; [by exfalso; apply Hc|]. destruct (Ascii.eqb_spec c "013") as [->|]; [by exfalso; apply Hc|]. by rewrite IH.
Qed.
Lemma read_answer_line depth j r : nesting j ≤ depth → read_answer depth (print_json j +:+ line_end +:+ r) = Some (answer_of j, r).
Proof.
  intros H. unfold read_answer, read_to_eol. pose proof (take_line_plain _ r (print_json_plain j)) as E.
  destruct (print_json j +:+ line_end +:+ r) as [|c x] eqn:Ex.
  { exfalso. apply (f_equal String.length) in Ex. rewrite !ReadFacts.length_app in Ex. cbn in Ex. lia. }
  rewrite E. assert (parse_json depth (print_json j) = Some j) as ->.
  { apply parse_json_spec, padded_self. by apply print_json_text. }
  done.
Qed.

Section Session.
Context {P S : Type} (env : server_env P S).
Context (jso : list json → list json) (jmo : list (string * json) → list (string * json)).
Context (hl : health) (hs : nat → orders P).
Notation dispatch_tree := (dispatch_tree env hl).
Lemma dispatch_line depth h s j : (∀ l, env_parse env l = parse_json depth l) → nesting j ≤ depth →
  dispatch env hl h s (generate_string j +:+ line_end) = dispatch_tree h s j.
Proof.
  intros Hp Hn. unfold dispatch, SystemModel.dispatch_tree, read_request. rewrite Hp.
  assert (parse_json depth (generate_string j +:+ line_end) = Some j) as ->.
  { apply parse_json_spec. apply padded_pad; [|split; [auto|done]]. apply padded_self. by apply generate_string_text. }
  cbn [mbind option_bind]. done.
Qed.
Lemma read_no_answers depth k : read_answers depth k "" = Some (replicate k no_answer).
Proof. induction k as [|k IH]; [done|]. cbn. cbn in IH. by rewrite IH. Qed.
Notation answers := (answers env jso jmo hl hs).
Lemma answers_gone n calls : answers n None calls = replicate (length calls) no_answer.
Proof. revert n. induction calls as [|c calls IH]; intros n; [done|]. cbn. by rewrite IH. Qed.
Lemma session_loop depth depth' n s calls :
  (∀ l, env_parse env l = parse_json depth l) → 8 ≤ depth' →
  (∀ i c, calls !! i = Some c → let j := message jso jmo (Datatypes.S (n + i)) c.1 c.2 in
    nesting j ≤ depth ∧ env_utf8 env (generate_string j +:+ line_end) = true) →
  ∃ input, write_calls jso jmo (Datatypes.S n) calls = Some input ∧
    read_answers depth' (length calls) (serve_loop env hl (λ k, hs (Datatypes.S k)) false n s (read_lines input)).1 =
    Some (answers (Datatypes.S n) (Some s) calls).
Proof.
  intros Hp Hd. revert n s. induction calls as [|[m ps] calls IH]; intros n s Hc; [by exists ""|].
  destruct (Hc 0 (m, ps) eq_refl) as [Hn Hu]. rewrite Nat.add_0_r in Hn, Hu. cbn [fst snd] in Hn, Hu.
  set (j := message jso jmo (Datatypes.S n) m ps) in *.
  assert (Hc' : ∀ i c, calls !! i = Some c → let j := message jso jmo (Datatypes.S (Datatypes.S n + i)) c.1 c.2 in
    nesting j ≤ depth ∧ env_utf8 env (generate_string j +:+ line_end) = true).
  { intros i c Hi. specialize (Hc (Datatypes.S i) c Hi). by rewrite <- plus_n_Sm in Hc. }
  assert (Hw : ∃ rest, write_calls jso jmo (Datatypes.S (Datatypes.S n)) calls = Some rest).
  { destruct (IH (Datatypes.S n) s Hc') as (rest&Hr&_). by exists rest. }
  destruct Hw as (rest&Hr). exists ((generate_string j +:+ line_end) +:+ rest). split.
  { cbn [write_calls]. fold j. rewrite (write_line_plain _ (generate_string_plain j)). cbn [mbind option_bind]. by rewrite Hr. }
  rewrite string_app_assoc, read_lines_line by apply plain_no_newline, generate_string_plain.
  cbn [serve_loop]. rewrite Hu, (dispatch_line depth) by done. cbn [PipeSpec.answers fst snd]. unfold SystemModel.invoke. fold j.
  destruct (dispatch_tree _ s j) as [s' [r|w]] eqn:E.
  - specialize (IH (Datatypes.S n) s' Hc') as (rest'&Hr'&IH). rewrite Hr in Hr'. injection Hr' as <-.
    destruct (serve_loop _ _ _ _ _ s' _) as [out end_]. cbn [fst] in IH |- *.
    cbn [length read_answers]. rewrite read_answer_line by (etransitivity; [by eapply reply_deep|done]).
    cbn [mbind option_bind fst snd]. by rewrite IH.
  - cbn [fst length read_answers]. change (read_answer depth' "") with (Some (no_answer, "")). cbn [mbind option_bind fst snd].
    by rewrite read_no_answers, answers_gone.
Qed.
End Session.
