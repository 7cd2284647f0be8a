(** Reports sent for formatting. *)
From Coq Require Import Ascii QArith.
From stdpp Require Import prelude gmap strings.
From Verif Require Import DecModel LedgerTypes IsoModel IsoFacts JsonModel WireModel WireSpec WireFacts BookModel BookSpec SpanModel ParserModel
  JsonText ServerModel ServerSpec ServerFacts CljModel InventoryModel ClientModel ClientDecode FormatModel PluginModel PluginSpec PluginFacts PluginMerge LoaderModel
  LoaderSpec LoaderFacts EncodeModel EncodeFacts EncodeStable SystemModel SystemFacts SystemSpec SystemErrors.
Local Open Scope nat_scope.

(** ** Reports of the server which the client sends back *)
Lemma stable_labelled x : stable (put_labelled_span x).
Proof. constructor. repeat constructor. Qed.
Lemma stable_report r : stable (put_report r).
Proof.
  constructor; [nodup ["message"; "reason"; "span"; "contexts"; "related"; "annotation"]|].
  assert (Hl : ∀ k (o : option (list (string * span))), k ∈ ["contexts"; "related"] → Forall good (put_opt k (λ l, JArr (put_labelled_span <$> l)) o)).
  { intros k o Hk. destruct o as [l|]; [|constructor]. constructor; [|constructor]. split.
    - apply keeps_plain; set_solver.
    - constructor. apply Forall_fmap, Forall_true. intros. apply stable_labelled. }
  repeat (apply Forall_app; split); try (apply Hl; set_solver).
  - repeat (apply Forall_cons_2 || apply Forall_nil_2); (split; [by apply keeps_plain|]); first [apply stable_span|constructor].
  - destruct (wr_annotation r); [|constructor]. constructor; [|constructor]. split; [by apply keeps_plain|constructor].
Qed.
Lemma kept_labelled : kept None labelled_json.
Proof.
  intros j j' x Hs (a&b&->&Ha&Hb). inversion Hs as [| | | |? l l' _ HF|? ? ? ? E|]; subst; [|done].
  apply Forall2_cons_inv_l in HF as (a'&l1&Ha'&HF&->). apply Forall2_cons_inv_l in HF as (b'&l2&Hb'&HF&->).
  apply Forall2_nil_inv_l in HF as ->. exists a', b'. split; [done|]. split; [by eapply kept_text|by eapply (kept_span None)].
Qed.
Lemma kept_report k : kept k report_json.
Proof.
  intros j j' x Hs (fs&->&H1&H2&H3&H4&H5&H6). inversion Hs as [| | | | | |? ? fs' fs'' Hnd HF Hp]; subst.
  exists fs''. split; [done|].
  split_and!; first [eapply kept_has; [by eapply jsim_entries| |eassumption]|eapply kept_has_opt; [by eapply jsim_entries| |eassumption]];
    first [apply kept_text|by apply kept_span|apply kept_list; [done|apply kept_labelled]].
Qed.
Lemma labelled_back x : labelled_json (put_labelled_span x) x.
Proof. destruct x as [t sp]. eexists _, _. split; [reflexivity|]. split; [done|]. apply put_span_json. Qed.
Lemma labelled_list l : list_json labelled_json (JArr (put_labelled_span <$> l)) l.
Proof. eexists. split; [reflexivity|]. induction l; constructor; [apply labelled_back|done]. Qed.
Lemma report_back0 r : report_json (put_report r) r.
Proof.
  eexists. split; [reflexivity|]. unfold has_opt, WireSpec.has.
  split_and!.
  - eexists. split; [|reflexivity]. rewrite !entries_app, !entries_put_ne by done. done.
  - eexists. split; [|reflexivity]. rewrite !entries_app, !entries_put_ne by done. done.
  - eexists. split; [|apply put_span_json]. rewrite !entries_app, !entries_put_ne by done. done.
  - rewrite !entries_app, entries_put_eq, !entries_put_ne by done. destruct (wr_contexts r) as [l|]; [|by left].
    eexists. split; [reflexivity|]. split; [done|apply labelled_list].
  - rewrite !entries_app, entries_put_eq, !entries_put_ne by done. destruct (wr_related r) as [l|]; [|by left].
    eexists. split; [reflexivity|]. split; [done|apply labelled_list].
  - rewrite !entries_app, entries_put_eq, !entries_put_ne by done. destruct (wr_annotation r) as [l|]; [|by left].
    eexists. split; [reflexivity|]. done.
Qed.
Section Print.
Context {P S : Type} (env : server_env P S).
Context (jso : list json → list json) (jmo : list (string * json) → list (string * json)).
Context (Hjso : ∀ l, jso l ≡ₚ l) (Hjmo : ∀ l, jmo l ≡ₚ l).
Context (pl : parsed + list perror) (hs : nat → orders P) (sources : S).
Notation encode := (encode jso jmo).
Notation hl := (Healthy pl).
Notation invoke := (invoke env jso jmo hl hs).
Notation pod_state := (pod_state env jso jmo hl hs sources).
Notation ask := (ask env jso jmo hl hs sources).

Lemma report_back r : get_report (encode (decode None (put_report r))) = Some r.
Proof.
  apply get_report_iff. eapply kept_report; [|apply report_back0]. apply encode_decode; [done|done|]. apply stable_report.
Qed.
(** ** Reports of the client *)
Lemma report_fields r : ∃ fs, encode (report_value r) = JObj fs ∧ ∀ k,
  entries k fs = option_list (encode <$> vget k (report_value r)).
Proof. by apply (encode_entries jso jmo Hjmo). Qed.
Lemma report_value_get r :
  vget "message" (report_value r) = Some (or_nil (cr_message r)) ∧ vget "reason" (report_value r) = Some (or_nil (cr_reason r)) ∧
  vget "span" (report_value r) = Some (or_nil (cr_span r)) ∧ vget "annotation" (report_value r) = cr_annotation r ∧
  vget "related" (report_value r) = VVec <$> cr_related r ∧ vget "contexts" (report_value r) = None.
Proof. unfold report_value. destruct r as [m rs s [a|] [c|] [l|]]; cbn [cr_message cr_reason cr_span cr_annotation cr_context cr_related]; by split_and!. Qed.
Lemma context_lost r w : get_report (encode (report_value r)) = Some w → wr_contexts w = None.
Proof.
  intros (fs&E&_&_&_&H&_)%get_report_iff. destruct (report_fields r) as (fs'&E'&He). rewrite E in E'. injection E' as <-.
  destruct (report_value_get r) as (_&_&_&_&_&Hc). specialize (He "contexts"). rewrite Hc in He. cbn in He.
  destruct (wr_contexts w); [|done]. cbn in H. destruct H as (v&H&_). by rewrite He in H.
Qed.
Lemma encode_number n : encode (number n) = of_nat n.
Proof. unfold number. cbn [EncodeModel.encode]. by rewrite cn_dec_of. Qed.
Lemma encode_span s : encode (span_value s) = put_span s.
Proof. unfold span_value. cbn [EncodeModel.encode map]. by rewrite !encode_number. Qed.
Lemma says_read r w : says r w → wr_contexts w = None → get_report (encode (report_value r)) = Some w.
Proof.
  intros (H1&H2&H3&H4&H5) Hc. apply get_report_iff. destruct (report_fields r) as (fs&E&He). exists fs. split; [done|].
  destruct (report_value_get r) as (G1&G2&G3&G4&G5&G6). rewrite H1 in G1. rewrite H2 in G2. rewrite H3 in G3. rewrite H4 in G4. rewrite H5 in G5.
  split_and!.
  - eexists. split; [rewrite He, G1; reflexivity|done].
  - eexists. split; [rewrite He, G2; reflexivity|done].
  - eexists. split; [rewrite He, G3; reflexivity|]. change (or_nil (Some ?v)) with v. rewrite encode_span. apply put_span_json.
  - rewrite Hc. left. by rewrite He, G6.
  - destruct (wr_related w) as [l|]; [|left; by rewrite He, G5]. eexists. split; [rewrite He, G5; reflexivity|]. split; [done|].
    cbn [fmap option_fmap option_map EncodeModel.encode]. 
    assert (map encode ((λ x : string * span, VVec [VStr x.1; span_value x.2]) <$> l) = put_labelled_span <$> l) as E0.
    { clear. induction l as [|x l IH]; [done|]. cbn [fmap list_fmap map]. f_equal; [|exact IH].
      unfold put_labelled_span. rewrite <- encode_span. done. }
    cbn [fmap] in E0. rewrite E0. apply labelled_list.
  - destruct (wr_annotation w); [|left; by rewrite He, G4]. eexists. split; [rewrite He, G4; reflexivity|done].
Qed.
(** ** Printing *)
Lemma format_prints n s vs ws : small n → mapM get_report (encode <$> vs) = Some ws →
  (∀ w, w ∈ ws → is_Some (src_write_report (env_sources env) s false w)) →
  ∃ t, invoke n (Some s) "parser.format-errors" (Some (VVec vs)) = (Some s, Answer (Some (VStr t)) None) ∧
    printed_as (src_write_report (env_sources env) s false) ws t.
Proof.
  intros Hn Hm Hw. erewrite invoke_eq by (by eapply message_format). cbn [dispatch_method].
  unfold parser_format_report. rewrite format_reports_texts.
  assert (∃ ts, mapM (format_one env s false) ws = Some ts) as [ts Hts].
  { clear Hm. induction ws as [|w ws IH]; [by eexists|]. destruct (Hw w) as [u Hu]; [left|].
    destruct IH as [ts Hts]; [intros; apply Hw; by right|]. assert (Hf : format_one env s false w = Some (u +:+ match wr_annotation w with Some a => a +:+ line_end | None => "" end))
      by (unfold format_one; by rewrite Hu).
    eexists. cbn [mapM]. rewrite Hf, Hts. reflexivity. }
  rewrite Hts. cbn [fmap option_fmap option_map]. rewrite answer_result. eexists. split; [reflexivity|].
  exists ts. split; [|by destruct ts].
  apply mapM_Some in Hts. eapply Forall2_impl; [exact Hts|]. intros w t Ht. unfold format_one in Ht.
  apply bind_Some in Ht as (u&Hu&[= <-]). by exists u.
Qed.
Lemma state_after_app n s a b : state_after env jso jmo hl hs n s (a ++ b) =
  state_after env jso jmo hl hs (n + length a) (state_after env jso jmo hl hs n s a) b.
Proof.
  revert n s. induction a as [|r a IH]; intros n s; cbn [app length state_after].
  - by rewrite Nat.add_0_r.
  - rewrite IH. f_equal. lia.
Qed.
(** A pod which has answered is still there. *)
Lemma alive h r : ask h r ≠ no_answer → is_Some (pod_state (h ++ [r])).
Proof.
  intros H. unfold SystemModel.ask in H. unfold SystemModel.pod_state in *. rewrite state_after_app. cbn [state_after].
  rewrite (Nat.add_comm 2). set (st := state_after _ _ _ _ _ 2 _ h) in *. clearbody st. destruct st as [s|]; [|done].
  unfold SystemModel.invoke in *. destruct (dispatch_tree _ _ _ _ _) as [s' [j|c]]; [by eexists|done].
Qed.
End Print.
