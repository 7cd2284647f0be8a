(** Theorems about the configuration of plugins. *)
From Coq Require Import Ascii QArith.
From stdpp Require Import prelude gmap strings.
From Verif Require Import DecModel LedgerTypes IsoModel IsoFacts JsonModel WireModel WireFacts BookModel ParserModel
  ServerModel ServerSpec ServerSamples CljModel InventoryModel ClientModel ClientDecode FormatModel PluginModel LoaderModel LoaderSpec LoaderFacts LoaderProps
  SystemModel SystemFacts SystemLoad SystemProps JsonText SampleLib SampleLedgers WireSamples ReadSpec ReadFacts EdnModel EdnSpec EdnWords EdnNumbers EdnForms EdnPrint.
Local Open Scope nat_scope.

(** * Reading *)

(** A text is read as [v] exactly if it begins with the text of [v]; so there is only one
    such [v]. *)
Theorem C94_reads s v : edn_read s = Some v ↔ begins_with v s.
Proof. apply edn_read_spec. Qed.
Print Assumptions C94_reads.
Theorem C94_one s v w : begins_with v s → begins_with w s → v = w.
Proof. rewrite <- !edn_read_spec. congruence. Qed.
Print Assumptions C94_one.

Lemma all_fold {A} (P : A → Prop) l : foldr (λ x Q, P x ∧ Q) True l ↔ Forall P l.
Proof. induction l as [|x l IH]; cbn; [done|]. by rewrite Forall_cons, IH. Qed.
Lemma forms_readable :
  (∀ s s', gap s s' → True) ∧
  (∀ v s r, form v s r → without_regex v → readable v) ∧
  (∀ close l s r, forms close l s r → Forall without_regex l → Forall readable l).
Proof.
  apply forms_ind'; try done.
  - intros t v r [| | |k Hk|u Hu Hb Hc Hn] _ _; constructor; try done. by constructor.
  - intros t v r Hn _ _. inversion Hn; subst; try constructor; done.
  - constructor.
  - intros l s r _ IH H. constructor. apply IH. cbn in H. by apply all_fold in H.
  - intros l s r _ IH H. constructor. apply IH. cbn in H. by apply all_fold in H.
  - intros l s r _ IH Hd H. constructor; [|done]. apply IH. cbn in H. by apply all_fold in H.
  - intros fs s r _ IH Hd H. cbn in H. apply (all_fold (λ kv, without_regex kv.1 ∧ without_regex kv.2)) in H.
    assert (Hf : Forall without_regex (fs ≫= λ kv, [kv.1; kv.2])).
    { clear -H. induction H as [|kv fs [H1 H2] _ IH]; [constructor|]. change ((kv :: fs) ≫= λ kv, [kv.1; kv.2]) with (kv.1 :: kv.2 :: (fs ≫= λ kv, [kv.1; kv.2])).
      by repeat constructor. }
    apply IH in Hf. clear IH H. assert (Forall readable fs.*1 ∧ Forall readable fs.*2) as [? ?]; [|by constructor].
    clear Hd. induction fs as [|kv fs IH]; [done|]. change ((kv :: fs) ≫= λ kv, [kv.1; kv.2]) with (kv.1 :: kv.2 :: (fs ≫= λ kv, [kv.1; kv.2])) in Hf.
    apply Forall_cons in Hf as [? Hf]. apply Forall_cons in Hf as [? Hf]. destruct (IH Hf). rewrite !fmap_cons. by split; constructor.
  - intros x d s r _ _ _ Hd _. constructor. by eapply parse_date_valid.
  - intros close v l s r r' _ IH _ IH' H. apply Forall_cons in H as [? ?]. constructor; auto.
Qed.
(** What is printed is read again. *)
Theorem C94_printed v : readable v → edn_read (pr v) = Some v.
Proof. intros H. apply edn_read_spec. exists "". rewrite <- (app_nil (pr v)) at 1. by apply form_printed. Qed.
Print Assumptions C94_printed.
(** Whatever is read, if it has no regular expression, is printed and read as the same. *)
Theorem C94_again s v : edn_read s = Some v → without_regex v → edn_read (pr v) = Some v.
Proof. intros (r&H)%edn_read_spec Hw. apply C94_printed. by eapply forms_readable. Qed.
Print Assumptions C94_again.
(** With a regular expression it is not. *)
Theorem C94_refuted : ∃ s v, edn_read s = Some v ∧ edn_read (pr v) = None.
Proof. exists "{:acc #regex ""Assets:.*""}", (EMap [(EKw "acc", ERegex "Assets:.*")]). by split; vm_compute. Qed.
Print Assumptions C94_refuted.
(** Only the first form counts: what comes after it need not even be EDN. *)
Theorem C94_rest v r : readable v → after_word r → edn_read (pr v +:+ r) = Some v.
Proof. intros H Hr. apply edn_read_spec. exists r. by apply form_printed. Qed.
Print Assumptions C94_rest.
(** A text without a form is refused, the empty one too. *)
Theorem C94_blank s : gap s "" → edn_read s = None.
Proof.
  intros H. apply next_complete in H as [_ H]. unfold edn_read. destruct (H (2 * String.length s + 1)) as (m&Hm&->); [lia|]. by destruct m.
Qed.
Print Assumptions C94_blank.

Ltac ends_here := first [done|left; apply white_space|right; left; unfold delimiter; rewrite !elem_of_cons; tauto].
(** The texts in the examples of the repository, and one with all kinds of gaps. *)
Example C94_reads_example :
  edn_read "{:matching {:dct :close} :tag ""not-auto-closed""}" =
    Some (EMap [(EKw "matching", EMap [(EKw "dct", EKw "close")]); (EKw "tag", EStr "not-auto-closed")]) ∧
  edn_read "{:phase :raw :accs #{""Assets:Bank:Current""}}" =
    Some (EMap [(EKw "phase", EKw "raw"); (EKw "accs", ESet [EStr "Assets:Bank:Current"])]) ∧
  edn_read "{""Assets:Bank"" 10}" = Some (EMap [(EStr "Assets:Bank", ENum (CLong 10))]) ∧
  edn_read "{:units 1000.00M :cur ""USD"" :acc ""Equity:Rich-American-Uncle""}" =
    Some (EMap [(EKw "units", ENum (CDec (Dec 100000 2))); (EKw "cur", EStr "USD"); (EKw "acc", EStr "Equity:Rich-American-Uncle")]) ∧
  edn_read ",[1 #_(a b),-2.5M;two
 #time/date""2024-02-29"" a/b ""A\n""] and more" =
    Some (EVec [ENum (CLong 1); ENum (CDec (Dec (-25) 1)); EDate (Date 2024 2 29); ESym "a/b"; EStr (String "A" (String "010" ""))]) ∧
  edn_read "#{1 1N}" = None ∧ edn_read "{:a 1 :a 2}" = None ∧ edn_read "{:a}" = None ∧ edn_read "" = None ∧ edn_read "{:a 1" = None.
Proof. split_and!; vm_compute; reflexivity. Qed.
Example C94_printed_example :
  let v := EMap [(EKw "units", ENum (CDec (Dec 100000 2))); (EStr "a b", ESet [ENum (CLong (-5)); EDate (Date 2024 2 29)])] in
  readable v ∧ pr v = "{:units 1000.00M, ""a b"" #{-5 #time/date ""2024-02-29""}}" ∧ without_regex v.
Proof.
  cbv zeta. split_and!; [|by vm_compute|by vm_compute].
  assert (H : begins_with (EMap [(EKw "units", ENum (CDec (Dec 100000 2))); (EStr "a b", ESet [ENum (CLong (-5)); EDate (Date 2024 2 29)])])
    "{:units 1000.00M, ""a b"" #{-5 #time/date ""2024-02-29""}}") by (apply edn_read_spec; by vm_compute).
  destruct H as (r&H). eapply forms_readable; [exact H|]. by vm_compute.
Qed.

(** * Plugins *)
Section Plugins.
Context {P S : Type} (env : server_env P S).
Context (jso : list json → list json) (jmo : list (string * json) → list (string * json)).
Context (Hjmo : ∀ l, jmo l ≡ₚ l).
Context (hs : nat → orders P) (sources : S).
Context (ns : string → option namespace) (other : edn → cval).
Context (code : nat → nat) (spec : bool → cval → bool) (so : list cval → list cval).
Context (p : parsed).
Notation load_beanfile := (load_beanfile env jso jmo (Healthy (inl p)) hs sources ns (edn_config other) code spec so).
Notation ask := (SystemModel.ask env jso jmo (Healthy (inl p)) hs sources).

Lemma plugin_get pl :
  named (decode None (put_plugin pl)) = ppl_module pl ∧
  vget "config" (decode None (put_plugin pl)) = Some (match ppl_config pl with Some s => VStr s | None => VNil end).
Proof. unfold named, put_plugin, or_null. rewrite !vget_decode. by destruct (ppl_config pl). Qed.
Lemma edn_config_some s : edn_config other (Some (VStr s)) = match edn_read s with Some ENil => Some None | Some v => Some (Some (default (other v) (to_cval v))) | None => None end.
Proof. done. Qed.
Lemma config_spec pl c : edn_config other (vget "config" (decode None (put_plugin pl))) = Some c → configured (ppl_config pl) c.
Proof.
  destruct (plugin_get pl) as [_ ->]. unfold configured. destruct (ppl_config pl) as [s|]; [|by intros [= <-]].
  rewrite edn_config_some. destruct (edn_read s) as [v|] eqn:E; [|done]. apply edn_read_spec in E. intros H. exists v. split; [done|].
  assert (v = ENil ∧ c = None ∨ v ≠ ENil ∧ c = Some (default (other v) (to_cval v))) as [[-> ->]|[Hv ->]].
  { destruct v; injection H as <-; auto. }
  - split; [done|]. by intros ?.
  - split; [done|]. intros _. eexists. split; [done|]. intros w Hw. apply to_cval_spec in Hw. by rewrite Hw.
Qed.
Lemma plugins_asked : result_of (ask [] RPlugins) = Some (VVec (decode None <$> (put_plugin <$> pa_plugins p))).
Proof using Hjmo. by rewrite (ask_plugins env jso jmo Hjmo). Qed.

(** Every plugin of a ledger which loads is given what the ledger has as its
    configuration. *)
Theorem C94_given m : load_beanfile = inr (Some m) → l_error m = None →
  Forall2 (plugin_of ns (l_options m)) (pa_plugins p) (l_plugins m).
Proof using Hjmo.
  intros Hl%(load_healthy env jso jmo Hjmo) He. pose proof plugins_asked as Hp.
  set (ps := decode None <$> (put_plugin <$> pa_plugins p)) in *.
  assert (Hu : Forall (usable ns (edn_config other) (result_of (ask [RPlugins] ROptions))) ps).
  { apply Forall_forall. intros q Hq.
    destruct (resolve_plugin_cases ns (edn_config other) (result_of (ask [RPlugins] ROptions)) q) as [[H _]|[H _]]; [done|exfalso].
    destruct (C68_reported ns (edn_config other) code spec so ask ps Hp) as (m'&bad&Hm'&He'&_); [by exists q|]. congruence. }
  destruct (C68_used ns (edn_config other) code spec so ask ps m Hp Hu Hl) as (_&H&_). unfold ps in H. rewrite <- list_fmap_compose, Forall2_fmap_l in H.
  eapply Forall2_impl; [exact H|]. intros pl q (Hn&Hq&n&c&Hns&Hc&Hr&Hb). cbn [compose] in *. destruct (plugin_get pl) as [E _]. rewrite E in *.
  split_and!; [done|done|]. exists n, c. split_and!; [done| |done|done]. by apply config_spec.
Qed.
(** If the configuration of a plugin is not the text of anything, the plugin is reported
    and the ledger is not loaded. *)
Theorem C94_refused pl s :
  pl ∈ pa_plugins p → ppl_config pl = Some s → (∀ v, ¬ begins_with v s) →
  ∃ m bad, load_beanfile = inr (Some m) ∧ l_error m = Some (LePlugins bad) ∧ ppl_module pl ∈ (pl_name <$> bad) ∧ l_asked m = [RPlugins; ROptions].
Proof using Hjmo.
  intros Hin Hc Hn. pose proof plugins_asked as Hp. set (ps := decode None <$> (put_plugin <$> pa_plugins p)) in *.
  assert (Hq : decode None (put_plugin pl) ∈ ps) by (unfold ps; by do 2 apply elem_of_list_fmap_1).
  assert (Hu : ¬ usable ns (edn_config other) (result_of (ask [RPlugins] ROptions)) (decode None (put_plugin pl))).
  { intros (n&c&_&_&H&_). destruct (plugin_get pl) as [_ E]. rewrite E, Hc, edn_config_some in H.
    destruct (edn_read s) as [v|] eqn:Es; [|done]. by apply edn_read_spec, Hn in Es. }
  destruct (C68_reported ns (edn_config other) code spec so ask ps Hp) as (m&bad&Hm&He&Ha&Hb); [by eexists|].
  exists m, bad. split_and!; [|done| |done].
  - unfold SystemModel.load_beanfile. rewrite (start_healthy env jso jmo Hjmo). by rewrite Hm.
  - apply Hb. exists (decode None (put_plugin pl)). split_and!; [done| |done]. apply plugin_get.
Qed.
End Plugins.
Print Assumptions C94_given.
Print Assumptions C94_refused.

(** A plugin which takes one configuration only, and a ledger which has it, written with
    a comment; with any other, or with none, the ledger is not loaded. *)
Definition picky : xf_fn := λ c _,
  match c with
  | Some (VMap [("phase", VKw "raw"); ("accs", VSet [VStr "Assets:Bank:Current"]); ("units", VNum (CDec d))]) =>
      if bool_decide (d = Dec (-50) 2) then Some None else None
  | _ => None
  end.
Definition picky_ns (name : string) : option namespace :=
  if String.eqb name "my.test-plugin" then Some (Namespace None (Some picky)) else None.
Definition picky_parsed (config : option string) : parsed :=
  Parsed (pa_directives (sample_parsed true)) (pa_options (sample_parsed true)) [PPlugin "my.test_plugin" config].
Definition picky_load (config : option string) : option cval + option loaded :=
  load_beanfile sample_env id id (Healthy (inl (picky_parsed config))) (λ _, sample_orders) sample_start picky_ns (edn_config (λ _, VThrow)) id (λ _ _, true) id.
Definition how_loaded (x : option cval + option loaded) : option (list string) :=
  match x with inr (Some m) => match l_error m with None => Some [] | Some (LePlugins bad) => Some (pl_name <$> bad) | _ => None end | _ => None end.
Example C94_example :
  how_loaded (picky_load (Some "{:phase :raw, ; when
  :accs #{""Assets:Bank:Current""} :units -0.50M}")) = Some [] ∧
  how_loaded (picky_load (Some "{:phase :raw, :accs #{""Assets:Bank:Current""} :units -0.5M}")) = Some ["my.test_plugin"] ∧
  how_loaded (picky_load None) = Some ["my.test_plugin"] ∧
  how_loaded (picky_load (Some "{:phase")) = Some ["my.test_plugin"] ∧
  (∀ v, ¬ begins_with v "{:phase").
Proof. split_and!; try (vm_compute; reflexivity). intros v H. apply edn_read_spec in H. by vm_compute in H. Qed.
