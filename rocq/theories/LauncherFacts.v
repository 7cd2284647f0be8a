(** Proofs about the launcher. *)
From Coq Require Import Ascii.
From stdpp Require Import prelude strings.
From Verif Require Import LauncherModel LauncherSpec.

Section Facts.
Context (sys : os) (bld : build).
Implicit Types (k v : string) (args rest : list string).

Lemma var_Some k v : var sys k = Some v ↔ set_to sys k v.
Proof.
  unfold var, set_to. destruct (os_var sys k) as [w|]; [|by split; [|intros []]].
  destruct (os_utf8 sys w) eqn:E; split.
  - by intros [= ->].
  - by intros [[= ->] _].
  - done.
  - intros [[= ->] ?]. congruence.
Qed.
Lemma var_None k : var sys k = None ↔ ¬ is_set sys k.
Proof.
  split.
  - intros H [v Hv%var_Some]. congruence.
  - intros H. destruct (var sys k) as [v|] eqn:E; [|done]. destruct H. exists v. by apply var_Some.
Qed.

Lemma append_assoc (a b c : string) : (a +:+ b) +:+ c = a +:+ (b +:+ c).
Proof. induction a as [|x a IH]; [done|]. unfold String.append in *. simpl. by rewrite IH. Qed.
Lemma append_nil (a : string) : a +:+ "" = a.
Proof. induction a as [|x a IH]; [done|]. unfold String.append in *. simpl. by rewrite IH. Qed.
Lemma quoted_eq s r : dquote +:+ s +:+ dquote +:+ r = quoted s +:+ r.
Proof.
  unfold quoted, dquote. change (String """" "" +:+ ?x) with (String """" x).
  change (String """" ?x +:+ r) with (String """" (x +:+ r)). by rewrite append_assoc.
Qed.

Lemma deps_text (h t v extra tail : string) :
  h +:+ (t +:+ dquote +:+ v +:+ dquote +:+ "}" +:+ extra) +:+ tail =
  h +:+ (t +:+ quoted v +:+ "}") +:+ extra +:+ tail.
Proof. by rewrite quoted_eq, !append_assoc. Qed.

(** The origin is determined, and there always is one. *)
Lemma origin_exists : ∃ o, origin_of sys bld o.
Proof.
  destruct (var sys "LIMABEAN_CLJ_LOCAL_ROOT") as [d|] eqn:E1.
  { exists (LocalCheckout d). constructor. by apply var_Some. }
  apply var_None in E1. destruct (var sys "LIMABEAN_UBERJAR") as [d|] eqn:E2.
  { exists (NamedJar d). constructor; [done|]. by apply var_Some. }
  apply var_None in E2. destruct (b_uberjar bld) eqn:E3; eexists; by constructor.
Qed.
Lemma set_to_inj k v v' : set_to sys k v → set_to sys k v' → v = v'.
Proof. unfold set_to. naive_solver. Qed.
Lemma set_to_is k v : set_to sys k v → is_set sys k.
Proof. intros ?. by exists v. Qed.
Lemma origin_unique o o' : origin_of sys bld o → origin_of sys bld o' → o = o'.
Proof.
  intros [] []; try done; try (exfalso; eauto using set_to_is; done); f_equal; eauto using set_to_inj.
  all: congruence.
Qed.

Definition warn_of (o : origin) : list string :=
  if from_jar o then match var sys "LIMABEAN_CLJ_DEPS" with Some _ => [warning_text] | None => [] end else [].

Lemma extra_default extra : extra_text sys extra →
  default "" ((λ s, " " +:+ s) <$> var sys LIMABEAN_CLJ_DEPS) = extra.
Proof.
  intros [d Hd|Hn].
  - apply var_Some in Hd. unfold LIMABEAN_CLJ_DEPS. by rewrite Hd.
  - apply var_None in Hn. unfold LIMABEAN_CLJ_DEPS. by rewrite Hn.
Qed.

Lemma from_env_command o p pre :
  origin_of sys bld o → starts sys o p pre →
  (∀ rest, command (fst (from_env sys bld)) rest = (p, pre ++ rest)) ∧ snd (from_env sys bld) = warn_of o.
Proof.
  intros Ho Hs. unfold from_env, warn_of. destruct Ho; inversion Hs; subst; clear Hs; cbn zeta.
  - apply var_Some in H. unfold LIMABEAN_CLJ_LOCAL_ROOT. rewrite H. cbn [fst snd from_jar]. split; [|done].
    intros rest. rewrite (extra_default _ ltac:(eassumption)). unfold clojure, command, clojure_args, JVM_OPTIONS.
    cbn [fmap list_fmap app]. by rewrite deps_text.
  - apply var_None in H. apply var_Some in H0. unfold LIMABEAN_CLJ_LOCAL_ROOT, LIMABEAN_UBERJAR.
    rewrite H, H0. cbn [fst snd from_jar]. split; [done|]. unfold LIMABEAN_CLJ_DEPS. by destruct (var _ "LIMABEAN_CLJ_DEPS").
  - apply var_None in H, H0. unfold LIMABEAN_CLJ_LOCAL_ROOT, LIMABEAN_UBERJAR.
    rewrite H, H0, H1. cbn [fst snd from_jar]. split; [done|]. unfold LIMABEAN_CLJ_DEPS. by destruct (var _ "LIMABEAN_CLJ_DEPS").
  - apply var_None in H, H0. unfold LIMABEAN_CLJ_LOCAL_ROOT, LIMABEAN_UBERJAR.
    rewrite H, H0, H1. cbn [fst snd from_jar]. split; [|done].
    intros rest. rewrite (extra_default _ ltac:(eassumption)). unfold clojure, command, clojure_args, JVM_OPTIONS.
    cbn [fmap list_fmap app]. by rewrite deps_text.
Qed.

Lemma starts_exists o : ∃ p pre, starts sys o p pre.
Proof.
  assert (∃ e, extra_text sys e) as [e He].
  { destruct (var sys "LIMABEAN_CLJ_DEPS") as [d|] eqn:E; eexists.
    - apply extra_some. by apply var_Some.
    - apply extra_none. by apply var_None. }
  destruct o; do 2 eexists; by constructor.
Qed.

Lemma texts_forallb args : texts sys args ↔ forallb (os_utf8 sys) args = true.
Proof.
  unfold texts. rewrite forallb_forall, Forall_forall. setoid_rewrite elem_of_list_In. done.
Qed.

Lemma main_runs name rest :
  texts sys (name :: rest) → head rest ≠ Some "health" →
  main sys bld (name :: rest) =
  Effect (if existsb (String.eqb "--version") rest then ["limabean.rs  " +:+ b_version bld] else [])
         (snd (from_env sys bld))
         (if existsb (λ a, String.eqb a "-v" || String.eqb a "--verbose") rest
          then Some (command (fst (from_env sys bld)) rest) else None)
         (Runs (fst (command (fst (from_env sys bld)) rest)) (snd (command (fst (from_env sys bld)) rest))).
Proof.
  intros Ht%texts_forallb Hh. unfold main, run. destruct (from_env sys bld) as [r w]. cbn [fst snd].
  rewrite Ht. destruct (command r rest) as [p av] eqn:E. cbn [fst snd].
  change ((name :: rest) !! 1) with (rest !! 0).
  assert (∀ (A : Type) (x y : A), match rest !! 0 with Some "health" => x | _ => y end = y) as Hm.
  { intros A x y. destruct rest as [|s rest]; [done|]. cbn.
    destruct (String.eqb_spec s "health") as [->|Hn]; [done|].
    do 6 (destruct s as [|[[] [] [] [] [] [] [] []] s]; try done).
    destruct s; done. }
  by rewrite Hm.
Qed.

Lemma main_health name rest :
  texts sys (name :: "health" :: rest) →
  main sys bld (name :: "health" :: rest) =
  Effect [] (snd (from_env sys bld) ++ fst (check sys (fst (from_env sys bld)))) None (snd (check sys (fst (from_env sys bld)))).
Proof.
  intros Ht%texts_forallb. unfold main. destruct (from_env sys bld) as [r w]. rewrite Ht. cbn.
  by destruct (check sys r).
Qed.

Lemma existsb_version rest : existsb (String.eqb "--version") rest = true ↔ "--version" ∈ rest.
Proof.
  rewrite existsb_exists. setoid_rewrite String.eqb_eq. setoid_rewrite <- elem_of_list_In. naive_solver.
Qed.

(** C34 *)
Lemma passed_through :
  ∃ program before, ∀ name rest,
    texts sys (name :: rest) → head rest ≠ Some "health" →
    ef_ending (main sys bld (name :: rest)) = Runs program (before ++ rest).
Proof.
  destruct origin_exists as [o Ho]. destruct (starts_exists o) as (p & pre & Hs).
  destruct (from_env_command _ _ _ Ho Hs) as [Hc _].
  exists p, pre. intros name rest Ht Hh. rewrite main_runs by done. by rewrite Hc.
Qed.

Lemma version_line name rest :
  texts sys (name :: rest) → head rest ≠ Some "health" →
  ef_stdout (main sys bld (name :: rest)) =
  if decide ("--version" ∈ rest) then ["limabean.rs  " +:+ b_version bld] else [].
Proof.
  intros. rewrite main_runs by done. cbn [ef_stdout]. destruct (decide _) as [E|E].
  - by rewrite (proj2 (existsb_version _) E).
  - destruct (existsb _ rest) eqn:Ex; [|done]. by apply existsb_version in Ex.
Qed.

Lemma existsb_verbose rest :
  existsb (λ a, String.eqb a "-v" || String.eqb a "--verbose") rest = true ↔ "-v" ∈ rest ∨ "--verbose" ∈ rest.
Proof.
  rewrite existsb_exists. setoid_rewrite orb_true_iff. setoid_rewrite String.eqb_eq. setoid_rewrite <- elem_of_list_In. naive_solver.
Qed.
Lemma command_shown name rest program argv :
  texts sys (name :: rest) → head rest ≠ Some "health" →
  (ef_shown (main sys bld (name :: rest)) = Some (program, argv) ↔
   ("-v" ∈ rest ∨ "--verbose" ∈ rest) ∧ ef_ending (main sys bld (name :: rest)) = Runs program argv).
Proof.
  intros. rewrite main_runs by done. cbn [ef_shown ef_ending]. rewrite <- existsb_verbose.
  destruct (command _ rest) as [p av]. cbn [fst snd]. destruct (existsb _ rest); naive_solver.
Qed.

Lemma panics_when args : ef_ending (main sys bld args) = Panics ↔ args = [] ∨ ¬ texts sys args.
Proof.
  split.
  - intros H. destruct (forallb (os_utf8 sys) args) eqn:E.
    + left. destruct args as [|name rest]; [done|]. exfalso.
      assert (texts sys (name :: rest)) as Ht by by apply texts_forallb.
      destruct (decide (head rest = Some "health")) as [Hh|Hh].
      * destruct rest as [|s rest]; [done|]. cbn in Hh. injection Hh as ->.
        rewrite main_health in H by done. cbn [ef_ending] in H.
        destruct (fst (from_env sys bld)); cbn in H.
        -- unfold check_java, java_health in H. repeat case_match; cbn in H; try done; naive_solver.
        -- unfold check_clojure, clojure_health in H. repeat case_match; cbn in H; try done; naive_solver.
      * by rewrite main_runs in H.
    + right. intros Ht%texts_forallb. congruence.
  - unfold main. destruct (from_env sys bld) as [r w]. intros [->|H]; [done|].
    destruct (forallb (os_utf8 sys) args) eqn:E; [|done]. by apply texts_forallb in E.
Qed.

(** C35 *)
Lemma chosen_runtime o program before :
  origin_of sys bld o → starts sys o program before →
  ∀ name rest, texts sys (name :: rest) → head rest ≠ Some "health" →
    ef_ending (main sys bld (name :: rest)) = Runs program (before ++ rest).
Proof.
  intros Ho Hs name rest Ht Hh. destruct (from_env_command _ _ _ Ho Hs) as [Hc _].
  rewrite main_runs by done. by rewrite Hc.
Qed.
Lemma one_origin : ∃ o, origin_of sys bld o ∧ ∀ o', origin_of sys bld o' → o' = o.
Proof. destruct origin_exists as [o Ho]. exists o. split; [done|]. eauto using origin_unique. Qed.

Lemma warning_given o name rest :
  origin_of sys bld o → texts sys (name :: rest) → head rest ≠ Some "health" →
  (ef_stderr (main sys bld (name :: rest)) = [] ↔ ¬ (from_jar o = true ∧ is_set sys "LIMABEAN_CLJ_DEPS")).
Proof.
  intros Ho Ht Hh. destruct (starts_exists o) as (p & pre & Hs).
  destruct (from_env_command _ _ _ Ho Hs) as [_ Hw].
  rewrite main_runs by done. cbn [ef_stderr]. rewrite Hw. unfold warn_of.
  destruct (from_jar o); [|naive_solver].
  destruct (var sys "LIMABEAN_CLJ_DEPS") as [d|] eqn:E.
  - split; [done|]. intros []. split; [done|]. exists d. by apply var_Some.
  - apply var_None in E. naive_solver.
Qed.

(** C64 *)
Lemma from_env_kind o : origin_of sys bld o →
  match o with
  | NamedJar jar | BundledJar jar => fst (from_env sys bld) = Java jar
  | _ => ∃ d, fst (from_env sys bld) = Clojure d
  end.
Proof.
  unfold from_env. unfold LIMABEAN_CLJ_LOCAL_ROOT, LIMABEAN_UBERJAR. intros [].
  - apply var_Some in H. rewrite H. by eexists.
  - apply var_None in H. apply var_Some in H0. by rewrite H, H0.
  - apply var_None in H, H0. by rewrite H, H0, H1.
  - apply var_None in H, H0. rewrite H, H0, H1. by eexists.
Qed.
Lemma health_status o name rest :
  origin_of sys bld o → texts sys (name :: "health" :: rest) →
  ∃ n, ef_ending (main sys bld (name :: "health" :: rest)) = Exits n ∧ (n = 0 ↔ able sys o) ∧ (n = 0 ∨ n = 1).
Proof.
  intros Ho Ht. rewrite main_health by done. cbn [ef_ending].
  pose proof (from_env_kind _ Ho) as Hk.
  assert (∀ d, ∃ n, snd (check sys (Clojure d)) = Exits n ∧ (n = 0 ↔ ∃ x, os_version sys "clojure" = Some x) ∧ (n = 0 ∨ n = 1)) as Hc.
  { intros d. cbn. unfold check_clojure, clojure_health.
    destruct (os_version sys "clojure") as [[[ok out] err]|]; eexists; (split; [done|]); naive_solver. }
  assert (∀ jar, ∃ n, snd (check sys (Java jar)) = Exits n ∧
     (n = 0 ↔ (∃ out err, os_version sys "java" = Some (true, out, err)) ∧ os_exists sys jar = Some true) ∧ (n = 0 ∨ n = 1)) as Hj.
  { intros jar. cbn. unfold check_java, java_health.
    destruct (os_version sys "java") as [[[[] out] err]|].
    - destruct (os_exists sys jar) as [[]|]; eexists; (split; [done|]); naive_solver.
    - eexists; split; [done|]. naive_solver.
    - eexists; split; [done|]. naive_solver. }
  destruct o; cbn [able].
  - destruct Hk as [d ->]. apply Hc.
  - rewrite Hk. apply Hj.
  - rewrite Hk. apply Hj.
  - destruct Hk as [d ->]. apply Hc.
Qed.
Lemma health_told o name rest :
  origin_of sys bld o → texts sys (name :: "health" :: rest) →
  last (ef_stderr (main sys bld (name :: "health" :: rest))) = Some (told sys o).
Proof.
  intros Ho Ht. rewrite main_health by done. cbn [ef_stderr].
  pose proof (from_env_kind _ Ho) as Hk.
  assert (∀ (w l : list string) x, last l = Some x → last (w ++ l) = Some x) as Hl.
  { intros w l x H. by rewrite last_app, H. }
  apply Hl. destruct o; cbn [told].
  1, 4: destruct Hk as [d ->]; cbn; unfold check_clojure, clojure_health; by destruct (os_version sys "clojure") as [[[ok out] err]|].
  all: rewrite Hk; cbn; unfold check_java, java_health; destruct (os_version sys "java") as [[[[] out] err]|]; [|done..];
    by destruct (os_exists sys _) as [[]|].
Qed.
End Facts.

(** C63 *)
Lemma edn_cons_plain c r :
  Ascii.eqb c """" = false → Ascii.eqb c "\" = false →
  edn_string (String c r) = match edn_string r with Some (v, r') => Some (String c v, r') | None => None end.
Proof. intros H1 H2. destruct c as [[] [] [] [] [] [] [] []]; try done. Qed.

Lemma edn_length s v r : edn_string s = Some (v, r) → String.length v + String.length r + 1 ≤ String.length s.
Proof.
  revert v r. induction s as [s IH] using (induction_ltof1 _ String.length); unfold ltof in IH.
  intros v r. destruct s as [|c s]; [done|].
  destruct (Ascii.eqb c """") eqn:E1.
  { apply Ascii.eqb_eq in E1 as ->. cbn. intros [= <- <-]. cbn. lia. }
  destruct (Ascii.eqb c "\") eqn:E2.
  { apply Ascii.eqb_eq in E2 as ->. destruct s as [|c s]; [done|].
    intros H. assert (∃ e v', v = String e v' ∧ edn_string s = Some (v', r)) as (e & v' & -> & H').
    { cbn [edn_string] in H. destruct (edn_string s) as [[v' r']|] eqn:Es; [|by repeat case_match].
      repeat case_match; simplify_eq; eauto. }
    apply IH in H'; cbn in *; lia. }
  rewrite edn_cons_plain by done. destruct (edn_string s) as [[v' r']|] eqn:Es; [|done].
  intros [= <- <-]. apply IH in Es; cbn in *; lia.
Qed.

Lemma string_app_length (a b : string) : String.length (a +:+ b) = String.length a + String.length b.
Proof. induction a as [|x a IH]; [done|]. unfold String.append in *. simpl. by rewrite IH. Qed.

Lemma edn_reads_back p r : edn_string (p +:+ String """" r) = Some (p, r) ↔ plain p = true.
Proof.
  induction p as [|c p IH]; [done|].
  change (String c p +:+ ?x) with (String c (p +:+ x)). cbn [plain].
  destruct (Ascii.eqb c """") eqn:E1.
  { apply Ascii.eqb_eq in E1 as ->. cbn. split; [|done]. intros [=]. }
  destruct (Ascii.eqb c "\") eqn:E2.
  { apply Ascii.eqb_eq in E2 as ->. cbn [negb andb]. split; [|done]. intros H. exfalso.
    destruct p as [|c p].
    - change ("" +:+ ?x) with x in H. cbn in H. repeat case_match; simplify_eq.
    - change (String c p +:+ ?x) with (String c (p +:+ x)) in H.
      assert (∃ v', edn_string (p +:+ String """" r) = Some (v', r) ∧ String.length v' = Datatypes.S (String.length p)) as (v' & H' & Hl).
      { cbn [edn_string] in H. destruct (edn_string (p +:+ _)) as [[v' r']|] eqn:Es; [|by repeat case_match].
        exists v'. repeat case_match; simplify_eq; split; done. }
      apply edn_length in H'. rewrite string_app_length in H'. cbn in H'. lia. }
  rewrite edn_cons_plain by done. cbn [negb andb]. rewrite <- IH.
  destruct (edn_string (p +:+ _)) as [[v' r']|]; naive_solver.
Qed.
