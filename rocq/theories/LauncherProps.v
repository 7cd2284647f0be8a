(** The launcher.  [sys] is the environment of the process, [bld] what was fixed
    when it was built. *)
From Coq Require Import Ascii.
From stdpp Require Import prelude strings.
From Verif Require Import LauncherModel LauncherSpec LauncherFacts.
Local Open Scope nat_scope.

(** A set-up: a local checkout, user dependencies, every byte string below 128 is
    text. *)
Definition sample_var (k : string) : option string :=
  if String.eqb k "LIMABEAN_CLJ_LOCAL_ROOT" then Some "/src/limabean"
  else if String.eqb k "LIMABEAN_CLJ_DEPS" then Some "a/b {:mvn/version 1}" else None.
Fixpoint ascii_only (s : string) : bool :=
  match s with "" => true | String (Ascii _ _ _ _ _ _ _ b) r => negb b && ascii_only r end.
Definition sample_os : os :=
  Os sample_var ascii_only
     (λ p, if String.eqb p "java" then Some (true, "openjdk 21", "") else None)
     (λ p, Some (String.eqb p "/lib/limabean.jar")).
Definition jar_os : os :=
  Os (λ k, if String.eqb k "LIMABEAN_CLJ_DEPS" then Some "a/b {:mvn/version 1}" else None) ascii_only
     (os_version sample_os) (os_exists sample_os).
Definition sample_build : build := Build (Some "/lib/limabean.jar") "0.1.0".

(** ** C34: arguments are passed through *)

(** What comes before the user's arguments does not depend on them. *)
Theorem C34_arguments_passed_through :
  ∀ sys bld, ∃ program before, ∀ name rest,
    texts sys (name :: rest) → head rest ≠ Some "health" →
    ef_ending (main sys bld (name :: rest)) = Runs program (before ++ rest).
Proof. exact passed_through. Qed.
Print Assumptions C34_arguments_passed_through.

Theorem C34_panics_only_on_non_text :
  ∀ sys bld args, ef_ending (main sys bld args) = Panics ↔ args = [] ∨ ¬ texts sys args.
Proof. exact panics_when. Qed.
Print Assumptions C34_panics_only_on_non_text.

Theorem C34_version_line :
  ∀ sys bld name rest,
    texts sys (name :: rest) → head rest ≠ Some "health" →
    ef_stdout (main sys bld (name :: rest)) =
    if decide ("--version" ∈ rest) then ["limabean.rs  " +:+ b_version bld] else [].
Proof. exact version_line. Qed.
Print Assumptions C34_version_line.

(** When asked to, it shows the command which it then starts, and no other. *)
Theorem C34_command_shown :
  ∀ sys bld name rest program argv,
    texts sys (name :: rest) → head rest ≠ Some "health" →
    (ef_shown (main sys bld (name :: rest)) = Some (program, argv) ↔
     ("-v" ∈ rest ∨ "--verbose" ∈ rest) ∧ ef_ending (main sys bld (name :: rest)) = Runs program argv).
Proof. exact command_shown. Qed.
Print Assumptions C34_command_shown.

Example C34_example :
  texts sample_os ["limabean"; "--beanfile"; "health"; "-v"] ∧
  ef_ending (main sample_os sample_build ["limabean"; "--beanfile"; "health"; "-v"]) =
  Runs "clojure"
    ["-J--enable-native-access=ALL-UNNAMED"; "-Sdeps";
     "{:deps {io.github.tesujimath/limabean {:local/root " +:+ quoted "/src/limabean" +:+ "} a/b {:mvn/version 1}}}";
     "-M"; "-m"; "limabean.main"; "--beanfile"; "health"; "-v"].
Proof. split; [repeat constructor|vm_compute; reflexivity]. Qed.

(** ** C35: where limabean comes from *)

Theorem C35_one_origin : ∀ sys bld, ∃ o, origin_of sys bld o ∧ ∀ o', origin_of sys bld o' → o' = o.
Proof. exact one_origin. Qed.
Print Assumptions C35_one_origin.

Theorem C35_origin_started :
  ∀ sys bld o program before,
    origin_of sys bld o → starts sys o program before →
    ∀ name rest, texts sys (name :: rest) → head rest ≠ Some "health" →
      ef_ending (main sys bld (name :: rest)) = Runs program (before ++ rest).
Proof. exact chosen_runtime. Qed.
Print Assumptions C35_origin_started.

Theorem C35_every_origin_starts : ∀ sys o, ∃ program before, starts sys o program before.
Proof. exact starts_exists. Qed.
Print Assumptions C35_every_origin_starts.

(** User dependencies which are ignored are warned about, and nothing else is. *)
Theorem C35_ignored_dependencies_warned :
  ∀ sys bld o name rest,
    origin_of sys bld o → texts sys (name :: rest) → head rest ≠ Some "health" →
    (ef_stderr (main sys bld (name :: rest)) = [] ↔ ¬ (from_jar o = true ∧ is_set sys "LIMABEAN_CLJ_DEPS")).
Proof. exact warning_given. Qed.
Print Assumptions C35_ignored_dependencies_warned.

Example C35_example :
  origin_of sample_os sample_build (LocalCheckout "/src/limabean") ∧
  origin_of jar_os sample_build (BundledJar "/lib/limabean.jar") ∧
  ef_stderr (main jar_os sample_build ["limabean"]) = [warning_text] ∧
  ef_ending (main jar_os sample_build ["limabean"; "x"]) =
  Runs "java" ["--enable-native-access=ALL-UNNAMED"; "-jar"; "/lib/limabean.jar"; "x"].
Proof.
  split; [by constructor|]. split.
  - apply from_bundled; [..|done]; intros (v & H & _); done.
  - split; vm_compute; reflexivity.
Qed.

(** ** C63: the path of a local checkout reaches Clojure unchanged *)

(** The full claim is [∀ dir r, edn_string (dir +:+ String """" r) = Some (dir, r)]:
    the literal which [C35_origin_started] shows to be written is read back as the
    path. *)
Theorem C63_refuted : ∃ dir r, edn_string (dir +:+ String """" r) ≠ Some (dir, r).
Proof. exists "C:\new", "}". vm_compute. discriminate. Qed.
Print Assumptions C63_refuted.

(** It holds for exactly the paths without double quotes and backslashes. *)
Theorem C63_plain_paths_partial :
  ∀ dir r, edn_string (dir +:+ String """" r) = Some (dir, r) ↔ plain dir = true.
Proof. exact edn_reads_back. Qed.
Print Assumptions C63_plain_paths_partial.

Example C63_example :
  plain "/src/lima bean" = true ∧ edn_string ("C:\new" +:+ quoted "") = Some (String "C" (String ":" (String "010" "ew")), dquote).
Proof. split; vm_compute; reflexivity. Qed.

(** ** C64: the health sub-command *)

(** It never starts limabean; status 0 is given just when the runtime is there. *)
Theorem C64_health_status :
  ∀ sys bld o name rest,
    origin_of sys bld o → texts sys (name :: "health" :: rest) →
    ∃ n, ef_ending (main sys bld (name :: "health" :: rest)) = Exits n ∧ (n = 0 ↔ able sys o) ∧ (n = 0 ∨ n = 1).
Proof. exact health_status. Qed.
Print Assumptions C64_health_status.

(** The last which it writes tells what was found or what is missing. *)
Theorem C64_told :
  ∀ sys bld o name rest,
    origin_of sys bld o → texts sys (name :: "health" :: rest) →
    last (ef_stderr (main sys bld (name :: "health" :: rest))) = Some (told sys o).
Proof. exact health_told. Qed.
Print Assumptions C64_told.

Example C64_told_example :
  ef_stderr (main jar_os sample_build ["limabean"; "health"]) = [warning_text; "java: openjdk 21"; "uberjar /lib/limabean.jar"] ∧
  told jar_os (BundledJar "/lib/limabean.jar") = "uberjar /lib/limabean.jar" ∧
  told sample_os (LocalCheckout "/src/limabean") = "limabean can't find clojure: ".
Proof. by vm_compute. Qed.
Example C64_example :
  able jar_os (BundledJar "/lib/limabean.jar") ∧
  ef_ending (main jar_os sample_build ["limabean"; "health"]) = Exits 0 ∧
  ¬ able sample_os (LocalCheckout "/src/limabean") ∧
  ef_ending (main sample_os sample_build ["limabean"; "health"]) = Exits 1.
Proof.
  split; [|split; [vm_compute; reflexivity|split; [|vm_compute; reflexivity]]].
  - split; [|done]. by do 2 eexists.
  - by intros [x H].
Qed.
