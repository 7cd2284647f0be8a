(** Model of the launcher: [rust/src/bin/limabean/main.rs], [run.rs] and
    [health.rs].

    The process environment is a function from names to values; arguments and
    values are byte strings, of which [utf8] says whether they are text.
    Simplifications: logging set up at main.rs:4-7 is left out, and so is the text
    which [Debug for Command] prints at run.rs:126. *)
From Coq Require Import Ascii.
From stdpp Require Import prelude strings.

(** run.rs:3-6. *)
Inductive runtime := Java (uberjar : string) | Clojure (deps : string).

(** run.rs:8-10. *)
Definition LIMABEAN_CLJ_LOCAL_ROOT : string := "LIMABEAN_CLJ_LOCAL_ROOT".
Definition LIMABEAN_CLJ_DEPS : string := "LIMABEAN_CLJ_DEPS".
Definition LIMABEAN_UBERJAR : string := "LIMABEAN_UBERJAR".

(** run.rs:15-17. *)
Definition JVM_OPTIONS : list string := ["--enable-native-access=ALL-UNNAMED"].

(** run.rs:19-24. *)
Definition warning_text : string :=
  "warning: " +:+ LIMABEAN_CLJ_DEPS +:+ " not supported when running from uberjar - ignored".

Definition dquote : string := String """" "".

(** What the operating system offers. *)
Record os := Os {
  os_var : string → option string;
  os_utf8 : string → bool;
  (** running a program with [--version]: [None] if it cannot be started, else
      whether it succeeded, its output and its error output *)
  os_version : string → option (bool * string * string);
  (** [Path::try_exists]; [None] is an error *)
  os_exists : string → option bool }.

(** Fixed when the launcher was built, run.rs:11-12. *)
Record build := Build { b_uberjar : option string; b_version : string }.

Section Launcher.
Context (sys : os) (bld : build).

(** [std::env::var]: an error if the variable is not set or not text. *)
Definition var (k : string) : option string :=
  match os_var sys k with Some v => if os_utf8 sys v then Some v else None | None => None end.

(** run.rs:27-32. *)
Definition clojure (coord : string) : runtime :=
  Clojure ("{:deps {io.github.tesujimath/limabean " +:+ coord +:+ "}}").

(** run.rs:38-64 [from_env]; the list is what is printed as warnings. *)
Definition from_env : runtime * list string :=
  let extra_deps := (λ s, " " +:+ s) <$> var LIMABEAN_CLJ_DEPS in
  let warn := match extra_deps with Some _ => [warning_text] | None => [] end in
  match var LIMABEAN_CLJ_LOCAL_ROOT with
  | Some local_root =>
      (clojure ("{:local/root " +:+ dquote +:+ local_root +:+ dquote +:+ "}" +:+ default "" extra_deps), [])
  | None =>
      match var LIMABEAN_UBERJAR with
      | Some uberjar => (Java uberjar, warn)
      | None =>
          match b_uberjar bld with
          | Some uberjar => (Java uberjar, warn)
          | None => (clojure ("{:mvn/version " +:+ dquote +:+ b_version bld +:+ dquote +:+ "}" +:+ default "" extra_deps), [])
          end
      end
  end.

(** run.rs:66-98 [command]: program and arguments. *)
Definition command (r : runtime) (args : list string) : string * list string :=
  match r with
  | Java uberjar => ("java", JVM_OPTIONS ++ ["-jar"; uberjar] ++ args)
  | Clojure deps =>
      ("clojure", ((λ o, "-J" +:+ o) <$> JVM_OPTIONS) ++ ["-Sdeps"; deps] ++ ["-M"; "-m"; "limabean.main"] ++ args)
  end.

(** How the launcher ends: another program takes its place ([exec], run.rs:101-113;
    if that fails the status is 1), it exits, or panics. *)
Inductive ending :=
| Runs (program : string) (args : list string)
| Exits (status : nat)
| Panics.
(** What it printed before, which command it printed after that, and how it ended. *)
Record effect := Effect {
  ef_stdout : list string; ef_stderr : list string; ef_shown : option (string * list string); ef_ending : ending }.

(** run.rs:115-130 [run]. *)
Definition run (r : runtime) (args : list string) : list string * option (string * list string) * ending :=
  let verbose := existsb (λ a, String.eqb a "-v" || String.eqb a "--verbose") args in
  let version := existsb (String.eqb "--version") args in
  let '(program, argv) := command r args in
  (if version then ["limabean.rs  " +:+ b_version bld] else [], if verbose then Some (program, argv) else None, Runs program argv).

(** health.rs:38-47 [clojure_health], health.rs:79-96 [java_health]; true is
    good.  Line breaks in the description are not replaced here. *)
Definition clojure_health : bool * string :=
  match os_version sys "clojure" with
  | Some (_, out, _) => (true, "clojure: " +:+ out)
  | None => (false, "can't find clojure: ")
  end.
Definition java_health : bool * string :=
  match os_version sys "java" with
  | Some (ok, out, err) => if ok : bool then (true, "java: " +:+ out) else (false, "java: " +:+ err)
  | None => (false, "can't find java: ")
  end.

(** health.rs:24-36, 49-77 [check_clojure], [check_java]. *)
Definition check_clojure : list string * ending :=
  let '(good, text) := clojure_health in
  if good : bool then ([text], Exits 0) else (["limabean " +:+ text], Exits 1).
Definition check_java (uberjar : string) : list string * ending :=
  let '(good, text) := java_health in
  if good : bool then
    match os_exists sys uberjar with
    | Some false => ([text; "uberjar " +:+ uberjar +:+ " not found"], Exits 1)
    | Some true => ([text; "uberjar " +:+ uberjar], Exits 0)
    | None => ([text; "uberjar " +:+ uberjar +:+ " not found: "], Exits 1)
    end
  else (["limabean " +:+ text], Exits 1).
(** health.rs:11-22 [check], with [verbose] as at main.rs:13. *)
Definition check (r : runtime) : list string * ending :=
  match r with Java uberjar => check_java uberjar | Clojure _ => check_clojure end.

(** main.rs:3-17 [main]; [std::env::args] panics on arguments which are not text,
    and the slice panics if there is not even a program name. *)
Definition main (args : list string) : effect :=
  let '(r, warnings) := from_env in
  if forallb (os_utf8 sys) args then
    match args !! 1 with
    | Some "health" => let '(err, e) := check r in Effect [] (warnings ++ err) None e
    | _ =>
        match args with
        | [] => Effect [] warnings None Panics
        | _ :: rest =>
            let '(out, shown, e) := run r rest in Effect out warnings shown e
        end
    end
  else Effect [] warnings None Panics.
End Launcher.
