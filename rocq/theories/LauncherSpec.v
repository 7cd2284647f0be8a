(** What is expected of the launcher, said without its functions. *)
From Coq Require Import Ascii.
From stdpp Require Import prelude strings.
From Verif Require Import LauncherModel.

(** Variable [k] is set, to text. *)
Definition set_to (sys : os) (k v : string) : Prop := os_var sys k = Some v ∧ os_utf8 sys v = true.
Definition is_set (sys : os) (k : string) : Prop := ∃ v, set_to sys k v.

(** The four places limabean can come from, in the order in which they are
    preferred. *)
Inductive origin := LocalCheckout (dir : string) | NamedJar (jar : string)
                  | BundledJar (jar : string) | Published (version : string).
Inductive origin_of (sys : os) (bld : build) : origin → Prop :=
| from_checkout dir : set_to sys "LIMABEAN_CLJ_LOCAL_ROOT" dir → origin_of sys bld (LocalCheckout dir)
| from_named jar :
    ¬ is_set sys "LIMABEAN_CLJ_LOCAL_ROOT" → set_to sys "LIMABEAN_UBERJAR" jar →
    origin_of sys bld (NamedJar jar)
| from_bundled jar :
    ¬ is_set sys "LIMABEAN_CLJ_LOCAL_ROOT" → ¬ is_set sys "LIMABEAN_UBERJAR" → b_uberjar bld = Some jar →
    origin_of sys bld (BundledJar jar)
| from_published :
    ¬ is_set sys "LIMABEAN_CLJ_LOCAL_ROOT" → ¬ is_set sys "LIMABEAN_UBERJAR" → b_uberjar bld = None →
    origin_of sys bld (Published (b_version bld)).

(** The user's own dependencies as they appear after the coordinate. *)
Inductive extra_text (sys : os) : string → Prop :=
| extra_some d : set_to sys "LIMABEAN_CLJ_DEPS" d → extra_text sys (" " +:+ d)
| extra_none : ¬ is_set sys "LIMABEAN_CLJ_DEPS" → extra_text sys "".

(** The program and the arguments put before the user's, for each origin, and the
    warnings. *)
Definition quoted (s : string) : string := String """" (s +:+ String """" "").
Definition jar_args (jar : string) : list string := ["--enable-native-access=ALL-UNNAMED"; "-jar"; jar].
Definition clojure_args (coord extra : string) : list string :=
  ["-J--enable-native-access=ALL-UNNAMED"; "-Sdeps";
   "{:deps {io.github.tesujimath/limabean " +:+ coord +:+ extra +:+ "}}"; "-M"; "-m"; "limabean.main"].
Inductive starts (sys : os) : origin → string → list string → Prop :=
| starts_checkout dir extra : extra_text sys extra →
    starts sys (LocalCheckout dir) "clojure" (clojure_args ("{:local/root " +:+ quoted dir +:+ "}") extra)
| starts_named jar : starts sys (NamedJar jar) "java" (jar_args jar)
| starts_bundled jar : starts sys (BundledJar jar) "java" (jar_args jar)
| starts_published v extra : extra_text sys extra →
    starts sys (Published v) "clojure" (clojure_args ("{:mvn/version " +:+ quoted v +:+ "}") extra).

Definition from_jar (o : origin) : bool :=
  match o with NamedJar _ | BundledJar _ => true | _ => false end.

(** All arguments are text. *)
Definition texts (sys : os) (args : list string) : Prop := Forall (λ a, os_utf8 sys a = true) args.

(** What is needed to run limabean from there.
    The launcher asks [clojure] for its version and ignores how that ends. *)
Definition able (sys : os) (o : origin) : Prop :=
  match o with
  | LocalCheckout _ | Published _ => ∃ x, os_version sys "clojure" = Some x
  | NamedJar jar | BundledJar jar =>
      (∃ out err, os_version sys "java" = Some (true, out, err)) ∧ os_exists sys jar = Some true
  end.

(** What the user is told about it: what was found, or what is missing.  The reason
    which the operating system gives is left out. *)
Definition told (sys : os) (o : origin) : string :=
  match o with
  | LocalCheckout _ | Published _ =>
      match os_version sys "clojure" with
      | Some (_, out, _) => "clojure: " +:+ out
      | None => "limabean can't find clojure: "
      end
  | NamedJar jar | BundledJar jar =>
      match os_version sys "java", os_exists sys jar with
      | None, _ => "limabean can't find java: "
      | Some (false, _, err), _ => "limabean java: " +:+ err
      | Some (true, _, _), Some true => "uberjar " +:+ jar
      | Some (true, _, _), Some false => "uberjar " +:+ jar +:+ " not found"
      | Some (true, _, _), None => "uberjar " +:+ jar +:+ " not found: "
      end
  end.

(** Reading an EDN string literal from just after its opening quote: its value and
    what follows.  Octal and [\u] escapes are not read. *)
Fixpoint edn_string (s : string) : option (string * string) :=
  match s with
  | "" => None
  | String """" r => Some ("", r)
  | String "\" (String c r) =>
      let esc := match c with
                 | "t" => Some "009" | "r" => Some "013" | "n" => Some "010"
                 | "\" => Some "\" | """" => Some """" | _ => None
                 end%char in
      match esc, edn_string r with
      | Some e, Some (v, r') => Some (String e v, r')
      | _, _ => None
      end
  | String c r => match edn_string r with Some (v, r') => Some (String c v, r') | None => None end
  end.
(** No double quote and no backslash. *)
Fixpoint plain (s : string) : bool :=
  match s with
  | "" => true
  | String c r => negb (Ascii.eqb c """") && negb (Ascii.eqb c "\") && plain r
  end.
