(** What sessions and the command line are to do: the specification of
    [UserProps.v]. *)
From Coq Require Import Ascii QArith.
From stdpp Require Import prelude gmap strings pretty.
From Verif Require Import DecModel LedgerTypes CljModel InventoryModel ClientModel PluginModel LoaderModel UserModel.

Definition newline : string := String (ascii_of_nat 10) "".
Definition mentions (text what : string) : Prop := ∃ a b, text = a +:+ what +:+ b.

(** Nothing is loaded. *)
Definition shows_nothing (g : globals) : Prop :=
  g_beans g = None ∧ g_directives g = [] ∧ g_options g = None ∧ g_registry g = None.
(** What was loaded from a pod: its directives, and the registry made of them, or
    neither if there was an error. *)
Definition shows (g : globals) (pod : nat) (m : loaded) : Prop :=
  g_beans g = Some (pod, m) ∧ g_options g = l_options m ∧
  match l_error m with
  | None => l_directives m = Some (g_directives g) ∧ g_registry g = Some (g_directives g, l_options m)
  | Some _ => l_directives m = None ∧ g_directives g = [] ∧ g_registry g = None
  end.

(** What is said of a ledger of which [n] directives were read, and of what became of
    them. *)
Definition read_line (n : nat) (path : string) : string :=
  "[limabean] " +:+ pretty n +:+ " directives loaded from " +:+ path +:+ newline.
Definition result_line (n : nat) : string :=
  "[limabean] " +:+ pretty n +:+ " directives resulting from booking and running plugins" +:+ newline.

(** The messages of an exception, one on a line. *)
Definition says_exception (e : exn) (t : string) : Prop :=
  t = "Exception: " +:+ String.concat "" ((λ m, m +:+ newline) <$> ex_messages e).

(** The parts of a string between colons; trailing empty ones are not counted. *)
Fixpoint no_colon (s : string) : Prop :=
  match s with EmptyString => True | String c s' => c ≠ ":"%char ∧ no_colon s' end.
Fixpoint some_colons (n : nat) : string := match n with O => "" | S n' => ":" +:+ some_colons n' end.
Definition separated (s : string) (l : list string) : Prop :=
  Forall no_colon l ∧
  (s = "" ∧ l = [""] ∨
   s ≠ "" ∧ last l ≠ Some "" ∧ ∃ n, s = String.concat ":" l +:+ some_colons n).
(** What is said of files of which some can not be loaded. *)
Definition says_files (load_file : string → option exn) (files : list string) (t : string) : Prop :=
  ∃ ts, t = String.concat "" ts ∧
    Forall2 (λ f u, match load_file f with
                    | None => u = ""
                    | Some e => ∃ v, says_exception e v ∧ u = "Failed to load " +:+ f +:+ " from $LIMABEAN_USER_CLJ" +:+ newline +:+ v
                    end) files ts.

(** A command line which asks for a ledger which is there, and has nothing else in
    it. *)
Definition asks_for (is_file : string → bool) (o : options_parsed) (f : string) (e : option string) : Prop :=
  op_help o = false ∧ op_version o = false ∧ op_errors o = [] ∧ op_arguments o = [] ∧
  op_beanfile o = Some f ∧ is_file f = true ∧ op_eval o = e.
(** One which only asks for information. *)
Definition asks_for_help (o : options_parsed) : Prop := op_help o = true ∨ op_errors o = [] ∧ op_version o = true.
