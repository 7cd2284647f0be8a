(** Model of [clj/src/limabean/user.clj], [app.clj], [main.clj],
    [adapter/user_clj.clj], [adapter/exception.clj] and of what
    [adapter/error.clj] prints.

    Not modelled: logging, the line editor of the REPL, and commands of the user other
    than [load-beanfile]. *)
From Coq Require Import Ascii QArith.
From stdpp Require Import prelude gmap strings pretty.
From Verif Require Import DecModel LedgerTypes IsoModel JsonModel WireModel BookModel SpanModel ParserModel JsonText ServerModel
  CljModel InventoryModel ClientModel FormatModel PluginModel LoaderModel EncodeModel SystemModel RollupModel.

(** [println]: arguments are separated by blanks. *)
Definition println (l : list string) : string := String.concat " " l +:+ FormatModel.line_end.

(** * Exceptions *)

(** The messages of an exception and of its causes, and the entry [:user-error] of its
    data. *)
Record exn := Exn { ex_messages : list string; ex_user_error : option string }.
(** The value of [Throwable->map] as far as it is looked at. *)
Definition exn_map (e : exn) : cval :=
  VMap ([("via", VVec ((λ m, VMap [("message", VStr m)]) <$> ex_messages e))] ++
        match ex_user_error e with Some u => [("data", VMap [("user-error", VStr u)])] | None => [] end ++
        match last (ex_messages e) with Some m => [("cause", VStr m)] | None => [] end).
(** exception.clj:6-17 [handle-exception]: there is always a [:via]. *)
Definition handle_exception (e : exn) : string :=
  "Exception: " +:+
  String.concat "" ((λ v, match vget "message" v with Some (VStr m) => m +:+ FormatModel.line_end | _ => "" end) <$> vec (vget "via" (exn_map e))).

(** * Sessions *)

(** What user.clj:10-21 defines.  [*beans*] is a pod and what was loaded from it, or is
    nil or empty; the registry is shown as what it is built from, loader.clj:194-195. *)
Record globals := Globals {
  g_beans : option (nat * loaded); g_directives : list cval; g_options : option cval;
  g_registry : option (list cval * option cval) }.
(** user.clj:23-30 [assign-limabean-globals]. *)
Definition assign (beans : option (nat * loaded)) : globals :=
  match beans with
  | None => Globals None [] None None
  | Some (pod, m) =>
      Globals (Some (pod, m)) (default [] (l_directives m)) (l_options m)
        ((λ ds, (ds, l_options m)) <$> l_directives m)
  end.
(** The pods which were started and not stopped; they are numbered. *)
Record session := Session { se_globals : globals; se_pods : list nat; se_next : nat }.
Definition session_start : session := Session (assign None) [] 0.

Inductive outcome := Returned | Threw (e : exn).
Definition is_returned (o : outcome) : bool := match o with Returned => true | Threw _ => false end.

Section User.
Context {P S : Type} (env : server_env P S).
Context (jso : list json → list json) (jmo : list (string * json) → list (string * json)).
Context (ns : string → option namespace) (read_config : option cval → option (option cval)).
Context (code : nat → nat) (spec : bool → cval → bool) (so : list cval → list cval).

(** What is found when a ledger is loaded: whether the pod can be started, what it
    has read, and what a plugin or the client throws if it does. *)
Record world := World {
  w_spawn : option exn; w_health : health; w_orders : nat → orders P; w_sources : S; w_thrown : exn }.
Definition load_in (w : world) : option cval + option loaded :=
  load_beanfile env jso jmo (w_health w) (w_orders w) (w_sources w) ns read_config code spec so.

(** pod.clj:103-106, 72-77 [format-errors]: the text, or the exception. *)
Definition format_errors (w : world) (m : loaded) (rs : list cval) : string + exn :=
  let a := (invoke env jso jmo (w_health w) (w_orders w) (length (l_asked m) + 2)
              (pod_state env jso jmo (w_health w) (w_orders w) (w_sources w) (l_asked m))
              "parser.format-errors" (Some (VVec rs))).2 in
  match a_err a with
  | Some e => inr (let message := match vget "message" e with Some (VStr t) => t | _ => "" end in Exn [message] (Some message))
  | None => inl (match a_ok a with Some (VStr t) => t | _ => "nil" end)
  end.
(** loader.clj:83-89, 177-178: the message, and the value of [:exception]; that of a
    plugin is the exception itself, in which nothing can be looked up. *)
Definition phase_message (booked : bool) : string :=
  let kind := if booked then "booked" else "raw" in
  "Exception thrown by " +:+ kind +:+ " plugin, all " +:+ kind +:+ " plugins ignored".
Definition error_message (e : load_error) : option string :=
  match e with
  | LeRaw PeThrown => Some (phase_message false)
  | LeBooked PeThrown => Some (phase_message true)
  | _ => None
  end.
Definition error_exception (w : world) (e : load_error) : option cval :=
  match e with
  | LeRaw PeThrown | LeBooked PeThrown => Some (VStr "#<Exception>")
  | LeBooking BeThrown => Some (exn_map (w_thrown w))
  | _ => None
  end.
(** error.clj:33-39 [print-error]: what is printed, and the exception if one is
    thrown. *)
Definition print_error (w : world) (m : loaded) (e : load_error) : string * option exn :=
  let before := match error_message e with Some t => println [t] | None => "" end in
  let after := match error_exception w e with
               | Some x => println [match vget "message" x with Some (VStr t) => t | _ => "nil" end]
               | None => "" end in
  match error_reports_of e with
  | None => (before +:+ after, None)
  | Some rs =>
      match format_errors w m rs with
      | inl t => (before +:+ println [t] +:+ after, None)
      | inr x => (before, Some x)
      end
  end.
(** error.clj:41-54 [print-errors]; there is at most one error. *)
Definition print_errors (w : world) (m : loaded) : string * option exn :=
  match l_error m with
  | None => ("", None)
  | Some (LePlugins ps) =>
      (String.concat "" ((λ p, println ["ERROR in plugin"; pl_name p; "-"; default "nil" (pl_err p)]) <$> ps), None)
  | Some (LeBooking b) =>
      let '(t, x) := print_error w m (LeBooking b) in (println ["Booking failed" +:+ FormatModel.line_end] +:+ t, x)
  | Some e => print_error w m e
  end.

(** user.clj:32-47 [load-beanfile]: the session, what is printed, and how it ends.
    pod.clj:124-132, 147-150: the pod is stopped if it does not start well. *)
Definition user_load (w : world) (path : string) (s : session) : session * string * outcome :=
  let pods := match g_beans (se_globals s) with
              | Some (pod, _) => List.filter (λ n, negb (Nat.eqb n pod)) (se_pods s)
              | None => se_pods s
              end in
  let new := se_next s in
  match w_spawn w with
  | Some e => (Session (assign None) pods new, "", Threw e)
  | None =>
      match load_in w with
      | inl u => (Session (assign None) pods (Datatypes.S new), "",
                  Threw (Exn ["pod/start failed"] (match u with Some (VStr t) => Some t | _ => None end)))
      | inr None => (Session (assign None) (pods ++ [new]) (Datatypes.S new), "",
                     Threw (Exn ["unexpected parser failure on directives"] None))
      | inr (Some m) =>
          let header := println ["[limabean]"; pretty (length (default [] (l_raw m))); "directives loaded from"; path] in
          let '(t, x) := print_errors w m in
          match x with
          | Some e => (Session (assign None) (pods ++ [new]) (Datatypes.S new), header +:+ t, Threw e)
          | None =>
              (Session (assign (Some (new, m))) (pods ++ [new]) (Datatypes.S new),
               header +:+ t +:+
               match l_error m with
               | None => println ["[limabean]"; pretty (length (default [] (l_directives m)));
                                  "directives resulting from booking and running plugins"]
               | Some _ => ""
               end, Returned)
          end
      end
  end.

(** A session of loading one ledger after the other, whatever comes of it. *)
Fixpoint session_after (loads : list (world * string)) (s : session) : session :=
  match loads with
  | [] => s
  | (w, path) :: l => session_after l (user_load w path s).1.1
  end.

(** * The program *)

(** [load-file]: the exception if there is one. *)
Context (load_file : string → option exn).
(** user_clj.clj:5-15 [load-user-cljs]: the files which are loaded, in order, and what
    is printed. *)
Definition load_user_cljs (var : option string) : list string * string :=
  match var with
  | None => ([], "")
  | Some cljs =>
      (split_colon cljs,
       String.concat "" ((λ clj, match load_file clj with
                                  | Some e => println ["Failed to load"; clj; "from $LIMABEAN_USER_CLJ"] +:+ handle_exception e
                                  | None => ""
                                  end) <$> split_colon cljs))
  end.
(** app.clj:8-19 [init]: what was loaded besides the ledger is the second part. *)
Definition app_init (w : world) (path : string) (var : option string) (s : session) : session * list string * string * outcome :=
  let '(s1, t, o) := user_load w path s in
  match o with
  | Threw e => (s1, [], t, Threw e)
  | Returned => let '(files, t') := load_user_cljs var in (s1, files, t +:+ t', Returned)
  end.

(** The command line as tools.cli has parsed it; [--beanfile] is the environment
    variable by default. *)
Record options_parsed := OptionsParsed {
  op_help : bool; op_version : bool; op_beanfile : option string; op_eval : option string;
  op_arguments : list string; op_errors : list string; op_summary : string }.
(** main.clj:18-25 [usage], [error-msg]. *)
Definition usage (summary : string) : string :=
  String.concat FormatModel.line_end ["limabean: usage: limabean [options]"; ""; "Options:"; summary].
Definition error_msg (errors : list string) : string :=
  "limabean: argument parsing errors:" +:+ FormatModel.line_end +:+ String.concat FormatModel.line_end errors.
(** main.clj:27-52 [validate-args]; the version is printed and the program exits. *)
Inductive validated := Proceed (beanfile : string) (eval : option string) | Stop (ok : bool) (message : string) | Version.
Definition validate_args (is_file : string → bool) (o : options_parsed) : validated :=
  if op_help o then Stop true (usage (op_summary o))
  else match op_errors o with
  | _ :: _ => Stop false (error_msg (op_errors o))
  | [] =>
      if op_version o then Version
      else match op_beanfile o with
      | None => Stop false "limabean: --beanfile or $LIMABEAN_BEANFILE is required"
      | Some f =>
          if negb (is_file f) then Stop false ("limabean: no such beanfile " +:+ f)
          else match op_arguments o with
               | [] => Proceed f (op_eval o)
               | l => Stop false ("superfluous arguments: " +:+ String.concat " " l)
               end
      end
  end.

(** Reading and evaluating the expression of [--eval]: the exception if there is one;
    [pprint] of an exception. *)
Context (read_expr : string → option exn) (eval_expr : string → globals → option exn) (pprint : exn → string).
(** How the program ends: what it has printed on the error stream, and its status. *)
Record ended := Ended { en_status : nat; en_stderr : string; en_session : session; en_files : list string }.
(** app.clj:21-31 [try-eval]. *)
Definition eval_failed (t : string) (e : exn) (s : session) (files : list string) : ended :=
  Ended 1 (t +:+ println ["Exception:"; default "nil" (head (ex_messages e))] +:+ pprint e) s files.
Definition try_eval (w : world) (path : string) (var : option string) (expr : string) : ended :=
  match read_expr expr with
  | Some e => eval_failed "" e session_start []
  | None =>
      let '(s, files, t, o) := app_init w path var session_start in
      match o with
      | Threw e => eval_failed t e s files
      | Returned =>
          match eval_expr expr (se_globals s) with
          | Some e => eval_failed t e s files
          | None => Ended 0 t s files
          end
      end
  end.
(** app.clj:33-40 [run]: the REPL, in which the user loads ledgers; what is thrown is
    handled.  It ends when the user leaves it. *)
Fixpoint repl_loads (loads : list (world * string)) (s : session) : session * string :=
  match loads with
  | [] => (s, "")
  | (w, path) :: l =>
      let '(s1, t, o) := user_load w path s in
      let '(s2, t2) := repl_loads l s1 in
      (s2, t +:+ match o with Threw e => handle_exception e | Returned => "" end +:+ t2)
  end.
Definition repl (w : world) (path : string) (var : option string) (loads : list (world * string)) : ended :=
  let '(s, files, t, o) := app_init w path var session_start in
  let '(s2, t2) := repl_loads loads s in
  Ended 0 (t +:+ match o with Threw e => handle_exception e | Returned => "" end +:+ t2) s2 files.
(** main.clj:54-67 [exit], [-main]; for [--version] there is no session. *)
Definition client_main (is_file : string → bool) (var : option string) (w : world) (loads : list (world * string)) (o : options_parsed) : ended :=
  match validate_args is_file o with
  | Stop ok message => Ended (if ok : bool then 0 else 1) (println [message]) session_start []
  | Version => Ended 0 "" session_start []
  | Proceed f (Some expr) => try_eval w f var expr
  | Proceed f None => repl w f var loads
  end.
End User.
Arguments World {P S} _ _ _ _ _.
