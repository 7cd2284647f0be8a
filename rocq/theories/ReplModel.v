(** Model of the functions of [clj/src/limabean/user.clj] with which the user of a
    session asks for reports, and of sessions in which ledgers are loaded and reports
    are asked for in any order. *)
From Coq Require Import Ascii QArith.
From stdpp Require Import prelude gmap strings.
From Verif Require Import DecModel LedgerTypes JsonModel ServerModel CljModel InventoryModel ClientModel PluginModel LoaderModel RollupModel UserModel.

(** Orders of hash maps. *)
Record report_orders := ReportOrders {
  ro_client : client_orders; ro_rollup : list (string * dec) → list (string * dec) }.
(** user.clj:49-78: a report, and the filters which are given; a roll-up is asked for as
    [(rollup (inventory ...))], as in the comment at user.clj:57-60. *)
Inductive request :=
| AskInventory (filters : list (citem → bool))
| AskBalances (filters : list (citem → bool))
| AskIncome (filters : list (citem → bool))
| AskJournal (filters : list (citem → bool))
| AskRollup (filters : list (citem → bool)).
(** [None] is an exception. *)
Inductive report :=
| Inventory (inv : option (gmap string (list position)))
| Journal (rows : option (list (cposting * list position)))
| Rollup (entries : option (gmap string entry)).

Section Reports.
Context (ro : report_orders).
(** [*beans*], user.clj:10-14, as far as reports look at it: [None] if its directives are
    nonsense.  Simplification: if nothing or nothing good was loaded there is no registry;
    there are no postings then, so nothing is looked up in it, and no options are needed. *)
Definition current_beans (g : globals) : option beans :=
  match g_beans g with
  | Some (_, m) =>
      match l_directives m with
      | Some vs => (λ ds, Beans ds (default VNil (l_options m))) <$> mapM view_directive vs
      | None => Some (Beans [] VNil)
      end
  | None => Some (Beans [] VNil)
  end.
(** limabean.clj:37-45, 47-56 with the filters of user.clj:65-73: these are a list or nil,
    so [conj] puts the further filter before them. *)
Definition with_names (bs : beans) (k1 k2 : string) (filters : list (citem → bool)) : list (citem → bool) :=
  f_sub_acc [option_name bs k1; option_name bs k2] :: filters.
(** user.clj:49-78 [inventory], [rollup], [balances], [income-statement], [journal]. *)
Definition session_report (g : globals) (q : request) : report :=
  match q with
  | AskInventory fs => Inventory (bs ← current_beans g; inventory (ro_client ro) bs fs)
  | AskBalances fs => Inventory (bs ← current_beans g; inventory (ro_client ro) bs (with_names bs "name-assets" "name-liabilities" fs))
  | AskIncome fs => Inventory (bs ← current_beans g; inventory (ro_client ro) bs (with_names bs "name-income" "name-expenses" fs))
  | AskJournal fs => Journal (bs ← current_beans g; journal (ro_client ro) bs fs)
  | AskRollup fs =>
      Rollup (bs ← current_beans g; inv ← inventory (ro_client ro) bs fs; rollup (ro_rollup ro) (co_freq (ro_client ro)) inv)
  end.

Context {P S : Type} (env : server_env P S).
Context (jso : list json → list json) (jmo : list (string * json) → list (string * json)).
Context (ns : string → option namespace) (read_config : option cval → option (option cval)).
Context (code : nat → nat) (spec : bool → cval → bool) (so : list cval → list cval).
(** What the user of a session types, and what comes of it. *)
Inductive command := Load (w : world (P:=P) (S:=S)) (path : string) | Ask (q : request).
Inductive reply := LoadReply (text : string) (o : outcome) | ReportReply (r : report).
(** One after the other; user.clj:49-78 assign nothing. *)
Fixpoint replies (cs : list command) (s : session) : list reply :=
  match cs with
  | [] => []
  | Load w path :: cs' =>
      let '(s', t, o) := user_load env jso jmo ns read_config code spec so w path s in LoadReply t o :: replies cs' s'
  | Ask q :: cs' => ReportReply (session_report (se_globals s) q) :: replies cs' s
  end.
End Reports.
