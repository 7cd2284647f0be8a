(** What is to be shown when a report is asked for in a session: the specification of
    [ReplProps.v]. *)
From Coq Require Import Ascii QArith.
From stdpp Require Import prelude gmap strings.
From Verif Require Import DecModel LedgerTypes JsonModel ServerModel CljModel InventoryModel ClientModel PluginModel LoaderModel RollupModel UserModel ReplModel.

(** The ledger which was loaded last, whatever came of it. *)
Fixpoint last_load {P S} (cs : list (command (P:=P) (S:=S))) (w : option (world (P:=P) (S:=S))) : option world :=
  match cs with
  | [] => w
  | Load w' _ :: cs' => last_load cs' (Some w')
  | Ask _ :: cs' => last_load cs' w
  end.

(** The report of some beans, as [limabean.clj] gives it to a program. *)
Definition report_for (ro : report_orders) (bs : beans) (q : request) : report :=
  match q with
  | AskInventory fs => Inventory (inventory (ro_client ro) bs fs)
  | AskBalances fs => Inventory (balances (ro_client ro) bs fs)
  | AskIncome fs => Inventory (income_statement (ro_client ro) bs fs)
  | AskJournal fs => Journal (journal (ro_client ro) bs fs)
  | AskRollup fs => Rollup (inv ← inventory (ro_client ro) bs fs; rollup (ro_rollup ro) (co_freq (ro_client ro)) inv)
  end.
(** Nothing at all; there is no roll-up of that. *)
Definition nothing (q : request) : report :=
  match q with
  | AskInventory _ | AskBalances _ | AskIncome _ => Inventory (Some ∅)
  | AskJournal _ => Journal (Some [])
  | AskRollup _ => Rollup None
  end.

Section Loads.
Context {P S : Type} (load_in : world (P:=P) (S:=S) → option cval + option loaded).
(** A ledger loads without an error. *)
Definition good (w : option (world (P:=P) (S:=S))) (m : loaded) : Prop :=
  ∃ w', w = Some w' ∧ w_spawn w' = None ∧ load_in w' = inr (Some m) ∧ l_error m = None.
End Loads.
