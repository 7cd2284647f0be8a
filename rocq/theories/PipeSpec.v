(** What [PipeProps.v] is about. *)
From Coq Require Import Ascii QArith.
From stdpp Require Import prelude gmap strings.
From Verif Require Import DecModel LedgerTypes IsoModel JsonModel WireModel BookModel SpanModel ParserModel JsonText ServerModel
  CljModel InventoryModel ClientModel FormatModel PluginModel LoaderModel EncodeModel ReadModel ReadSpec SystemModel.
Local Open Scope nat_scope.

Section Spec.
Context {P S : Type} (env : server_env P S).
Context (jso : list json → list json) (jmo : list (string * json) → list (string * json)).
Context (hl : health) (hs : nat → orders P).
(** The answers to some calls, each answered in the state which the calls before it have
    left, where messages and replies are trees. *)
Fixpoint answers (n : nat) (s : option S) (calls : list (string * option cval)) : list answer :=
  match calls with
  | [] => []
  | c :: calls' => let '(s', a) := invoke env jso jmo hl hs n s c.1 c.2 in a :: answers (Datatypes.S n) s' calls'
  end.
(** The server reads JSON text nested as deep as [depth]; what the client sends is UTF-8
    and not nested any deeper. *)
Definition readable (depth : nat) (calls : list (string * option cval)) : Prop :=
  (∀ l, env_parse env l = parse_json depth l) ∧
  ∀ i c, calls !! i = Some c → let j := message jso jmo (Datatypes.S i) c.1 c.2 in
    nesting j ≤ depth ∧ env_utf8 env (generate_string j +:+ ServerModel.line_end) = true.
End Spec.
