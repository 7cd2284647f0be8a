(** The pipe between client and server: [clj/src/limabean/adapter/pod.clj] writes a line
    of text for each call and reads a line for the answer; [server.rs] does the
    opposite.

    Simplification: [println] ends a line with a newline, as it does anywhere but on
    Windows. *)
From Coq Require Import Ascii QArith.
From stdpp Require Import prelude gmap strings.
From Verif Require Import DecModel LedgerTypes IsoModel JsonModel WireModel BookModel SpanModel ParserModel JsonText ServerModel
  CljModel InventoryModel ClientModel FormatModel PluginModel LoaderModel EncodeModel ReadModel SystemModel.
Local Open Scope nat_scope.

(** pod.clj:13-18 [write-line]; [None] is the exception for a message which has a newline
    in it. *)
Fixpoint some_newline (s : string) : bool :=
  match s with EmptyString => false | String c s' => Ascii.eqb c newline || some_newline s' end.
Definition write_line (msg : string) : option string :=
  if some_newline msg then None else Some (msg +:+ ServerModel.line_end).
(** pod.clj:20-23 [read-to-eol], that is [BufferedReader/readLine]: what comes before a
    newline, a carriage return or both, and what is left; at the end nil. *)
Fixpoint take_line (s : string) : string * string :=
  match s with
  | EmptyString => ("", "")
  | String c s' =>
      if Ascii.eqb c "010" then ("", s')
      else if Ascii.eqb c "013" then ("", match s' with String "010" s'' => s'' | _ => s' end)
      else let '(l, r) := take_line s' in (String c l, r)
  end.
Definition read_to_eol (out : string) : option string * string :=
  match out with EmptyString => (None, "") | _ => let '(l, r) := take_line out in (Some l, r) end.
(** pod.clj:49-56 [read-msg], and of [invoke] at 58-67 what comes after; [None] is the
    exception for text which is not JSON.  Reading nil gives nil. *)
Definition read_answer (depth : nat) (out : string) : option (answer * string) :=
  match read_to_eol out with
  | (None, r) => Some (no_answer, r)
  | (Some l, r) => j ← parse_json depth l; Some (answer_of j, r)
  end.
(** One answer for each call. *)
Fixpoint read_answers (depth : nat) (calls : nat) (out : string) : option (list answer) :=
  match calls with
  | O => Some []
  | S calls' => a ← read_answer depth out; l ← read_answers depth calls' a.2; Some (a.1 :: l)
  end.

Section Pipe.
Context (jso : list json → list json) (jmo : list (string * json) → list (string * json)).
(** pod.clj:25-32 [write-msg] for one call after another, the first with number [n]. *)
Fixpoint write_calls (n : nat) (calls : list (string * option cval)) : option string :=
  match calls with
  | [] => Some ""
  | (m, ps) :: calls' =>
      l ← write_line (generate_string (message jso jmo n m ps)); r ← write_calls (Datatypes.S n) calls'; Some (l +:+ r)
  end.
End Pipe.
