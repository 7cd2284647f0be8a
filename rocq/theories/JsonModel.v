(** JSON trees, and the way serde's derived code reads structs from them.

    The text syntax of JSON is that of the third-party crate [serde_json] and is
    not modelled.  Simplifications: numbers are plain decimals (no exponent), and
    both sides escape only those characters which JSON requires to be escaped,
    so whether a string was escaped in the text is a property of the string. *)
From Coq Require Import Ascii.
From stdpp Require Import prelude gmap strings.
From Verif Require Import DecModel.

Inductive json :=
| JNull
| JBool (b : bool)
| JNum (d : dec)
| JStr (s : string)
| JArr (l : list json)
| JObj (fs : list (string * json)).

Notation fields := (list (string * json)).

(** A string which JSON text contains as it is.  Only such a string can be
    borrowed from the input: a [&'a str] field (raw.rs) is refused by serde when
    the string had to be unescaped. *)
Definition plain_char (c : ascii) : bool :=
  (32 <=? N_of_ascii c)%N && negb (c =? """")%char && negb (c =? "\")%char.
Fixpoint plain (s : string) : bool :=
  match s with EmptyString => true | String c s' => plain_char c && plain s' end.

(** The values under a key, in order. *)
Definition entries {A} (k : string) (fs : list (string * A)) : list A :=
  (λ kv, kv.2) <$> filter (λ kv, kv.1 = k) fs.

(** Derived [Deserialize] for a struct: a required field occurs exactly once. *)
Definition get_req {A} (dec : json → option A) (k : string) (fs : fields) : option A :=
  match entries k fs with [v] => dec v | _ => None end.

(** An [Option] field may be missing or null, and must not be repeated. *)
Definition get_opt {A} (dec : json → option A) (k : string) (fs : fields) : option (option A) :=
  match entries k fs with
  | [] => Some None
  | [JNull] => Some None
  | [v] => Some <$> dec v
  | _ => None
  end.

(** [#[serde(default)]]: may be missing, but null is refused. *)
Definition get_default {A} (dec : json → option A) (default : A) (k : string) (fs : fields) : option A :=
  match entries k fs with [] => Some default | [v] => dec v | _ => None end.

Definition as_obj {A} (f : fields → option A) (j : json) : option A :=
  match j with JObj fs => f fs | _ => None end.

(** [String] and [Cow<str>]. *)
Definition as_owned (j : json) : option string :=
  match j with JStr s => Some s | _ => None end.
(** [&'a str]. *)
Definition as_borrowed (j : json) : option string :=
  match j with JStr s => if plain s then Some s else None | _ => None end.
Definition as_bool (j : json) : option bool :=
  match j with JBool b => Some b | _ => None end.
(** [usize].  The bound of 2^64 is not modelled. *)
Definition as_nat (j : json) : option nat :=
  match j with
  | JNum (Dec m O) => if (0 <=? m)%Z then Some (Z.to_nat m) else None
  | _ => None
  end.
(** [Vec<T>]. *)
Definition as_list {A} (dec : json → option A) (j : json) : option (list A) :=
  match j with JArr l => mapM dec l | _ => None end.
(** [HashSet<&'a str>]. *)
Definition as_set (j : json) : option (gset string) :=
  match j with JArr l => list_to_set <$> mapM as_borrowed l | _ => None end.
(** [HashMap<&'a str, T>]: a later entry replaces an earlier one. *)
Definition as_map {A} (dec : json → option A) (j : json) : option (gmap string A) :=
  match j with
  | JObj fs =>
      (λ kvs, list_to_map (reverse kvs)) <$>
        mapM (λ kv, if plain kv.1 then (λ x, (kv.1, x)) <$> dec kv.2 else None) fs
  | _ => None
  end.

(** Derived [Serialize]: [skip_serializing_if = "Option::is_none"]. *)
Definition put_opt {A} (k : string) (enc : A → json) (o : option A) : fields :=
  match o with Some x => [(k, enc x)] | None => [] end.
Definition of_nat (n : nat) : json := JNum (Dec (Z.of_nat n) 0).
