(** What is assumed of the third-party booking library, where a property needs
    it.  Each theorem which uses [lib_ok] has it as an explicit premise.
    [SampleLib.v] exhibits an instance. *)
From Coq Require Import Ascii QArith.
From stdpp Require Import prelude gmap strings.
From Verif Require Import DecModel LedgerTypes BookModel BookSpec.

Local Open Scope Q_scope.

Section Contract.
Context {P : Type} (L : booking_lib P).

(** Units held in currency [cur]. *)
Definition held (p : P) (cur : string) : Q :=
  dec_value (default dec_zero (lib_units L p !! cur)).

(** Units which the interpolated postings add to account [n] in [cur]. *)
Definition interpolated_units (n cur : string) (l : list (interpolated * posting_spec)) : Q :=
  Qsum ((λ x, if String.eqb (ps_acc x.2) n && String.eqb (in_currency x.1) cur
              then dec_value (in_units x.1) else 0%Q) <$> l).

(** The library sees the inventories and methods only through the functions it
    is given. *)
Definition lib_ext : Prop := ∀ dt ps inv inv' bk bk',
  (∀ a, inv a = inv' a) → (∀ a, bk a = bk' a) →
  lib_book L dt ps inv bk = lib_book L dt ps inv' bk'.

Record lib_ok : Prop := {
  (** a new account holds nothing *)
  lk_empty : ∀ cur, held (lib_empty L) cur == 0;
  (** accumulating units without cost adds them *)
  lk_accumulate : ∀ p u c cur,
    held (lib_accumulate L p u c) cur ==
    held p cur + (if String.eqb c cur then dec_value u else 0);
  (** one interpolated posting per posting *)
  lk_length : ∀ dt ps inv bk ips upd,
    lib_book L dt ps inv bk = LibOk ips upd → length ips = length ps;
  (** inventories are updated at most once each, for accounts in the postings *)
  lk_names : ∀ dt ps inv bk ips upd,
    lib_book L dt ps inv bk = LibOk ips upd →
    NoDup upd.*1 ∧ ∀ n, n ∈ upd.*1 → n ∈ ps_acc <$> ps;
  (** the lots of a posting add up to it *)
  lk_lots : ∀ dt ps inv bk ips upd ip costs,
    lib_book L dt ps inv bk = LibOk ips upd → ip ∈ ips → in_cost ip = Some costs →
    Qsum ((λ c, dec_value (pc_units c.2)) <$> costs) == dec_value (in_units ip);
  (** units are conserved *)
  lk_units : ∀ dt ps inv bk ips upd n p cur,
    lib_book L dt ps inv bk = LibOk ips upd → inv n = Some p →
    held (match (list_to_map upd : gmap string P) !! n with Some p' => p' | None => p end) cur ==
    held p cur + interpolated_units n cur (zip ips ps)
}.

End Contract.
