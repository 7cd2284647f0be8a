(** What the client should make of the server's answers, and what the registry, the
    filters and the reports of [limabean.clj] should contain. *)
From Coq Require Import Ascii QArith.
From stdpp Require Import prelude gmap strings.
From Verif Require Import DecModel LedgerTypes IsoModel CljModel InventoryModel InventorySpec ClientModel.

(** * Booked directives *)

(** The same number; it is a decimal if it was written with a point. *)
Definition num_seen (n : cnum) (d : dec) : Prop :=
  (cn_value n == dec_value d)%Q ∧ is_dec n = negb (dec_scale d =? 0)%nat.
Definition opt_seen {A B} (R : A → B → Prop) (a : option A) (b : option B) : Prop :=
  match a, b with Some x, Some y => R x y | None, None => True | _, _ => False end.
Definition cost_seen (x : ccost) (c : cost) : Prop :=
  cc_date x = c_date c ∧ cc_cur x = c_cur c ∧ num_seen (cc_per_unit x) (c_per_unit c) ∧
  num_seen (cc_total x) (c_total c) ∧ cc_label x = c_label c ∧
  cc_merge x = (if c_merge c then Some true else None).
Definition posting_seen (x : cposting) (p : posting) : Prop :=
  cp_acc x = p_acc p ∧ cp_cur x = p_cur p ∧ num_seen (cp_units x) (p_units p) ∧
  cp_flag x = p_flag p ∧ opt_seen cost_seen (cp_cost x) (p_cost p).
(** Kind, account, currency, payee, narration, booking method and postings. *)
Definition directive_seen (x : cdirective) (b : bdirective) : Prop :=
  let is k acc cur payee narration booking :=
    cd_dct x = k ∧ cd_acc x = acc ∧ cd_cur x = cur ∧ cd_payee x = payee ∧ cd_narration x = narration ∧ cd_booking x = booking in
  cd_date x = Some (b_date b) ∧
  match b_variant b with
  | BVTransaction t =>
      is "txn" None None (bt_payee t) (bt_narration t) None ∧ Forall2 posting_seen (cd_postings x) (bt_postings t)
  | v => cd_postings x = [] ∧
      match v with
      | BVTransaction _ => False
      | BVPrice p => is "price" None (Some (pd_cur p)) None None None
      | BVBalance bal => is "balance" (Some (bal_acc (bb_raw bal))) (Some (bal_cur (bb_raw bal))) None None None
      | BVOpen o => is "open" (Some (op_acc o)) None None None (op_booking o)
      | BVClose a => is "close" (Some a) None None None None
      | BVCommodity c => is "commodity" None (Some c) None None None
      | BVPad p => is "pad" (Some (pad_acc p)) None None None None
      | BVDocument a _ => is "document" (Some a) None None None None
      | BVNote a _ => is "note" (Some a) None None None None
      | BVEvent _ _ => is "event" None None None None None
      | BVQuery _ _ => is "query" None None None None None
      | BVCustom _ => is "custom" None None None None None
      end
  end.
(** The dates in it are dates of the calendar. *)
Definition dates_valid (b : bdirective) : Prop :=
  valid_date (b_date b) = true ∧
  match b_variant b with
  | BVTransaction t => Forall (λ p, ∀ c, p_cost p = Some c → valid_date (c_date c) = true) (bt_postings t)
  | _ => True
  end.

(** * Metadata *)

Definition meta_seen (v : cval) (m : meta_value) : Prop :=
  match m with
  | MVNull => v = VNil
  | MVAmount u c => ∃ n, v = VMap [("units", VNum n); ("cur", VStr c)] ∧ num_seen n u
  | MVString s => v = VMap [("string", VStr s)]
  | MVCurrency s => v = VMap [("cur", VStr s)]
  | MVAccount s => v = VMap [("acc", VStr s)]
  | MVTag s => v = VMap [("tag", VStr s)]
  | MVLink s => v = VMap [("link", VStr s)]
  | MVDate d => v = VMap [("date", VDate d)]
  | MVBool b => v = VMap [("bool", VBool b)]
  | MVNumber d => ∃ n, v = VMap [("number", VNum n)] ∧ num_seen n d
  end.
Definition meta_date_valid (m : meta_value) : Prop :=
  match m with MVDate d => valid_date d = true | _ => True end.

(** * Registry *)

(** All postings of transactions. *)
Definition all_postings (ds : list cdirective) : list cposting :=
  concat (cd_postings <$> filter (λ d, cd_dct d = "txn") ds).
(** How often a currency is posted. *)
Definition uses (ds : list cdirective) (cur : string) : nat :=
  length (filter (λ p, cp_cur p = cur) (all_postings ds)).
(** The methods with which an account is opened, in order. *)
Definition opened_with (ds : list cdirective) (acc : string) : list booking :=
  omap cd_booking (filter (λ d, cd_dct d = "open" ∧ cd_acc d = Some acc) ds).

(** * Accounts *)

(** [name] is [base] or a sub-account of it. *)
Definition under (base name : string) : Prop := name = base ∨ ∃ rest, name = base +:+ ":" +:+ rest.
Fixpoint has_colon (s : string) : bool :=
  match s with "" => false | String c s' => if String.eqb (String c "") ":" then true else has_colon s' end.
