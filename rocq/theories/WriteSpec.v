(** Which directives can be written as text, and what text keeps of them. *)
From Coq Require Import Ascii QArith.
From stdpp Require Import prelude gmap strings.
From Verif Require Import DecModel LedgerTypes IsoModel NumText TextSpec.
Local Open Scope nat_scope.

(** * What text can say *)

(** Neither quotes nor backslashes. *)
Definition plain_string (s : string) : Prop := has_char (λ c, Ascii.eqb c """" || Ascii.eqb c "\") s = false.
(** A number of which no digit is more than six places after the point, or which is at
    least a millionth. *)
Definition plain_number (d : dec) : Prop :=
  dec_scale d ≤ 6 ∨ (10 ^ Z.of_nat (dec_scale d) ≤ Z.abs (dec_mant d) * 10 ^ 6)%Z.
Definition word_name (s : string) : Prop := s ≠ "" ∧ has_char no_word s = false.
Definition account_name (s : string) : Prop := is_account s = true ∧ word_name s.
Definition currency_name (s : string) : Prop := is_currency s = true ∧ word_name s.
(** The client does not keep what is under the keys [booking] and [dct] (C58). *)
Definition key_name (s : string) : Prop :=
  match s with String c _ => lower c = true | EmptyString => False end ∧ word_name s ∧ s ≠ "booking" ∧ s ≠ "dct".
Definition all_of {A} (P : A → Prop) (o : option A) : Prop := match o with Some x => P x | None => True end.

Definition value_writable (v : meta_value) : Prop :=
  match v with
  | MVAmount n c => plain_number n ∧ currency_name c
  | MVString s => plain_string s
  | MVCurrency c => currency_name c
  | MVAccount a => account_name a
  | MVTag s | MVLink s => word_name s
  | MVDate d => valid_date d = true
  | MVBool _ | MVNull => True
  | MVNumber n => plain_number n
  end.
(** Values of a custom directive: a number is not followed by a currency, for that would
    be an amount; and none is missing. *)
Fixpoint apart (l : list meta_value) : Prop :=
  match l with
  | MVNumber _ :: (MVCurrency _ :: _) => False
  | MVNull :: _ => False
  | _ :: l => apart l
  | [] => True
  end.
Definition labels_writable (X : gset string) : Prop := X ≠ ∅ ∧ ∀ s, s ∈ X → word_name s.
Definition metadata_writable (m : gmap string meta_value) : Prop :=
  m ≠ ∅ ∧ ∀ k v, m !! k = Some v → key_name k ∧ value_writable v.
Definition cost_writable (c : cost_spec) : Prop :=
  all_of plain_number (cs_per_unit c) ∧ all_of plain_number (cs_total c) ∧
  (is_Some (cs_per_unit c) → cs_total c = None) ∧
  all_of currency_name (cs_cur c) ∧ all_of (λ d, valid_date d = true) (cs_date c) ∧ all_of plain_string (cs_label c).
Definition price_writable (p : price_spec) : Prop :=
  all_of plain_number (prs_per_unit p) ∧ all_of plain_number (prs_total p) ∧
  (is_Some (prs_per_unit p) → prs_total p = None) ∧ all_of currency_name (prs_cur p).
Definition posting_writable (q : posting_spec) : Prop :=
  all_of (λ f, is_flag f = true) (ps_flag q) ∧ account_name (ps_acc q) ∧
  all_of plain_number (ps_units q) ∧ all_of currency_name (ps_cur q) ∧
  all_of cost_writable (ps_cost q) ∧ all_of price_writable (ps_price q) ∧
  all_of labels_writable (ps_tags q) ∧ all_of labels_writable (ps_links q) ∧ all_of metadata_writable (ps_metadata q).
Definition variant_writable (v : directive_variant) : Prop :=
  match v with
  | DTransaction t =>
      is_flag (tx_flag t) = true ∧ all_of plain_string (tx_payee t) ∧ all_of plain_string (tx_narration t) ∧
      (is_Some (tx_payee t) → is_Some (tx_narration t)) ∧ Forall posting_writable (tx_postings t)
  | DPrice p =>
      currency_name (pd_cur p) ∧ plain_number (pr_per_unit (pd_price p)) ∧ pr_total (pd_price p) = None ∧
      currency_name (pr_cur (pd_price p))
  | DBalance b =>
      account_name (bal_acc b) ∧ plain_number (bal_units b) ∧ currency_name (bal_cur b) ∧ all_of plain_number (bal_tolerance b)
  | DOpen o => account_name (op_acc o) ∧ all_of (λ X, X ≠ ∅ ∧ ∀ c, c ∈ X → currency_name c) (op_currencies o)
  | DClose a => account_name a
  | DCommodity c => currency_name c
  | DPad p => account_name (pad_acc p) ∧ account_name (pad_source p)
  | DDocument a s | DNote a s => account_name a ∧ plain_string s
  | DEvent s s' | DQuery s s' => plain_string s ∧ plain_string s'
  | DCustom c => plain_string (cu_type c) ∧ Forall value_writable (cu_values c) ∧ apart (cu_values c)
  end.
Definition writable (d : directive) : Prop :=
  valid_date (d_date d) = true ∧ all_of labels_writable (d_tags d) ∧ all_of labels_writable (d_links d) ∧
  all_of metadata_writable (d_metadata d) ∧ variant_writable (d_variant d).
(** Without the two forms which only limabean writes. *)
Definition common (d : directive) : Prop :=
  match d_variant d with
  | DTransaction t => Forall (λ q, all_of (λ p, prs_total p = None) (ps_price q)) (tx_postings t)
  | DBalance b => bal_tolerance b = None
  | _ => True
  end.

(** * What is kept *)

(** A ledger does not say where in a file it is. *)
Definition unspanned_posting (q : posting_spec) : posting_spec :=
  PostingSpec None (ps_flag q) (ps_acc q) (ps_units q) (ps_cur q) (ps_cost q) (ps_price q) (ps_tags q) (ps_links q) (ps_metadata q).
Definition unspanned (d : directive) : directive :=
  Directive None (d_date d) (d_tags d) (d_links d) (d_metadata d)
    match d_variant d with
    | DTransaction t => DTransaction (Transaction (tx_flag t) (tx_payee t) (tx_narration t) (unspanned_posting <$> tx_postings t))
    | v => v
    end.
(** A booked directive as one writes it: costs and prices per unit, which the totals
    follow from. *)
Definition cost_as_written (c : cost) : cost_spec :=
  CostSpec (Some (c_per_unit c)) None (Some (c_cur c)) (Some (c_date c)) (c_label c) (c_merge c).
Definition price_as_written (p : price) : price_spec := PriceSpec (Some (pr_per_unit p)) None (Some (pr_cur p)).
Definition posting_as_written (q : posting) : posting_spec :=
  PostingSpec None (p_flag q) (p_acc q) (Some (p_units q)) (Some (p_cur q)) (cost_as_written <$> p_cost q)
    (price_as_written <$> p_price q) (p_tags q) (p_links q) (p_metadata q).
Definition as_written (b : bdirective) : directive :=
  Directive None (b_date b) (b_tags b) (b_links b) (b_metadata b)
    match b_variant b with
    | BVTransaction t => DTransaction (Transaction (bt_flag t) (bt_payee t) (bt_narration t) (posting_as_written <$> bt_postings t))
    | BVPrice p => DPrice p
    | BVBalance x => DBalance (bb_raw x)
    | BVOpen o => DOpen o
    | BVClose a => DClose a
    | BVCommodity c => DCommodity c
    | BVPad p => DPad p
    | BVDocument a s => DDocument a s
    | BVNote a s => DNote a s
    | BVEvent s s' => DEvent s s'
    | BVQuery s s' => DQuery s s'
    | BVCustom c => DCustom c
    end.
