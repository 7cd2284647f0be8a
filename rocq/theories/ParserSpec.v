(** When two parsed directives say the same: up to the order and repetition of
    tags, links and currencies, and to metadata values which are overridden by a
    later value with the same key. *)
From Coq Require Import Ascii.
From stdpp Require Import prelude gmap strings.
From Verif Require Import DecModel LedgerTypes JsonModel ParserModel.

Definition same_names (l l' : list string) : Prop := ∀ s, s ∈ l ↔ s ∈ l'.
(** The value which counts for a key. *)
Definition value_of {A} (k : string) (l : list (string * A)) : option A := last (entries k l).
Definition same_metadata (m m' : pmetadata) : Prop :=
  same_names (pm_tags m) (pm_tags m') ∧ same_names (pm_links m) (pm_links m') ∧
  ∀ k, value_of k (pm_key_values m) = value_of k (pm_key_values m').
Definition same_posting (p p' : pposting) : Prop :=
  pp_span p = pp_span p' ∧ pp_flag p = pp_flag p' ∧ pp_account p = pp_account p' ∧
  pp_amount p = pp_amount p' ∧ pp_currency p = pp_currency p' ∧ pp_cost p = pp_cost p' ∧
  pp_price p = pp_price p' ∧ same_metadata (pp_metadata p) (pp_metadata p').
Definition same_variant (v v' : pvariant) : Prop :=
  match v, v' with
  | PVTransaction f p n ps, PVTransaction f' p' n' ps' =>
      f = f' ∧ p = p' ∧ n = n' ∧ Forall2 same_posting ps ps'
  | PVOpen a cs b, PVOpen a' cs' b' => a = a' ∧ same_names cs cs' ∧ b = b'
  | _, _ => v = v'
  end.
Definition same_parsed (d d' : pdirective) : Prop :=
  pdr_span d = pdr_span d' ∧ pdr_date d = pdr_date d' ∧
  same_metadata (pdr_metadata d) (pdr_metadata d') ∧ same_variant (pdr_variant d) (pdr_variant d').

(** What a directive received by the client shows of the parsed one. *)
Definition shows_names (l : list string) (o : option (gset string)) : Prop :=
  (∀ s, s ∈ l ↔ ∃ X, o = Some X ∧ s ∈ X) ∧ o ≠ Some ∅.
Definition shows_value (v : pmeta) (w : meta_value) : Prop :=
  match v, w with
  | PMSimple (SVString x), MVString y | PMSimple (SVCurrency x), MVCurrency y
  | PMSimple (SVAccount x), MVAccount y | PMSimple (SVTag x), MVTag y | PMSimple (SVLink x), MVLink y => x = y
  | PMSimple (SVDate x), MVDate y => x = y
  | PMSimple (SVBool x), MVBool y => x = y
  | PMSimple (SVExpr x), MVNumber y => x = y
  | PMSimple SVNull, MVNull => True
  | PMAmount n c, MVAmount n' c' => n = n' ∧ c = c'
  | _, _ => False
  end.
(** Equal absence, and related presence. *)
Definition shows_option {A B} (R : A → B → Prop) (x : option A) (y : option B) : Prop :=
  match x, y with Some a, Some b => R a b | None, None => True | _, _ => False end.
Definition shows_metadata (m : pmetadata) (tags links : option (gset string))
    (kvs : option (gmap string meta_value)) : Prop :=
  shows_names (pm_tags m) tags ∧ shows_names (pm_links m) links ∧
  (∀ k, shows_option shows_value (value_of k (pm_key_values m)) (kvs ≫= (.!! k))) ∧ kvs ≠ Some ∅.
Definition shows_flag (f : pflag) (s : string) : Prop :=
  match f with
  | FAsterisk => s = "*" | FExclamation => s = "!" | FAmpersand => s = "&" | FHash => s = "#"
  | FQuestion => s = "?" | FPercent => s = "%" | FLetter c => s = "'" +:+ String c ""
  end.
Definition shows_cost (c : pcost_spec) (s : cost_spec) : Prop :=
  cs_per_unit s = pcs_per_unit c ∧ cs_total s = pcs_total c ∧ cs_cur s = pcs_cur c ∧
  cs_date s = pcs_date c ∧ cs_label s = pcs_label c ∧ cs_merge s = pcs_merge c.
Definition scoped_per_unit (n : pscoped) : option dec := match n with PerUnit x => Some x | Total _ => None end.
Definition scoped_total (n : pscoped) : option dec := match n with PerUnit _ => None | Total x => Some x end.
Definition shows_price (p : pprice_spec) (s : price_spec) : Prop :=
  (∀ c, prs_cur s = Some c ↔ p = PPSBareCurrency c ∨ ∃ n, p = PPSCurrencyAmount n c) ∧
  (∀ x, prs_per_unit s = Some x ↔ p = PPSBareAmount (PerUnit x) ∨ ∃ c, p = PPSCurrencyAmount (PerUnit x) c) ∧
  (∀ x, prs_total s = Some x ↔ p = PPSBareAmount (Total x) ∨ ∃ c, p = PPSCurrencyAmount (Total x) c).
Definition shows_posting (p : pposting) (s : posting_spec) : Prop :=
  ps_span s = Some (pp_span p) ∧ shows_option shows_flag (pp_flag p) (ps_flag s) ∧ ps_acc s = pp_account p ∧
  ps_units s = pp_amount p ∧ ps_cur s = pp_currency p ∧ shows_option shows_cost (pp_cost p) (ps_cost s) ∧
  shows_option shows_price (pp_price p) (ps_price s) ∧
  shows_metadata (pp_metadata p) (ps_tags s) (ps_links s) (ps_metadata s).
Definition shows_variant (v : pvariant) (w : directive_variant) : Prop :=
  match v, w with
  | PVTransaction f p n ps, DTransaction t =>
      shows_flag f (tx_flag t) ∧ tx_payee t = p ∧ tx_narration t = n ∧ Forall2 shows_posting ps (tx_postings t)
  | PVPrice c n pc, DPrice d =>
      pd_cur d = c ∧ pr_per_unit (pd_price d) = n ∧ pr_total (pd_price d) = None ∧ pr_cur (pd_price d) = pc
  | PVBalance a n c t, DBalance b => bal_acc b = a ∧ bal_units b = n ∧ bal_cur b = c ∧ bal_tolerance b = t
  | PVOpen a cs m, DOpen o => op_acc o = a ∧ shows_names cs (op_currencies o) ∧ op_booking o = m
  | PVPad a s, DPad p => pad_acc p = a ∧ pad_source p = s
  | PVClose a, DClose a' => a' = a
  | PVCommodity c, DCommodity c' => c' = c
  | PVDocument a p, DDocument a' p' => a' = a ∧ p' = p
  | PVNote a c, DNote a' c' => a' = a ∧ c' = c
  | PVEvent t d, DEvent t' d' => t' = t ∧ d' = d
  | PVQuery n c, DQuery n' c' => n' = n ∧ c' = c
  | PVCustom t vs, DCustom c => cu_type c = t ∧ Forall2 shows_value vs (cu_values c)
  | _, _ => False
  end.
Definition shows (p : pdirective) (d : directive) : Prop :=
  d_span d = Some (pdr_span p) ∧ d_date d = pdr_date p ∧
  shows_metadata (pdr_metadata p) (d_tags d) (d_links d) (d_metadata d) ∧
  shows_variant (pdr_variant p) (d_variant d).

(** The last entry for a currency, or for all currencies. *)
Definition tolerance_for (c : option string) (l : list (option string * dec)) : option dec :=
  last ((λ x, x.2) <$> filter (λ x, x.1 = c) l).
