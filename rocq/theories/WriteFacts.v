(** The text of a directive, piece by piece: its words, and how they are read. *)
From Coq Require Import Ascii QArith.
From stdpp Require Import prelude gmap strings.
From Verif Require Import DecModel LedgerTypes IsoModel IsoFacts JsonModel WireModel CljModel InventoryModel ClientModel NumText TextFacts FormatModel FormatProps OrderFacts
  TextSpec WriteSpec TextWords TextRead.
Local Open Scope nat_scope.
Local Notation string_app_assoc := TextFacts.string_app_assoc.
Local Notation app_nil := TextWords.app_nil.

(** * What a value of the client shows *)
Definition opt_shown {A} (R : cval → A → Prop) (x : option cval) (o : option A) : Prop :=
  match o with Some a => ∃ v, x = Some v ∧ R v a | None => x = None end.
Definition str_is (v : cval) (s : string) : Prop := v = VStr s.
Definition num_is (v : cval) (d : dec) : Prop := ∃ n, v = VNum n ∧ cn_dec n = d.
Definition date_is (v : cval) (d : date) : Prop := v = VDate d.
Definition set_is (v : cval) (X : gset string) : Prop := ∃ l : list string, v = VSet (VStr <$> l) ∧ list_to_set l = X.
Definition value_is (v : cval) (m : meta_value) : Prop :=
  match m with
  | MVNull => v = VNil
  | MVAmount d c => ∃ x, v = VMap [("units", x); ("cur", VStr c)] ∧ num_is x d
  | MVString s => v = VMap [("string", VStr s)]
  | MVCurrency s => v = VMap [("cur", VStr s)]
  | MVAccount s => v = VMap [("acc", VStr s)]
  | MVTag s => v = VMap [("tag", VStr s)]
  | MVLink s => v = VMap [("link", VStr s)]
  | MVDate d => v = VMap [("date", VDate d)]
  | MVBool b => v = VMap [("bool", VBool b)]
  | MVNumber d => ∃ x, v = VMap [("number", x)] ∧ num_is x d
  end.
Definition metadata_is (v : cval) (m : gmap string meta_value) : Prop :=
  ∃ fs, v = VMap fs ∧ (∀ k, k ∈ fs.*1 ↔ is_Some (m !! k)) ∧ ∀ k x, m !! k = Some x → ∃ y, vget k v = Some y ∧ value_is y x.
Definition cost_is (v : cval) (c : cost_spec) : Prop :=
  opt_shown num_is (vget "per-unit" v) (cs_per_unit c) ∧
  (cs_per_unit c = None → opt_shown num_is (vget "total" v) (cs_total c)) ∧
  opt_shown str_is (vget "cur" v) (cs_cur c) ∧ opt_shown date_is (vget "date" v) (cs_date c) ∧
  opt_shown str_is (vget "label" v) (cs_label c) ∧ vget "merge" v = if cs_merge c then Some (VBool true) else None.
Definition price_is (v : cval) (p : price_spec) : Prop :=
  opt_shown num_is (vget "per-unit" v) (prs_per_unit p) ∧
  (prs_per_unit p = None → opt_shown num_is (vget "total" v) (prs_total p)) ∧
  opt_shown str_is (vget "cur" v) (prs_cur p).
Definition posting_is (v : cval) (q : posting_spec) : Prop :=
  opt_shown str_is (vget "flag" v) (ps_flag q) ∧ vget "acc" v = Some (VStr (ps_acc q)) ∧
  opt_shown num_is (vget "units" v) (ps_units q) ∧ opt_shown str_is (vget "cur" v) (ps_cur q) ∧
  opt_shown cost_is (either "cost" "cost-spec" v) (ps_cost q) ∧ opt_shown price_is (either "price" "price-spec" v) (ps_price q) ∧
  opt_shown set_is (vget "tags" v) (ps_tags q) ∧ opt_shown set_is (vget "links" v) (ps_links q) ∧
  opt_shown metadata_is (vget "metadata" v) (ps_metadata q).
Definition variant_is (v : cval) (x : directive_variant) : Prop :=
  match x with
  | DTransaction t =>
      vget "dct" v = Some (VKw "txn") ∧ vget "flag" v = Some (VStr (tx_flag t)) ∧
      opt_shown str_is (vget "payee" v) (tx_payee t) ∧ opt_shown str_is (vget "narration" v) (tx_narration t) ∧
      ∃ ws, vget "postings" v = Some (VVec ws) ∧ Forall2 posting_is ws (tx_postings t)
  | DPrice p =>
      vget "dct" v = Some (VKw "price") ∧ vget "cur" v = Some (VStr (pd_cur p)) ∧
      ∃ y, vget "price" v = Some y ∧ (∃ z, vget "per-unit" y = Some z ∧ num_is z (pr_per_unit (pd_price p))) ∧
        vget "cur" y = Some (VStr (pr_cur (pd_price p)))
  | DBalance b =>
      vget "dct" v = Some (VKw "balance") ∧ vget "acc" v = Some (VStr (bal_acc b)) ∧
      (∃ z, vget "units" v = Some z ∧ num_is z (bal_units b)) ∧ vget "cur" v = Some (VStr (bal_cur b)) ∧
      opt_shown num_is (vget "tolerance" v) (bal_tolerance b)
  | DOpen o =>
      vget "dct" v = Some (VKw "open") ∧ vget "acc" v = Some (VStr (op_acc o)) ∧
      opt_shown set_is (vget "currencies" v) (op_currencies o) ∧
      vget "booking" v = (λ b, VKw (booking_name b)) <$> op_booking o
  | DClose a => vget "dct" v = Some (VKw "close") ∧ vget "acc" v = Some (VStr a)
  | DCommodity c => vget "dct" v = Some (VKw "commodity") ∧ vget "cur" v = Some (VStr c)
  | DPad p => vget "dct" v = Some (VKw "pad") ∧ vget "acc" v = Some (VStr (pad_acc p)) ∧ vget "source" v = Some (VStr (pad_source p))
  | DDocument a s => vget "dct" v = Some (VKw "document") ∧ vget "acc" v = Some (VStr a) ∧ vget "path" v = Some (VStr s)
  | DNote a s => vget "dct" v = Some (VKw "note") ∧ vget "acc" v = Some (VStr a) ∧ vget "comment" v = Some (VStr s)
  | DEvent s s' => vget "dct" v = Some (VKw "event") ∧ vget "type" v = Some (VStr s) ∧ vget "description" v = Some (VStr s')
  | DQuery s s' => vget "dct" v = Some (VKw "query") ∧ vget "name" v = Some (VStr s) ∧ vget "content" v = Some (VStr s')
  | DCustom c =>
      vget "dct" v = Some (VKw "custom") ∧ vget "type" v = Some (VStr (cu_type c)) ∧
      ∃ ws, vget "values" v = Some (VVec ws) ∧ Forall2 value_is ws (cu_values c)
  end.
Definition directive_is (v : cval) (d : directive) : Prop :=
  vget "date" v = Some (VDate (d_date d)) ∧ opt_shown set_is (vget "tags" v) (d_tags d) ∧ opt_shown set_is (vget "links" v) (d_links d) ∧
  opt_shown metadata_is (vget "metadata" v) (d_metadata d) ∧ variant_is v (d_variant d).

(** * Pieces *)
Lemma num_ok v d : num_is v d → plain_number d → ∃ w, str_text (Some v) = Some w ∧ read_number w = Some d ∧ truthy (Some v) = true.
Proof.
  intros (n&->&Hn) Hp. exists (num_text n). split_and!; [done| |done]. subst d. apply C70_plain_partial. by intros d ->.
Qed.
Lemma single t : t ≠ Eol → no_eol [t].
Proof. unfold no_eol. rewrite elem_of_list_singleton. congruence. Qed.
Lemma item_word o w : o = Some w → word_name w → item (cat [Some " "; o]) [Word w].
Proof. intros -> Hw. exists (" " +:+ w). split_and!; [cbn; by rewrite app_nil|by apply seg_word|by apply single]. Qed.
Lemma item_word' w : word_name w → item (Some (" " +:+ w)) [Word w].
Proof. intros Hw. exists (" " +:+ w). split_and!; [done|by apply seg_word|by apply single]. Qed.
Lemma item_quoted s : plain_string s → item (Some (" " +:+ String """" (s +:+ """"))) [Quoted s].
Proof. intros Hs. eexists. split_and!; [done|by apply seg_quoted|by apply single]. Qed.
Lemma seg_blank s ts : seg s ts → seg (" " +:+ s) ts.
Proof.
  intros H p Hp. destruct (H Between I) as (p'&X&Hp'&E&W). exists p', (ended p ++ X). split_and!; [done|by rewrite <- app_assoc, <- E|].
  intros r. change ((" " +:+ s) +:+ r) with (String " " (s +:+ r)). rewrite words_blank by done. by rewrite W, fmap_app_app.
Qed.
Lemma cat_pair a b l : cat (a :: b :: l) = cat (cat [a; b] :: l).
Proof. cbn. destruct a, b; cbn; try done; by destruct (cat l); cbn; rewrite ?app_nil, ?string_app_assoc. Qed.
Lemma cat_cons_nil l : cat (Some "" :: l) = cat l.
Proof. cbn. by destruct (cat l). Qed.

(** * Values *)
Lemma label_not p s : p ∈ ["#"; "^"]%char → parse_date (String p s) = None ∧ read_number (String p s) = None.
Proof.
  intros Hp. assert (read_number (String p s) = None) as Hn.
  { destruct (read_number (String p s)) as [x|] eqn:E; [|done]. apply read_number_first in E as (c&s'&[= <- <-]&Hc&_).
    repeat (apply elem_of_cons in Hp as [-> |Hp]); [..|by apply elem_of_nil in Hp]; by destruct Hc as [[? ?]|]. }
  split; [|done]. repeat (apply elem_of_cons in Hp as [-> |Hp]); [..|by apply elem_of_nil in Hp];
    unfold parse_date; cbn [Ascii.eqb Bool.eqb]; unfold parse_unsigned; by do 9 (destruct s as [|? s]; [done|]); destruct s.
Qed.
Definition first_word_not_currency (ts : list tok) : Prop := match ts with Word w :: _ => is_currency w = false | _ => True end.
Lemma value_item v m : value_is v m → value_writable m → m ≠ MVNull →
  ∃ ts, item (cat [Some " "; meta_text v]) ts ∧ truthy (Some v) = true ∧ ts ≠ [] ∧
    (match m with MVCurrency _ => True | _ => first_word_not_currency ts end) ∧
    ∀ r, match m with MVNumber _ => first_word_not_currency r | _ => True end → read_values (ts ++ r) = cons m <$> read_values r.
Proof.
  destruct m as [d c|s|c|a|s|s|d|b|d|]; intros Hv Hw Hn; [..|done]; cbn [value_is value_writable] in *.
  - destruct Hv as (x&->&Hx). destruct Hw as [Hd [Hc Hc']]. destruct (num_ok _ _ Hx Hd) as (w&Ht&Hr&_).
    exists ([Word w] ++ [Word c]). split_and!; [|done..|by apply (number_not w d)|].
    + replace (cat [Some " "; meta_text (VMap [("units", x); ("cur", VStr c)])]) with (cat [cat [Some " "; Some w]; cat [Some " "; Some c]]).
      { apply item_app; apply item_word; try done. by eapply number_word. }
      assert (meta_text (VMap [("units", x); ("cur", VStr c)]) = cat [str_text (Some x); Some " "; Some c]) as -> by done. rewrite Ht.
      cbn. by rewrite !app_nil, ?string_app_assoc.
    + intros r _. cbn [app read_values]. unfold read_value. rewrite (number_not_date _ _ Hr), Hr. cbn. by rewrite Hc.
  - subst v. exists [Quoted s]. split_and!; [|done..].
    assert (meta_text (VMap [("string", VStr s)]) = Some (String """" (s +:+ """"))) as -> by done. cbn [cat mbind option_bind]. rewrite app_nil. by apply item_quoted.
  - subst v. destruct Hw as [Hc Hc']. exists [Word c]. split_and!; [by apply item_word|done..|].
    intros r _. cbn [app read_values]. unfold read_value. destruct (currency_not c Hc) as (E1&E2&E3&E4&E5&N1&N2&N3&_). rewrite E1, E2, E3, E4.
    apply String.eqb_neq in N1, N2, N3. by rewrite N1, N2, N3, E5, Hc.
  - subst v. destruct Hw as [Hc Hc']. exists [Word a]. destruct (account_not a Hc) as (E1&E2&E3&E4&_&_&E7&N1&N2&N3).
    split_and!; [by apply item_word|done..|]. intros r _. cbn [app read_values]. unfold read_value. rewrite E1, E2, E3, E4.
    apply String.eqb_neq in N1, N2, N3. by rewrite N1, N2, N3, Hc.
  - subst v. exists [Word (String "#" s)]. split_and!; [|done..|].
    + apply item_word; [done|]. by apply label_word.
    + intros r _. cbn [app read_values]. unfold read_value. destruct Hw as [Hne _]. destruct (label_not "#" s) as [-> ->]; [set_solver|]. rewrite labelled_label by done. by destruct s.
  - subst v. exists [Word (String "^" s)]. split_and!; [|done..|].
    + apply item_word; [done|]. by apply label_word.
    + intros r _. cbn [app read_values]. unfold read_value. destruct Hw as [Hne _]. destruct (label_not "^" s) as [-> ->]; [set_solver|]. rewrite labelled_label by done. by destruct s.
  - subst v. pose proof (parse_fmt_date _ Hw) as Hd. exists [Word (fmt_date d)]. split_and!; [|done..| |].
    + apply item_word; [done|]. by apply fmt_date_word.
    + cbn. destruct (is_currency (fmt_date d)) eqn:E; [|done]. apply currency_not in E as (_&E&_). congruence.
    + intros r _. cbn [app read_values]. unfold read_value. by rewrite Hd.
  - subst v. destruct b.
    + exists [Word "TRUE"]. split_and!; [by apply item_word|done..].
    + exists [Word "FALSE"]. split_and!; [by apply item_word|done..].
  - destruct Hv as (x&->&Hx). destruct (num_ok _ _ Hx Hw) as (w&Ht&Hr&_). exists [Word w]. split_and!; [|done..|by apply (number_not w d)|].
    + apply item_word; [exact Ht|]. by eapply number_word.
    + intros r Hf. cbn [app read_values]. unfold read_value. rewrite (number_not_date _ _ Hr), Hr. cbn.
      destruct r as [|[| | | |c] r]; try done. cbn in Hf. by rewrite Hf.
Qed.
Lemma values_item ws vs : Forall2 value_is ws vs → Forall value_writable vs → apart vs →
  ∃ tss, Forall2 item ((λ v, cat [Some " "; meta_text v]) <$> ws) tss ∧ read_values (concat tss) = Some vs ∧
    match vs with MVCurrency _ :: _ => True | _ => first_word_not_currency (concat tss) end.
Proof.
  induction 1 as [|w v ws vs Hv HF IH]; intros Hw Ha; [exists []; split_and!; [constructor|done..]|]. apply Forall_cons in Hw as [Hw1 Hw].
  assert (v ≠ MVNull) as Hn by (intros ->; exact Ha). assert (apart vs) as Ha' by (destruct v, vs as [|[] vs]; first [exact Ha|destruct Ha]).
  destruct (IH Hw Ha') as (tss&H1&H2&H3). destruct (value_item _ _ Hv Hw1 Hn) as (ts&Hi&_&Hne&Hf&Hr).
  exists (ts :: tss). split_and!; [by constructor| |].
  - cbn [concat]. rewrite Hr, H2; [done|]. destruct v; try done. destruct vs as [|[] ?]; first [exact H3|destruct Ha].
  - destruct ts as [|t ts]; [done|]. by destruct v.
Qed.

(** * Tags and links *)
Section Labels.
Context (so : list cval → list cval) (Hso : ∀ l, so l ≡ₚ l).
Lemma elements_set v X : set_is v X → ∃ l : list string, elements so v = Some (VStr <$> l) ∧ list_to_set l = X.
Proof using Hso.
  intros (l&->&HX). destruct (Permutation_map_inv _ _ (Hso (VStr <$> l))) as (l'&E&Hp).
  exists l'. split; [exact (f_equal Some E)|]. rewrite <- HX. apply set_eq. intros s. rewrite !elem_of_list_to_set. by rewrite Hp.
Qed.
Lemma labels_inline_item p o X : no_word p = false → opt_shown set_is o X → all_of labels_writable X →
  ∃ l : list string, item (labels_inline so (String p "") o) ((λ s, Word (String p s)) <$> l) ∧ Forall (.≠ "") l ∧ label_set l = X.
Proof using Hso.
  intros Hp Ho HX. destruct X as [X|]; cbn in Ho; [|subst o; exists []; split_and!; [apply item_nil|done..]].
  destruct Ho as (v&->&Hv). destruct (elements_set _ _ Hv) as (l&He&Hl). destruct HX as [HX1 HX2].
  assert (∀ s, s ∈ l → word_name s) as Hw by (intros s Hs; apply HX2; subst X; by apply elem_of_list_to_set).
  exists l. split_and!.
  - destruct Hv as (l0&->&_). unfold labels_inline. cbn [truthy]. rewrite He. cbn [mbind option_bind].
    replace ((λ s, Word (String p s)) <$> l) with (concat ((λ s, [Word (String p s)]) <$> l)).
    { apply item_cat. clear -Hw Hp. induction l as [|s l IH]; [constructor|]. constructor; [|apply IH; intros; apply Hw; by right].
      apply item_word'. apply label_word; [done|]. apply Hw. by left. }
    clear. induction l as [|s l IH]; [done|]. cbn. by rewrite IH.
  - apply Forall_forall. intros s Hs. by destruct (Hw s Hs).
  - destruct l; [|by rewrite <- Hl]. by rewrite <- Hl in HX1.
Qed.
Lemma labels_lines_rows p o X : no_word p = false → opt_shown set_is o X → all_of labels_writable X →
  ∃ l : list string, rows_of (labels_lines so "  " (String p "") o) ((λ s, [Indent; Word (String p s)]) <$> l) ∧ Forall (.≠ "") l ∧ label_set l = X.
Proof using Hso.
  intros Hp Ho HX. destruct X as [X|]; cbn in Ho; [|subst o; exists []; split_and!; [apply rows_of_nil|done..]].
  destruct Ho as (v&->&Hv). destruct (elements_set _ _ Hv) as (l&He&Hl). destruct HX as [HX1 HX2].
  assert (∀ s, s ∈ l → word_name s) as Hw by (intros s Hs; apply HX2; subst X; by apply elem_of_list_to_set).
  exists l. split_and!.
  - destruct Hv as (l0&->&_). unfold labels_lines. cbn [truthy]. rewrite He. cbn [mbind option_bind].
    replace ((λ s, [Indent; Word (String p s)]) <$> l) with (concat ((λ s, [[Indent; Word (String p s)]]) <$> l)).
    { apply rows_of_cat. clear -Hw Hp. induction l as [|s l IH]; [constructor|]. constructor; [|apply IH; intros; apply Hw; by right].
      eexists. split_and!; [done|apply (rows_indent (" " +:+ String p s)), seg_word|].
      - apply label_word; [done|]. apply Hw. by left.
      - apply Forall_singleton. unfold no_eol. set_solver. }
    clear. induction l as [|s l IH]; [done|]. cbn. by rewrite IH.
  - apply Forall_forall. intros s Hs. by destruct (Hw s Hs).
  - destruct l; [|by rewrite <- Hl]. by rewrite <- Hl in HX1.
Qed.
End Labels.

(** * Metadata *)
Lemma value_read ts m : (∀ r, match m with MVNumber _ => first_word_not_currency r | _ => True end → read_values (ts ++ r) = cons m <$> read_values r) →
  ts ≠ [] → read_meta ts = Some m.
Proof.
  intros H Hn. specialize (H []). rewrite app_nil_r in H. unfold read_meta. destruct ts as [|t ts]; [done|]. rewrite H; [done|]. by destruct m.
Qed.
Lemma meta_rows v m : metadata_is v m → metadata_writable m →
  ∃ ls (kvs : list (string * meta_value)), truthy (Some v) = true ∧ rows_of (meta_lines "  " v) ((Indent ::.) <$> ls) ∧
    (∀ own, mapM (read_part own) ls = Some ((λ kv, PMeta kv.1 kv.2) <$> kvs)) ∧ meta_map kvs = Some (Some m).
Proof.
  intros (fs&->&Hk&Hv) [Hne Hw].
  set (ks := sort_strings (remove_dups ((λ kv, kv.1) <$> fs))).
  assert (ks ≡ₚ remove_dups ((λ kv, kv.1) <$> fs)) as Hks by apply sort_strings_perm.
  assert (∀ k, k ∈ ks ↔ is_Some (m !! k)) as Hin by (intros k; rewrite Hks, elem_of_remove_dups; apply Hk).
  assert (NoDup ks) as Hnd by (rewrite Hks; apply NoDup_remove_dups).
  assert (meta_lines "  " (VMap fs) = cat ((λ k, t ← meta_text (default VNil (vget k (VMap fs)));
             Some ("  " +:+ k +:+ ":" +:+ (if truthy (vget k (VMap fs)) then " " else "") +:+ t +:+ line_end)) <$> ks)) as -> by done.
  assert (∀ k, k ∈ ks → is_Some (m !! k)) as Hin' by (intros k; apply Hin).
  assert (∃ ls kvs, rows_of (cat ((λ k, t ← meta_text (default VNil (vget k (VMap fs)));
             Some ("  " +:+ k +:+ ":" +:+ (if truthy (vget k (VMap fs)) then " " else "") +:+ t +:+ line_end)) <$> ks)) ((Indent ::.) <$> ls) ∧
     (∀ own, mapM (read_part own) ls = Some ((λ kv, PMeta kv.1 kv.2) <$> kvs)) ∧ kvs.*1 = ks ∧ Forall (λ kv, m !! kv.1 = Some kv.2) kvs) as (ls&kvs&H1&H2&H3&H4).
  { clear Hks Hin Hnd Hk. revert Hin'. generalize ks. clear ks. intros ks. induction ks as [|k ks IH]; intros Hin'.
    - exists [], []. split_and!; [apply rows_of_nil|done..].
    - destruct IH as (ls&kvs&H1&H2&H3&H4); [intros ? ?; apply Hin'; by right|].
      destruct (Hin' k) as [x Hx]; [by left|]. destruct (Hv _ _ Hx) as (y&Hy&Hyx). destruct (Hw _ _ Hx) as [Hkey Hxw].
      assert (∃ ts, rows_of (t ← meta_text (default VNil (vget k (VMap fs)));
          Some ("  " +:+ k +:+ ":" +:+ (if truthy (vget k (VMap fs)) then " " else "") +:+ t +:+ line_end)) [Indent :: Word (k +:+ ":") :: ts] ∧ read_meta ts = Some x)
        as (ts&Hr&Hm).
      { rewrite Hy. cbn [default id]. assert (x = MVNull ∨ x ≠ MVNull) as [-> |Hx'] by (destruct x; (by left) || by right).
        - cbn in Hyx. subst y. exists []. split; [|done]. eexists. split_and!; [done| |].
          + cbn [truthy]. replace ("  " +:+ k +:+ ":" +:+ "" +:+ "" +:+ line_end) with (" " +:+ (" " +:+ (k +:+ ":")) +:+ line_end).
            * apply rows_indent, seg_word, key_word. done.
            * change ("" +:+ "" +:+ line_end) with line_end. rewrite !string_app_assoc. done.
          + apply Forall_singleton. unfold no_eol. set_solver.
        - destruct (value_item _ _ Hyx Hxw Hx') as (ts&(s&Hs&Hseg&Hno)&Ht&Hne'&_&Hr). exists ts. split; [|by apply value_read].
          rewrite Ht. cbn [cat mbind option_bind] in Hs. destruct (meta_text y) as [t|]; [|done]. cbn in Hs. injection Hs as <-.
          eexists. split_and!; [done| |].
          + replace ("  " +:+ k +:+ ":" +:+ " " +:+ t +:+ line_end) with (" " +:+ ((" " +:+ (k +:+ ":")) +:+ (" " +:+ t)) +:+ line_end).
            * apply rows_indent. apply (seg_app _ _ [_]); [by apply seg_word, key_word|]. by rewrite app_nil in Hseg.
            * rewrite !string_app_assoc. done.
          + apply Forall_singleton. unfold no_eol in *. set_solver. }
      exists ((Word (k +:+ ":") :: ts) :: ls), ((k, x) :: kvs). split_and!.
      + cbn [fmap list_fmap].
        destruct Hr as (s1&E1&R1&F1), H1 as (s2&E2&R2&F2). exists (s1 +:+ s2). split_and!; [cbn [cat]; rewrite E1; cbn [mbind option_bind]; by rewrite E2| |].
        * by apply (rows_app s1 s2 [_]).
        * by apply (Forall_app_2 _ [_]).
      + intros own. cbn [mapM]. cbn [read_part]. rewrite read_key_key by done. rewrite Hm. cbn. rewrite H2. done.
      + cbn. by rewrite H3.
      + by constructor. }
  exists ls, kvs. split_and!; [done..|]. unfold meta_map.
  assert (list_to_map kvs = m) as Em.
  { apply map_eq. intros k. destruct (m !! k) as [x|] eqn:E.
    - assert (k ∈ ks) as Hkin by (apply Hin; by eexists). rewrite <- H3 in Hkin. apply elem_of_list_fmap in Hkin as ((k'&x')&Ek&Hkin). cbn in Ek. subst k'.
      rewrite Forall_forall in H4. pose proof (H4 _ Hkin) as Hx'. cbn in Hx'. rewrite E in Hx'. injection Hx' as <-.
      apply elem_of_list_to_map_1; [by rewrite H3|done].
    - apply not_elem_of_list_to_map_1. rewrite H3, Hin, E. by intros []. }
  rewrite bool_decide_true by (by rewrite H3). rewrite Em. destruct kvs; [|done]. cbn in Em. by subst m.
Qed.
