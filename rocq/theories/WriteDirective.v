(** The text of directives, and how it is read. *)
From Coq Require Import Ascii QArith.
From stdpp Require Import prelude gmap strings.
From Verif Require Import DecModel LedgerTypes IsoModel IsoFacts JsonModel WireModel CljModel InventoryModel ClientModel NumText TextFacts FormatModel FormatProps OrderFacts
  TextSpec WriteSpec TextWords TextRead WriteFacts WriteCost WritePosting.
Local Open Scope nat_scope.
Local Notation string_app_assoc := TextFacts.string_app_assoc.
Local Notation app_nil := TextWords.app_nil.

(** * Lists of currencies *)
Fixpoint comma_toks (cs : list string) : list tok :=
  match cs with [] => [] | [c] => [Word c] | c :: cs => Word c :: Mark "," :: comma_toks cs end.
Lemma seg_commas cs : Forall word_name cs → cs ≠ [] → seg (" " +:+ String.concat "," cs) (comma_toks cs).
Proof.
  induction 1 as [|c cs Hc H IH]; [done|]. intros _. destruct cs as [|c' cs]; [by apply seg_word|].
  change (comma_toks (c :: c' :: cs)) with ([Word c] ++ [Mark ","] ++ comma_toks (c' :: cs)).
  change (" " +:+ String.concat "," (c :: c' :: cs)) with ((" " +:+ c) +:+ "," +:+ String.concat "," (c' :: cs)).
  apply seg_app; [by apply seg_word|]. change ("," +:+ ?s) with (String "," s). apply seg_mark_blank; [done|].
  apply (seg_app "," (" " +:+ String.concat "," (c' :: cs)) [_]); [by apply seg_mark|]. by apply IH.
Qed.
Lemma more_commas cs r : match r with Mark _ :: _ => False | _ => True end → cs ≠ [] →
  more_currencies (Mark "," :: comma_toks cs ++ r) = (cs, r).
Proof.
  intros Hr. induction cs as [|c cs IH]; [done|]. intros _. destruct cs as [|c' cs].
  - cbn [comma_toks app more_currencies]. destruct r as [|[| | m| |] r]; done.
  - change (comma_toks (c :: c' :: cs) ++ r) with (Word c :: Mark "," :: comma_toks (c' :: cs) ++ r). cbn [more_currencies].
    cbn [more_currencies] in IH. rewrite IH by done. done.
Qed.
Lemma maybe_commas cs r : Forall (λ c, is_currency c = true) cs → cs ≠ [] → match r with Mark _ :: _ => False | _ => True end →
  maybe_currencies (comma_toks cs ++ r) = (Some cs, r).
Proof.
  intros H Hn Hr. destruct H as [|c cs Hc H]; [done|]. destruct cs as [|c' cs].
  - cbn [comma_toks app maybe_currencies]. rewrite Hc. destruct r as [|[| | m| |] r]; done.
  - change (comma_toks (c :: c' :: cs) ++ r) with (Word c :: Mark "," :: comma_toks (c' :: cs) ++ r). cbn [maybe_currencies].
    rewrite Hc. by rewrite more_commas.
Qed.
Lemma no_eol_commas cs : no_eol (comma_toks cs).
Proof.
  induction cs as [|c cs IH]; [apply not_elem_of_nil|]. destruct cs as [|c' cs]; [by apply single|].
  change (comma_toks (c :: c' :: cs)) with ([Word c] ++ [Mark ","] ++ comma_toks (c' :: cs)). apply no_eol_app; [by apply single|].
  apply no_eol_app; [by apply single|done].
Qed.

(** * Each kind of directive *)
Definition label_tok (t : tok) : Prop := ∃ s, t = Word (String "#" s) ∨ t = Word (String "^" s).
Definition bare (x : directive_variant) : directive_variant :=
  match x with DTransaction t => DTransaction (Transaction (tx_flag t) (tx_payee t) (tx_narration t) []) | _ => x end.
Definition readable (own : bool) (x : directive_variant) : Prop :=
  match x with
  | DTransaction t => Forall (readable_posting own) (tx_postings t)
  | DBalance b => own = true ∨ bal_tolerance b = None
  | _ => True
  end.
Lemma is_kw v k : vget "dct" v = Some (VKw k) → is_txn v = String.eqb k "txn" ∧ is_custom v = String.eqb k "custom".
Proof.
  intros H. unfold is_txn, is_custom. rewrite H. split.
  - by do 4 try (destruct k as [|[[] [] [] [] [] [] [] []] k]; try reflexivity).
  - by do 7 try (destruct k as [|[[] [] [] [] [] [] [] []] k]; try reflexivity).
Qed.
Section Variant.
Context (so : list cval → list cval) (Hso : ∀ l, so l ≡ₚ l) (own : bool).
Lemma strings_names l : strings (VStr <$> l) = Some l.
Proof. unfold strings. induction l as [|s l IH]; [done|]. cbn [fmap list_fmap mapM]. by rewrite IH. Qed.
Lemma item_text k v s : vget k v = Some (VStr s) → word_name s → item (cat [Some " "; print_text (vget k v)]) [Word s].
Proof. intros ->. by apply item_word. Qed.
Lemma item_quote k v s : vget k v = Some (VStr s) → plain_string s → item (Some (" " +:+ quoted_text (vget k v))) [Quoted s].
Proof. intros ->. by apply item_quoted. Qed.
Lemma item_number k v d : (∃ z, vget k v = Some z ∧ num_is z d) → plain_number d →
  ∃ w, read_number w = Some d ∧ item (cat [Some " "; str_text (vget k v)]) [Word w].
Proof.
  intros (z&->&Hz) Hp. destruct (num_ok _ _ Hz Hp) as (w&Ew&Hr&_). exists w. split; [done|]. apply item_word; [done|]. by eapply number_word.
Qed.
Lemma label_first r t : Forall label_tok (t :: r) → ∃ c s, t = Word (String c s) ∧ (c = "#"%char ∨ c = "^"%char).
Proof. intros H. apply Forall_cons in H as [[s [-> | ->]] _]; eauto. Qed.
Lemma variant_item v x : variant_is v x → variant_writable x → readable own x →
  ∃ K ts, dct_type v = Some K ∧ word_name K ∧ item (specific so v) ts ∧
    ∀ r, Forall label_tok r → (match x with DCustom _ => r = [] | _ => True end) → read_variant own K (ts ++ r) = Some (bare x, r).
Proof using Hso.
  intros Hv Hw Hr. destruct x as [t|p|b|o|a|c|p|a s|a s|s s'|s s'|c]; cbn [variant_is variant_writable] in Hv, Hw.
  - destruct Hv as (Hk&Hf&Hp&Hn&_). destruct Hw as (Wf&Wp&Wn&Wpn&_). apply opt_string in Hp, Hn. destruct t as [f p n qs]; cbn [tx_flag tx_payee tx_narration] in *.
    assert (∀ r, read_variant own f r = match r with
        | Quoted p :: Quoted n :: r => Some (DTransaction (Transaction f (Some p) (Some n) []), r)
        | Quoted n :: r => Some (DTransaction (Transaction f None (Some n) []), r)
        | _ => Some (DTransaction (Transaction f None None []), r)
        end) as Hread.
    { intros r. pose proof Wf as Wf'. apply flag_cases in Wf' as [H|[c ->]].
      - repeat (apply elem_of_cons in H as [-> |H]; [done|]). by apply elem_of_nil in H.
      - unfold read_variant. rewrite Wf. done. }
    exists f, (match p with Some p => [Quoted p] | None => [] end ++ match n with Some n => [Quoted n] | None => [] end).
    split_and!.
    + unfold dct_type. rewrite Hk, Hf. done.
    + by apply flag_word.
    + unfold specific. rewrite Hk. unfold txn_fields. rewrite Hp, Hn. destruct p as [p|], n as [n|].
      * cbn [fmap option_fmap option_map double_quote]. 
        replace (" " +:+ String """" (p +:+ """") +:+ " " +:+ String """" (n +:+ """")) with ((" " +:+ String """" (p +:+ """")) +:+ (" " +:+ String """" (n +:+ """"))) by done.
        eexists. split_and!; [done|apply (seg_app _ _ [_] [_]); by apply seg_quoted|]. unfold no_eol. set_solver.
      * by destruct (Wpn ltac:(done)).
      * by apply item_quoted.
      * apply item_nil.
    + intros r Hl _. rewrite Hread. destruct p as [p|], n as [n|]; cbn [app].
      * done.
      * by destruct (Wpn ltac:(done)).
      * destruct r as [|t r]; [done|]. by destruct (label_first _ _ Hl) as (?&?&->&_).
      * destruct r as [|t r]; [done|]. by destruct (label_first _ _ Hl) as (?&?&->&_).
  - destruct Hv as (Hk&Hc&y&Hy&Hn&Hc'). destruct Hw as (W1&W2&W3&W4). destruct p as [c [u tt c']]; cbn [pd_cur pd_price pr_per_unit pr_total pr_cur] in *. subst tt.
    destruct (item_number _ _ _ Hn W2) as (w&Hr'&Iw).
    exists "price", ([Word c] ++ [Word w] ++ [Word c']). split_and!.
    + unfold dct_type. by rewrite Hk.
    + done.
    + unfold specific. rewrite Hk, Hy. cbn [default id].
      rewrite cat_pair, cat_second.
      replace (cat [cat [Some " "; print_text (vget "cur" v)]; cat [Some " "; str_text (vget "per-unit" y)]; Some " "; print_text (vget "cur" y)])
        with (cat [cat [Some " "; print_text (vget "cur" v)]; cat [cat [Some " "; str_text (vget "per-unit" y)]; cat [Some " "; print_text (vget "cur" y)]]]).
      2:{ cbn [cat]. destruct (print_text (vget "cur" v)), (str_text (vget "per-unit" y)), (print_text (vget "cur" y)); cbn; rewrite ?app_nil, ?string_app_assoc; done. }
      apply item_app; [apply item_text; [done|apply W1]|]. apply item_app; [done|]. apply item_text; [done|apply W4].
    + intros r _ _. cbn [app read_variant]. destruct W1 as [E1 _], W4 as [E2 _]. rewrite E1, E2, Hr'. done.
  - destruct Hv as (Hk&Ha&Hn&Hc&Ht). destruct Hw as (W1&W2&W3&W4). destruct b as [a n c tol]; cbn [bal_acc bal_units bal_cur bal_tolerance] in *.
    destruct (item_number _ _ _ Hn W2) as (w&Hr'&Iw).
    assert (∃ wt, reads tol wt ∧ item (opt_part (vget_true "tolerance" v) (λ t, cat [Some " ~ "; str_text (Some t)])) (match tol with Some _ => [Word "~"; Word wt] | None => [] end)) as (wt&Hwt&It).
    { apply opt_true in Ht; [|apply truthy_num]. destruct tol as [d|]; cbn in Ht.
      - destruct Ht as (z&->&Hz). destruct (num_ok _ _ Hz W4) as (wt&Ew&Hrt&_). exists wt. split; [done|]. cbn [opt_part]. rewrite Ew. cbn [cat mbind option_bind].
        eexists. split_and!; [done| |unfold no_eol; set_solver].
        replace (" ~ " +:+ wt +:+ "") with ((" " +:+ "~") +:+ (" " +:+ wt)) by (rewrite app_nil; done).
        apply (seg_app _ _ [_] [_]); apply seg_word; [done|by eapply number_word].
      - rewrite Ht. exists "". split; [done|apply item_nil]. }
    exists "balance", ([Word a] ++ [Word w] ++ [Word c] ++ match tol with Some _ => [Word "~"; Word wt] | None => [] end). split_and!.
    + unfold dct_type. by rewrite Hk.
    + done.
    + unfold specific. rewrite Hk.
      replace (cat [Some " "; print_text (vget "acc" v); Some " "; str_text (vget "units" v); Some " "; print_text (vget "cur" v); opt_part (vget_true "tolerance" v) (λ t, cat [Some " ~ "; str_text (Some t)])])
        with (cat [cat [Some " "; print_text (vget "acc" v)]; cat [cat [Some " "; str_text (vget "units" v)]; cat [cat [Some " "; print_text (vget "cur" v)]; opt_part (vget_true "tolerance" v) (λ t, cat [Some " ~ "; str_text (Some t)])]]]).
      2:{ generalize (opt_part (vget_true "tolerance" v) (λ t, cat [Some " ~ "; str_text (Some t)])). intros o.
          destruct (print_text (vget "acc" v)), (str_text (vget "units" v)), (print_text (vget "cur" v)), o; cbn; rewrite ?app_nil, ?string_app_assoc; done. }
      apply item_app; [apply item_text; [done|apply W1]|]. apply item_app; [done|]. apply item_app; [|done]. apply item_text; [done|apply W3].
    + intros r Hl _. cbn [app read_variant]. rewrite Hr'. destruct W1 as [E1 _], W3 as [E3 _]. cbn [mbind option_bind]. rewrite E1, E3.
      destruct tol as [d|].
      * destruct Hr as [-> |]; [|done]. cbn [app]. cbn in Hwt. rewrite Hwt. done.
      * destruct r as [|t r]; [done|]. destruct (label_first _ _ Hl) as (c1&s1&->&Hc1). destruct r as [|t' r]; [done|].
        cbn [app]. assert (String.eqb (String c1 s1) "~" = false) as -> by (by destruct Hc1 as [-> | ->]).
        apply Forall_cons in Hl as [_ Hl]. by destruct (label_first _ _ Hl) as (c2&s2&->&_).
  - destruct Hv as (Hk&Ha&Hc&Hb). destruct Hw as [W1 W2]. destruct o as [a cs b]; cbn [op_acc op_currencies op_booking] in *.
    assert (∃ l : option (list string), item (opt_part (vget_true "currencies" v) (λ v, l ← elements so v; ss ← strings l; Some (" " +:+ String.concat "," (sort_strings ss))))
        (comma_toks (default [] l)) ∧ Forall (λ c, is_currency c = true) (default [] l) ∧ list_to_set <$> l = cs ∧ l ≠ Some []) as (l&Il&Hl&El&Hnl).
    { assert (opt_shown set_is (vget_true "currencies" v) cs) as Hc'.
      { apply opt_true; [done|]. by intros ? ? (?&->&_). }
      destruct cs as [X|]; cbn in Hc'.
      - destruct Hc' as (z&->&Hz). destruct (elements_set so Hso _ _ Hz) as (l&He&Hl). destruct W2 as [W2 W3].
        assert (∀ c, c ∈ sort_strings l → currency_name c) as Hcn.
        { intros c Hin. apply W3. rewrite sort_strings_perm in Hin. subst X. by apply elem_of_list_to_set. }
        assert (sort_strings l ≠ []) as Hne.
        { intros E. apply W2. rewrite <- Hl. pose proof (sort_strings_perm l) as Hp. rewrite E in Hp. apply Permutation_nil in Hp. by subst l. }
        exists (Some (sort_strings l)). cbn [default id opt_part]. rewrite He. cbn [mbind option_bind]. rewrite strings_names. split_and!.
        + eexists. split_and!; [done| |apply no_eol_commas]. apply seg_commas; [|done]. apply Forall_forall. intros c Hin. apply Hcn. done.
        + apply Forall_forall. intros c Hin. by apply Hcn.
        + cbn. f_equal. rewrite <- Hl. apply set_eq. intros c. rewrite !elem_of_list_to_set. by rewrite sort_strings_perm.
        + congruence.
      - rewrite Hc'. exists None. split_and!; [apply item_nil|constructor|done|done]. }
    assert (item (opt_part (booking_text (vget "booking" v)) (λ b, Some (" " +:+ b))) (match b with Some b => [Quoted (replace_char "-" "_" (upper_case (booking_name b)))] | None => [] end)) as Ib.
    { rewrite Hb. destruct b as [b|]; [|apply item_nil]. cbn [fmap option_fmap option_map booking_text double_quote opt_part]. apply item_quoted. by destruct b. }
    exists "open", ([Word a] ++ comma_toks (default [] l) ++ match b with Some b => [Quoted (replace_char "-" "_" (upper_case (booking_name b)))] | None => [] end). split_and!.
    + unfold dct_type. by rewrite Hk.
    + done.
    + unfold specific. rewrite Hk, cat_pair.
      match goal with |- item (cat [?x; ?y; ?z]) _ => replace (cat [x; y; z]) with (cat [x; cat [y; z]]) end.
      2:{ match goal with |- cat [?x; cat [?y; ?z]] = _ => generalize x, y, z end. intros x y z. destruct x, y, z; cbn; rewrite ?app_nil, ?string_app_assoc; done. }
      apply item_app; [apply item_text; [done|apply W1]|]. by apply item_app.
    + intros r Hlab _. cbn [app read_variant]. rewrite <- app_assoc.
      assert (maybe_currencies (comma_toks (default [] l) ++ match b with Some b => [Quoted (replace_char "-" "_" (upper_case (booking_name b)))] | None => [] end ++ r) =
        (l, match b with Some b => [Quoted (replace_char "-" "_" (upper_case (booking_name b)))] | None => [] end ++ r)) as Em.
      { destruct l as [l|]; cbn [default id] in *.
        - apply maybe_commas; [done|by intros ->|]. destruct b; [done|]. cbn [app]. destruct r as [|t r]; [done|]. by destruct (label_first _ _ Hlab) as (?&?&->&_).
        - cbn [comma_toks app]. destruct b; [done|]. cbn [app]. destruct r as [|t r]; [done|]. destruct (label_first _ _ Hlab) as (c1&s1&->&Hc1). by destruct Hc1 as [-> | ->]. }
      rewrite Em. cbv iota beta.
      assert (forallb is_currency (default [] l) = true) as Ef by (apply forallb_forall; intros c Hin; rewrite Forall_forall in Hl; apply Hl; by apply elem_of_list_In).
      destruct W1 as [E1 _]. destruct b as [b|]; cbn [app].
      * assert (booking_of (replace_char "-" "_" (upper_case (booking_name b))) = Some b) as -> by (by destruct b). cbn [fmap option_fmap option_map mbind option_bind].
        rewrite E1, Ef. cbn. by rewrite <- El.
      * assert (match r with Quoted b :: r0 => (Some b, r0) | _ => (None, r) end = (None, r)) as ->.
        { destruct r as [|t r]; [done|]. by destruct (label_first _ _ Hlab) as (?&?&->&_). }
        cbn [mbind option_bind]. rewrite E1, Ef. cbn. by rewrite <- El.
  - destruct Hv as (Hk&Ha). exists "close", [Word a]. split_and!.
    + unfold dct_type. by rewrite Hk.
    + done.
    + unfold specific. rewrite Hk. apply item_text; [done|apply Hw].
    + intros r _ _. cbn [app read_variant]. destruct Hw as [-> _]. done.
  - destruct Hv as (Hk&Ha). exists "commodity", [Word c]. split_and!.
    + unfold dct_type. by rewrite Hk.
    + done.
    + unfold specific. rewrite Hk. apply item_text; [done|apply Hw].
    + intros r _ _. cbn [app read_variant]. destruct Hw as [-> _]. done.
  - destruct Hv as (Hk&Ha&Hb). destruct Hw as [W1 W2]. destruct p as [a b]. cbn [pad_acc pad_source] in *. exists "pad", ([Word a] ++ [Word b]). split_and!.
    + unfold dct_type. by rewrite Hk.
    + done.
    + unfold specific. rewrite Hk, cat_pair, cat_second. cbn [cat]. 
      match goal with |- item ?o _ => enough (item (cat [cat [Some " "; print_text (vget "acc" v)]; cat [Some " "; print_text (vget "source" v)]]) ([Word a] ++ [Word b])) by done end.
      apply item_app; apply item_text; [done|apply W1|done|apply W2].
    + intros r _ _. cbn [app read_variant]. destruct W1 as [-> _], W2 as [-> _]. done.
  - destruct Hv as (Hk&Ha&Hb). destruct Hw as [W1 W2]. exists "document", ([Word a] ++ [Quoted s]). split_and!.
    + unfold dct_type. by rewrite Hk.
    + done.
    + unfold specific. rewrite Hk, cat_pair. apply item_app; [apply item_text; [done|apply W1]|by apply item_quote].
    + intros r _ _. cbn [app read_variant]. destruct W1 as [-> _]. done.
  - destruct Hv as (Hk&Ha&Hb). destruct Hw as [W1 W2]. exists "note", ([Word a] ++ [Quoted s]). split_and!.
    + unfold dct_type. by rewrite Hk.
    + done.
    + unfold specific. rewrite Hk, cat_pair. apply item_app; [apply item_text; [done|apply W1]|by apply item_quote].
    + intros r _ _. cbn [app read_variant]. destruct W1 as [-> _]. done.
  - destruct Hv as (Hk&Ha&Hb). destruct Hw as [W1 W2]. exists "event", ([Quoted s] ++ [Quoted s']). split_and!.
    + unfold dct_type. by rewrite Hk.
    + done.
    + unfold specific. rewrite Hk.
      pose proof (item_app _ _ _ _ (item_quote _ _ _ Ha W1) (item_quote _ _ _ Hb W2)) as H. cbn [cat mbind option_bind] in H. rewrite app_nil in H. exact H.
    + intros r _ _. done.
  - destruct Hv as (Hk&Ha&Hb). destruct Hw as [W1 W2]. exists "query", ([Quoted s] ++ [Quoted s']). split_and!.
    + unfold dct_type. by rewrite Hk.
    + done.
    + unfold specific. rewrite Hk.
      pose proof (item_app _ _ _ _ (item_quote _ _ _ Ha W1) (item_quote _ _ _ Hb W2)) as H. cbn [cat mbind option_bind] in H. rewrite app_nil in H. exact H.
    + intros r _ _. done.
  - destruct Hv as (Hk&Ha&ws&Hb&HF). destruct Hw as (W1&W2&W3). destruct c as [s vs]. cbn [cu_type cu_values] in *.
    destruct (values_item _ _ HF W2 W3) as (tss&Hi&Hrd&_). exists "custom", (concat ([Quoted s] :: tss)). split_and!.
    + unfold dct_type. by rewrite Hk.
    + done.
    + unfold specific. rewrite Hk, Hb. cbn [mbind option_bind]. apply item_cat. constructor; [|done]. by apply item_quote.
    + intros r _ ->. cbn [concat app]. rewrite app_nil_r. cbn [read_variant]. by rewrite Hrd.
Qed.
End Variant.

(** * A directive *)
Section Directive.
Context (so : list cval → list cval) (Hso : ∀ l, so l ≡ₚ l) (own : bool).
Lemma meta_opt_rows v md : opt_shown metadata_is (vget "metadata" v) md → all_of metadata_writable md →
  ∃ ls kvs, rows_of (opt_part (vget_true "metadata" v) (meta_lines "  ")) ((Indent ::.) <$> ls) ∧
    mapM (read_part own) ls = Some (parts [] [] kvs) ∧ meta_map kvs = Some md.
Proof.
  intros Hm Wm. apply opt_true in Hm; [|apply truthy_metadata]. destruct md as [m|]; cbn in Hm.
  - destruct Hm as (x&->&Hx). destruct (meta_rows _ _ Hx Wm) as (ls&kvs&_&R&E&Em). exists ls, kvs. by split_and!.
  - rewrite Hm. exists [], []. split_and!; [apply rows_of_nil|done..].
Qed.
Lemma postings_rows ws qs : Forall2 posting_is ws qs → Forall posting_writable qs → Forall (readable_posting own) qs →
  ∃ ls ps gs, rows_of (cat (posting_text so <$> ws)) ((Indent ::.) <$> ls) ∧ mapM (read_part own) ls = Some ps ∧ grouped ps = ([], gs) ∧
    mapM with_parts gs = Some (unspanned_posting <$> qs).
Proof using Hso.
  induction 1 as [|w q ws qs Hq HF IH]; intros HW HR.
  - exists [], [], []. split_and!; [apply rows_of_nil|done..].
  - apply Forall_cons in HW as [W1 HW]. apply Forall_cons in HR as [R1 HR]. destruct (IH HW HR) as (ls&ps&gs&(s2&E2&B2&F2)&H2&H3&H4).
    destruct (posting_rows so Hso own _ _ Hq W1 R1) as (ls1&q'&ps1&(s1&E1&B1&F1)&H1&N1&P1).
    exists (ls1 ++ ls), (PPosting q' :: ps1 ++ ps), ((q', ps1) :: gs). split_and!.
    + exists (s1 +:+ s2). rewrite fmap_app. split_and!; [cbn [fmap list_fmap cat]; rewrite E1; cbn [mbind option_bind]; by rewrite E2|by apply rows_app|by apply Forall_app].
    + by apply (mapM_some_app _ _ _ (PPosting q' :: ps1)).
    + cbn [grouped]. rewrite grouped_plain by done. rewrite H3. cbn. by rewrite app_nil_r.
    + cbn [mapM fmap list_fmap]. rewrite P1. cbn [mbind option_bind]. by rewrite H4.
Qed.
Lemma read_labels_toks l l' : Forall (.≠ "") l → Forall (.≠ "") l' →
  read_labels (((λ s, Word (String "#" s)) <$> l) ++ ((λ s, Word (String "^" s)) <$> l')) = Some (parts l l' []).
Proof.
  intros H H'. induction H as [|s l Hs H IH].
  - cbn [fmap list_fmap app]. unfold parts. cbn [fmap list_fmap app]. rewrite app_nil_r. induction H' as [|s l' Hs H IH]; [done|].
    cbn [fmap list_fmap read_labels]. destruct s as [|c s]; [done|]. cbn. by rewrite IH.
  - cbn [fmap list_fmap app read_labels]. destruct s as [|c s]; [done|]. cbn. by rewrite IH.
Qed.
Lemma read_block_parts dt K ts Lt lp op ps gs qs (x : directive_variant) ls md : valid_date dt = true →
  read_variant own K (ts ++ Lt) = Some (bare x, Lt) → read_labels Lt = Some lp →
  mapM (read_part own) ls = Some (op ++ ps) → Forall not_posting op → grouped ps = ([], gs) → mapM with_parts gs = Some (unspanned_posting <$> qs) →
  match x with DTransaction t => qs = tx_postings t | _ => gs = [] end → meta_map (metas_of op) = Some md →
  read_block own (Word (fmt_date dt) :: Word K :: ts ++ Lt, ls) =
    Some (Directive None dt (label_set (tags_of (lp ++ op))) (label_set (links_of (lp ++ op))) md (d_variant (unspanned (Directive None dt None None None x)))).
Proof.
  intros Hd Hv Hl Hls Hop Hps Hgs Hx Hm. unfold read_block. cbn [fst snd]. rewrite (parse_fmt_date _ Hd). cbn [mbind option_bind]. rewrite Hv. cbn [mbind option_bind fst snd].
  rewrite Hl. cbn [mbind option_bind]. rewrite Hls. cbn [mbind option_bind]. rewrite grouped_plain by done. rewrite Hps. cbn [fst snd]. rewrite app_nil_r, Hm. cbn [mbind option_bind].
  destruct x as [t|p|b|o|a|c|p|a s|a s|s s'|s s'|c]; cbn [bare]; try (subst gs; reflexivity). rewrite Hgs. cbn. by rewrite <- Hx.
Qed.
Lemma parts_app l l' kvs : tags_of (parts l l' [] ++ parts [] [] kvs) = l ∧ links_of (parts l l' [] ++ parts [] [] kvs) = l' ∧ metas_of (parts [] [] kvs) = kvs.
Proof.
  assert (parts l l' [] ++ parts [] [] kvs = parts l l' kvs) as ->.
  { unfold parts. cbn [fmap list_fmap app]. by rewrite app_nil_r, <- app_assoc. }
  by rewrite parts_tags, parts_links, parts_metas.
Qed.
Definition line_head (l : list tok) : Prop := match l with Word _ :: _ => True | _ => False end.
Lemma directive_rows v d : directive_is v d → writable d → readable own (d_variant d) →
  ∃ hd ls, rows_of (directive_text so v) (hd :: ((Indent ::.) <$> ls)) ∧ line_head hd ∧ read_block own (hd, ls) = Some (unspanned d).
Proof using Hso.
  destruct d as [sp dt tg lk md x]. intros (H1&H2&H3&H4&H5) (W1&W2&W3&W4&W5) HR; cbn [d_span d_date d_tags d_links d_metadata d_variant] in *.
  destruct (variant_item so Hso own _ _ H5 W5 HR) as (K&ts&HK&WK&Its&Hrd).
  destruct (decide (is_custom v = true)) as [Hcu|Hcu].
  - assert (∃ c, x = DCustom c) as [c ->].
    { destruct x as [t|p|b|o|a|c|p|a s|a s|s s'|s s'|c]; try (by eexists); exfalso; destruct H5 as [Hk _]; destruct (is_kw _ _ Hk) as [_ E]; by rewrite E in Hcu. }
    assert (is_txn v = false) as Htx by (destruct H5 as [Hk _]; destruct (is_kw _ _ Hk) as [E _]; by rewrite E).
    destruct (below_rows so Hso own v tg lk md H2 H3 H4 W2 W3 W4) as (ls&l&l'&kvs&(s2&E2&B2&F2)&Els&El&El'&Em).
    exists (Word (fmt_date dt) :: Word K :: ts ++ []), ls. split_and!; [|done|].
    + destruct Its as (s1&E1&S1&N1). rewrite app_nil_r. exists ((fmt_date dt +:+ ((" " +:+ K) +:+ s1) +:+ line_end) +:+ s2). split_and!.
      * unfold directive_text. rewrite Hcu, Htx. cbn [app]. 
        match goal with |- cat (?x1 :: ?x2 :: ?x3 :: ?l) = _ => change (cat (x1 :: x2 :: x3 :: l)) with (cat ([x1; x2; x3] ++ l)) end.
        rewrite cat_app, E2, E1. unfold common_header. rewrite H1, HK. cbn. by rewrite ?app_nil, ?string_app_assoc.
      * apply (rows_app _ _ [_]); [|done]. apply rows_head; [by apply fmt_date_word|]. apply (seg_app _ _ [_]); [by apply seg_word|done].
      * constructor; [|done]. unfold no_eol in *. rewrite !elem_of_cons. naive_solver.
    + rewrite (read_block_parts dt K ts [] [] (parts l l' kvs) [] [] [] (DCustom c) ls md); try done.
      * rewrite app_nil_l, parts_tags, parts_links, El, El'. done.
      * by apply Hrd.
      * by rewrite app_nil_r.
      * apply parts_not_posting.
      * by rewrite parts_metas.
  - apply not_true_is_false in Hcu.
    assert (match x with DCustom _ => False | _ => True end) as Hx.
    { destruct x; try done. destruct H5 as [Hk _]. destruct (is_kw _ _ Hk) as [_ E]. by rewrite E in Hcu. }
    destruct (labels_inline_item so Hso "#" _ _ eq_refl H2 W2) as (l&(sl&Esl&Sl&Nl)&Ll&El).
    destruct (labels_inline_item so Hso "^" _ _ eq_refl H3 W3) as (l'&(sl'&Esl'&Sl'&Nl')&Ll'&El').
    destruct (meta_opt_rows v md H4 W4) as (ls&kvs&(s2&E2&B2&F2)&Els&Em).
    assert (∃ ls' ps gs qs, rows_of (cat (if is_txn v then posting_text so <$> vpostings v else [])) ((Indent ::.) <$> ls') ∧
       mapM (read_part own) ls' = Some ps ∧ grouped ps = ([], gs) ∧ mapM with_parts gs = Some (unspanned_posting <$> qs) ∧
       match x with DTransaction t => qs = tx_postings t | _ => gs = [] end) as (ls'&ps&gs&qs&(s3&E3&B3&F3)&Hls'&Hgr&Hgs&Hqs).
    { destruct x as [t|p|b|o|a|c|p|a s|a s|s s'|s s'|c]; [|
        exists [], [], [], []; (split_and!; [|done..]); destruct H5 as [Hk _]; destruct (is_kw _ _ Hk) as [E _]; rewrite E; apply rows_of_nil ..].
      destruct H5 as (Hk&_&_&_&ws&Hws&HF). destruct (is_kw _ _ Hk) as [E _]. rewrite E. destruct W5 as (_&_&_&_&W5).
      destruct (postings_rows _ _ HF W5 HR) as (ls'&ps&gs&R&Hp&Hg&Hm). exists ls', ps, gs, (tx_postings t). split_and!; [|done..].
      unfold vpostings. by rewrite Hws. }
    set (Lt := ((λ s, Word (String "#" s)) <$> l) ++ ((λ s, Word (String "^" s)) <$> l')).
    assert (Forall label_tok Lt) as HLt.
    { unfold Lt. rewrite Forall_app, !Forall_fmap. split; apply Forall_forall; intros s _; exists s; [by left|by right]. }
    exists (Word (fmt_date dt) :: Word K :: ts ++ Lt), (ls ++ ls'). split_and!; [|done|].
    + destruct Its as (s1&E1&S1&N1). exists ((fmt_date dt +:+ ((" " +:+ K) +:+ s1 +:+ sl +:+ sl') +:+ line_end) +:+ (s2 +:+ s3)). split_and!.
      * unfold directive_text. rewrite Hcu. cbn [app].
        match goal with |- cat (?x1 :: ?x2 :: ?x3 :: ?x4 :: ?x5 :: ?x6 :: ?l) = _ => change (cat (x1 :: x2 :: x3 :: x4 :: x5 :: x6 :: l)) with (cat ([x1; x2; x3; x4; x5; x6] ++ l)) end.
        rewrite cat_app, E3, E2, E1, Esl, Esl'. unfold common_header. rewrite H1, HK. cbn. by rewrite ?app_nil, ?string_app_assoc.
      * rewrite fmap_app. apply (rows_app _ _ [_]); [|by apply rows_app]. apply rows_head; [by apply fmt_date_word|]. apply (seg_app _ _ [_]); [by apply seg_word|].
        apply seg_app; [done|]. by apply seg_app.
      * constructor; [|rewrite fmap_app; by apply Forall_app]. unfold Lt, no_eol in *. rewrite !elem_of_cons, !elem_of_app. naive_solver.
    + rewrite (read_block_parts dt K ts Lt (parts l l' []) (parts [] [] kvs) ps gs qs x (ls ++ ls') md); try done.
      * destruct (parts_app l l' kvs) as (->&->&_). rewrite El, El'. done.
      * apply Hrd; [done|]. by destruct x.
      * by apply read_labels_toks.
      * by apply mapM_some_app.
      * apply parts_not_posting.
      * destruct (parts_app l l' kvs) as (_&_&->). done.
Qed.

(** * A ledger *)
(** Directives, one blank line between each. *)
Definition ledger_rows (bs : list (list tok * list (list tok))) : list (list tok) := concat ((λ b, b.1 :: ((Indent ::.) <$> b.2) ++ [[]]) <$> bs).
Lemma blocks_indent ls r x : blocks r = Some ([], x) → blocks (((Indent ::.) <$> ls) ++ r) = Some (ls, x).
Proof. intros H. induction ls as [|l ls IH]; [done|]. cbn [fmap list_fmap app blocks]. by rewrite IH. Qed.
Lemma blocks_ledger bs : Forall (λ b, line_head b.1) bs → blocks (ledger_rows bs) = Some ([], bs).
Proof.
  unfold ledger_rows. induction 1 as [|[h ls] bs Hh H IH]; [done|]. cbn [fmap list_fmap concat fst snd app]. cbn [blocks].
  rewrite <- app_assoc. rewrite (blocks_indent ls ([[]] ++ _) bs); [|cbn [app blocks]; by rewrite IH]. cbn [mbind option_bind fst snd].
  cbn in Hh. by destruct h as [|[] h].
Qed.
Lemma ledger_text vs ds : Forall2 directive_is vs ds → Forall writable ds → Forall (λ d, readable own (d_variant d)) ds →
  ∃ ts, mapM (directive_text so) vs = Some ts ∧ read_ledger own (String.concat line_end ts) = Some (unspanned <$> ds).
Proof using Hso.
  intros HF HW HR.
  assert (∃ ts bs, mapM (directive_text so) vs = Some ts ∧ (ts ≠ [] → ∃ ls, rows (String.concat line_end ts) ls ∧ Forall no_eol ls ∧ ls ++ [[]] = ledger_rows bs) ∧
    Forall (λ b, line_head b.1) bs ∧ mapM (read_block own) bs = Some (unspanned <$> ds)) as (ts&bs&E&Hr&Hh&Hb).
  { induction HF as [|v d vs ds Hd HF IH].
    - exists [], []. split_and!; done.
    - apply Forall_cons in HW as [W1 HW]. apply Forall_cons in HR as [R1 HR]. destruct (IH HW HR) as (ts&bs&E&Hr&Hh&Hb).
      destruct (directive_rows _ _ Hd W1 R1) as (hd&ls&(s&Es&Rs&Fs)&Lh&Rb). exists (s :: ts), ((hd, ls) :: bs). split_and!.
      + cbn [mapM]. rewrite Es. cbn [mbind option_bind]. by rewrite E.
      + intros _. destruct ts as [|t ts].
        * assert (bs = []) as ->.
          { destruct vs; [|cbn [mapM] in E; destruct (directive_text so c); [|done]; cbn [mbind option_bind] in E; by destruct (mapM (directive_text so) vs)].
            inversion HF; subst. by destruct bs as [|b bs]; [|cbn [mapM] in Hb; destruct (read_block own b); [|done]; cbn [mbind option_bind] in Hb; destruct (mapM (read_block own) bs)]. }
          eexists. split_and!; [exact Rs|done|]. unfold ledger_rows. cbn. by rewrite app_nil_r.
        * destruct Hr as (ls'&Rs'&Fs'&El); [done|]. exists ((hd :: ((Indent ::.) <$> ls)) ++ [[]] ++ ls'). split_and!.
          -- change (String.concat line_end (s :: t :: ts)) with (s +:+ line_end +:+ String.concat line_end (t :: ts)).
             apply rows_app; [done|]. apply rows_app; [apply rows_blank|done].
          -- apply Forall_app. split; [done|]. constructor; [apply not_elem_of_nil|done].
          -- unfold ledger_rows in *. cbn [fmap list_fmap concat fst snd]. rewrite <- El. cbn [app]. by rewrite <- !app_assoc.
      + by constructor.
      + cbn [mapM fmap list_fmap]. rewrite Rb. cbn [mbind option_bind]. by rewrite Hb. }
  exists ts. split; [done|]. destruct ts as [|t ts].
  - destruct HF as [|v d vs ds Hd HF]; [done|]. cbn [mapM] in E. destruct (directive_text so v); [|done]. cbn [mbind option_bind] in E. by destruct (mapM (directive_text so) vs).
  - destruct Hr as (ls&Rs&Fs&El); [done|]. unfold read_ledger. rewrite (words_rows _ _ Rs). cbn [mbind option_bind]. rewrite lines_rows by done. rewrite El.
    rewrite blocks_ledger by done. done.
Qed.
End Directive.
