(** The text of costs, prices and postings, and how it is read. *)
From Coq Require Import Ascii QArith.
From stdpp Require Import prelude gmap strings.
From Verif Require Import DecModel LedgerTypes IsoModel IsoFacts JsonModel WireModel CljModel InventoryModel ClientModel NumText TextFacts FormatModel FormatProps OrderFacts
  TextSpec WriteSpec TextWords TextRead WriteFacts.
Local Open Scope nat_scope.
Local Notation string_app_assoc := TextFacts.string_app_assoc.
Local Notation app_nil := TextWords.app_nil.

(** * Costs *)
Fixpoint sep (l : list (list tok)) : list tok :=
  match l with [] => [] | [a] => a | a :: l => a ++ Mark "," :: sep l end.
Lemma seg_sep P T : Forall2 (λ s ts, seg (" " +:+ s) ts) P T → P ≠ [] → seg (" " +:+ String.concat ", " P) (sep T).
Proof.
  induction 1 as [|p t P T Hp HF IH]; [done|]. intros _. destruct HF as [|q t' P T Hq HF]; [done|].
  change (sep (t :: t' :: T)) with (t ++ [Mark ","] ++ sep (t' :: T)).
  change (String.concat ", " (p :: q :: P)) with (p +:+ "," +:+ " " +:+ String.concat ", " (q :: P)).
  change (" " +:+ p +:+ "," +:+ " " +:+ String.concat ", " (q :: P)) with ((" " +:+ p) +:+ "," +:+ " " +:+ String.concat ", " (q :: P)).
  apply seg_app; [done|]. apply seg_app; [by apply seg_mark|]. by apply IH.
Qed.
Definition no_marks (ts : list tok) : Prop := Forall (λ t, match t with Mark _ => False | _ => True end) ts.
Lemma until_plain ts r : no_marks ts → ∀ x, until_close r = Some x → until_close (ts ++ r) = Some (ts ++ x.1, x.2).
Proof.
  intros H x Hx. induction H as [|t ts Ht H IH]; [by destruct x|]. destruct t; try done; cbn [app until_close]; rewrite IH; done.
Qed.
Lemma until_sep T r : Forall no_marks T → until_close (sep T ++ Mark "}" :: r) = Some (sep T, r).
Proof.
  induction 1 as [|t T Ht HT IH]; [done|]. destruct T as [|t' T].
  - cbn [sep]. rewrite (until_plain _ _ Ht ([], r)) by done. cbn. by rewrite app_nil_r.
  - change (sep (t :: t' :: T)) with (t ++ Mark "," :: sep (t' :: T)). rewrite <- app_assoc.
    rewrite (until_plain _ _ Ht (Mark "," :: sep (t' :: T), r)); [done|]. cbn [app until_close]. by rewrite IH.
Qed.
Lemma commas_plain ts l ls r : no_marks ts → commas r = l :: ls → commas (ts ++ r) = (ts ++ l) :: ls.
Proof. intros H Hr. induction H as [|t ts Ht H IH]; [done|]. destruct t; try done; cbn [app commas]; by rewrite IH. Qed.
Lemma commas_sep T : Forall no_marks T → T ≠ [] → commas (sep T) = T.
Proof.
  induction 1 as [|t T Ht HT IH]; [done|]. intros _. destruct T as [|t' T].
  - cbn [sep]. rewrite <- (app_nil_r t) at 1. rewrite (commas_plain t [] [] []) by done. by rewrite app_nil_r.
  - change (sep (t :: t' :: T)) with (t ++ Mark "," :: sep (t' :: T)).
    rewrite (commas_plain t [] (t' :: T)); [by rewrite app_nil_r|done|]. cbn [commas]. by rewrite IH.
Qed.
Lemma maybe_cost_read T c r : Forall no_marks T → Forall (.≠ []) T → cost_parts no_cost T = Some c →
  maybe_cost (Mark "{" :: sep T ++ Mark "}" :: r) = Some (Some c, r).
Proof.
  intros H Hn Hc. cbn [maybe_cost]. rewrite until_sep by done. cbn [mbind option_bind fst snd]. destruct T as [|t T]; [by injection Hc as <-|].
  rewrite commas_sep by done. rewrite Hc. cbn [mbind option_bind]. apply Forall_cons in Hn as [Hn _].
  destruct t; [done|]. by destruct T.
Qed.
Lemma strip_word w r : word_name w → strip_lead (w +:+ r) = w +:+ r.
Proof. intros [Hn Hw]. destruct w as [|c w]; [done|]. change (String c w +:+ r) with (String c (w +:+ r)). cbn in Hw. by all_chars c. Qed.

(** The amount of a cost or price, as words. *)
Definition amount_words (u t : option dec) (cur : option string) (wu wt : string) : list string :=
  match u, t with Some _, _ => [wu] | None, Some _ => ["#"; wt] | _, _ => [] end ++ match cur with Some c => [c] | None => [] end.
Definition reads (o : option dec) (w : string) : Prop := match o with Some d => read_number w = Some d | None => True end.
Lemma opt_number x o : opt_shown num_is x o → all_of plain_number o →
  ∃ w, reads o w ∧ truthy x = (if o then true else false) ∧ (is_Some o → str_text x = Some w).
Proof.
  intros H Hp. destruct o as [d|]; cbn in H.
  - destruct H as (v&->&H). destruct (num_ok _ _ H Hp) as (w&Hw&Hr&Ht). by exists w.
  - subst x. exists "". split_and!; [done..|by intros []].
Qed.
Lemma opt_string x o : opt_shown str_is x o → x = VStr <$> o.
Proof. destruct o; [|done]. by intros (v&->&->). Qed.
Lemma opt_date x o : opt_shown date_is x o → x = VDate <$> o.
Proof. destruct o; [|done]. by intros (v&->&->). Qed.

Definition quoted (s : string) : string := String """" (s +:+ """").
Definition amount_part (aw : list string) : list string := match aw with [] => [] | _ => [String.concat " " aw] end.
Definition cost_rest (d : option date) (l : option string) (m : bool) : list string :=
  match d with Some d => [fmt_date d] | None => [] end ++ match l with Some l => [quoted l] | None => [] end ++ (if m then ["*"] else []).
Definition rest_toks (d : option date) (l : option string) (m : bool) : list (list tok) :=
  match d with Some d => [[Word (fmt_date d)]] | None => [] end ++ match l with Some l => [[Quoted l]] | None => [] end ++ (if m then [[Word "*"]] else []).
Definition amount_toks (aw : list string) : list (list tok) := match aw with [] => [] | _ => [Word <$> aw] end.

Lemma cost_text_parts v u t cur d l m : cost_is v (CostSpec u t cur d l m) → cost_writable (CostSpec u t cur d l m) →
  ∃ wu wt, reads u wu ∧ reads t wt ∧
    cost_text v = Some ("{" +:+ String.concat ", " (amount_part (amount_words u t cur wu wt) ++ cost_rest d l m) +:+ "}").
Proof.
  intros (H1&H2&H3&H4&H5&H6) (W1&W2&W3&W4&W5&W6); cbn [cs_per_unit cs_total cs_cur cs_date cs_label cs_merge] in *.
  destruct (opt_number _ _ H1 W1) as (wu&Hu&Tu&Su). apply opt_string in H3, H5. apply opt_date in H4.
  assert (∃ wt, reads t wt ∧ (u = None → truthy (vget "total" v) = (if t then true else false) ∧ (is_Some t → str_text (vget "total" v) = Some wt))) as (wt&Ht&Ht').
  { destruct u as [x|].
    - rewrite W3 by done. by exists "".
    - destruct (opt_number _ _ (H2 eq_refl) W2) as (wt&Ht&Tt&St). by exists wt. }
  exists wu, wt. split_and!; [done..|]. unfold cost_text. rewrite Tu, H3, H4, H5, H6.
  enough (∃ bare, cat [
    (if (if u then true else false) then str_text (vget "per-unit" v)
     else if truthy (vget "total" v) then cat [Some "# "; str_text (vget "total" v)] else Some "");
    (if truthy (VStr <$> cur) then cat [Some " "; print_text (VStr <$> cur)] else Some "");
    (if truthy (VDate <$> d) then cat [Some ", "; str_text (VDate <$> d)] else Some "");
    (match double_quote (VStr <$> l) with Some l => Some (", " +:+ l) | None => Some "" end);
    (if truthy (if m then Some (VBool true) else None) then Some ", *" else Some "")] = Some bare ∧
    strip_lead bare = String.concat ", " (amount_part (amount_words u t cur wu wt) ++ cost_rest d l m)) as (bare&->&<-) by done.
  destruct u as [u|].
  - rewrite Su by done. pose proof (number_word _ _ Hu) as Hw. destruct cur as [c|], d as [d|], l as [l|], m; cbn [fmap option_fmap option_map truthy double_quote print_text str_text cat mbind option_bind];
      (eexists; split; [done|]; rewrite strip_word by done; unfold amount_words, cost_rest, amount_part, quoted; cbn [String.concat app]; rewrite ?string_app_assoc; cbn [String.append]; rewrite ?app_nil; done).
  - destruct (Ht' eq_refl) as [-> St]. destruct t as [t|].
    + rewrite St by done. destruct cur as [c|], d as [d|], l as [l|], m; cbn [fmap option_fmap option_map truthy double_quote print_text str_text cat mbind option_bind];
      (eexists; split; [done|]; unfold amount_words, cost_rest, amount_part, quoted; cbn [String.concat app]; rewrite ?string_app_assoc, ?app_nil; done).
    + destruct cur as [c|], d as [d|], l as [l|], m; cbn [fmap option_fmap option_map truthy double_quote print_text str_text cat mbind option_bind];
      (eexists; split; [done|]; unfold amount_words, cost_rest, amount_part, quoted; cbn [String.concat app]; rewrite ?string_app_assoc, ?app_nil; done).
Qed.

Lemma seg_words aw : Forall word_name aw → aw ≠ [] → seg (" " +:+ String.concat " " aw) (Word <$> aw).
Proof.
  induction 1 as [|w aw Hw H IH]; [done|]. intros _. destruct aw as [|w' aw]; [by apply seg_word|].
  change (String.concat " " (w :: w' :: aw)) with (w +:+ " " +:+ String.concat " " (w' :: aw)).
  change (" " +:+ w +:+ " " +:+ String.concat " " (w' :: aw)) with ((" " +:+ w) +:+ " " +:+ String.concat " " (w' :: aw)).
  apply (seg_app _ _ [_]); [by apply seg_word|]. by apply IH.
Qed.
Lemma amount_words_names u t cur wu wt : reads u wu → reads t wt → all_of currency_name cur → Forall word_name (amount_words u t cur wu wt).
Proof.
  intros Hu Ht Hc. unfold amount_words. apply Forall_app. split.
  - destruct u; [constructor; [by eapply number_word|done]|]. destruct t; [|done]. constructor; [done|]. constructor; [by eapply number_word|done].
  - destruct cur; [|done]. constructor; [apply Hc|done].
Qed.
Lemma rest_parts u t cur d l m : all_of (λ d, valid_date d = true) d → 
  cost_parts (CostSpec u t cur None None false) (rest_toks d l m) = Some (CostSpec u t cur d l m).
Proof.
  intros Hd. unfold rest_toks. destruct d as [d|].
  - cbn [app cost_parts cost_part]. rewrite (parse_fmt_date _ Hd).
    assert (String.eqb (fmt_date d) "*" = false) as ->.
    { apply String.eqb_neq. intros E. pose proof (parse_fmt_date _ Hd) as H. by rewrite E in H. }
    cbn [mbind option_bind]. by destruct l, m.
  - by destruct l, m.
Qed.
Lemma amount_cost_part u t cur wu wt : reads u wu → reads t wt → (is_Some u → t = None) → all_of currency_name cur →
  amount_words u t cur wu wt ≠ [] → cost_part no_cost (Word <$> amount_words u t cur wu wt) = Some (CostSpec u t cur None None false).
Proof.
  intros Hu Ht Hut Hc Hn. unfold amount_words in *.
  assert (∀ c, currency_name c → read_number c = None ∧ parse_date c = None ∧ String.eqb c "*" = false ∧ String.eqb c "#" = false) as Hcur.
  { intros c [H _]. destruct (currency_not c H) as (E1&E2&_&_&_&_&_&_&N1&N2&_). apply String.eqb_neq in N1, N2. done. }
  destruct u as [u|].
  - rewrite Hut by done. cbn in Hu. destruct (number_not _ _ Hu) as (_&_&_&_&_&N&_). apply String.eqb_neq in N. destruct cur as [c|].
    + destruct (Hcur c Hc) as (C1&C2&C3&C4). cbn [app fmap list_fmap cost_part no_cost maybe_number]. rewrite Hu. cbn [maybe_total maybe_currency]. destruct Hc as [Hc _]. by rewrite Hc.
    + cbn [app fmap list_fmap cost_part no_cost maybe_number]. by rewrite Hu, N, (number_not_date _ _ Hu).
  - destruct t as [t|].
    + cbn in Ht. destruct cur as [c|]; cbn [app fmap list_fmap cost_part no_cost maybe_number]; change (read_number "#") with (@None dec); cbv iota beta; cbn [maybe_total]; rewrite Ht; cbn [String.eqb Ascii.eqb Bool.eqb maybe_currency]; [|done].
      destruct Hc as [Hc _]. by rewrite Hc.
    + destruct cur as [c|]; [|done]. destruct (Hcur c Hc) as (C1&C2&C3&C4). cbn [app fmap list_fmap cost_part no_cost maybe_number].
      rewrite C3, C2, C1. cbn [maybe_total maybe_currency]. destruct Hc as [Hc _]. by rewrite Hc.
Qed.
Lemma cost_item v c : cost_is v c → cost_writable c →
  ∃ inner, item (cat [Some " "; cost_text v]) (Mark "{" :: inner) ∧ ∀ r, maybe_cost (Mark "{" :: inner ++ r) = Some (Some c, r).
Proof.
  destruct c as [u t cur d l m]. intros H W. destruct (cost_text_parts _ _ _ _ _ _ _ H W) as (wu&wt&Hu&Ht&->).
  destruct W as (W1&W2&W3&W4&W5&W6). cbn [cs_per_unit cs_total cs_cur cs_date cs_label cs_merge] in *.
  set (aw := amount_words u t cur wu wt). set (P := amount_part aw ++ cost_rest d l m). set (T := amount_toks aw ++ rest_toks d l m).
  assert (Forall2 (λ s ts, seg (" " +:+ s) ts) P T) as HPT.
  { apply Forall2_app.
    - unfold amount_part, amount_toks. pose proof (amount_words_names _ _ _ _ _ Hu Ht W4) as Hw. fold aw in Hw. destruct aw as [|w aw']; [constructor|].
      constructor; [by apply seg_words|constructor].
    - unfold cost_rest, rest_toks. apply Forall2_app; [|apply Forall2_app].
      + destruct d as [d|]; [|constructor]. constructor; [|constructor]. by apply seg_word, fmt_date_word.
      + destruct l as [l|]; [|constructor]. constructor; [|constructor]. by apply seg_quoted.
      + destruct m; [|constructor]. constructor; [|constructor]. by apply seg_word. }
  assert (Forall no_marks T ∧ Forall (.≠ []) T) as [HT1 HT2].
  { unfold T. rewrite !Forall_app. unfold amount_toks, rest_toks. split; (split; [destruct aw as [|w aw']; [constructor|]; constructor; [|constructor]|]).
    - apply Forall_forall. intros x (y&->&_)%elem_of_list_fmap. done.
    - rewrite !Forall_app. split_and!; [destruct d|destruct l|destruct m]; repeat constructor.
    - done.
    - rewrite !Forall_app. split_and!; [destruct d|destruct l|destruct m]; repeat constructor; done. }
  exists (sep T ++ [Mark "}"]). split.
  - exists (" " +:+ ("{" +:+ String.concat ", " P +:+ "}")). split_and!; [cbn; by rewrite app_nil| |].
    + apply seg_blank. change (Mark "{" :: sep T ++ [Mark "}"]) with ((Mark "{" :: sep T) ++ [Mark "}"]).
      change ("{" +:+ String.concat ", " P +:+ "}") with (("{" +:+ String.concat ", " P) +:+ "}").
      apply seg_app; [|by apply seg_mark]. destruct HPT as [|p t' P' T' Hp HF]; [by apply seg_mark|].
      change ("{" +:+ ?s) with (String "{" s). apply seg_mark_blank; [done|].
      apply (seg_app "{" (" " +:+ String.concat ", " (p :: P')) [Mark "{"]); [by apply seg_mark|]. apply seg_sep; [by constructor|done].
    + assert (no_eol (sep T)) as Hs.
      { assert (Forall no_eol T) as Hno.
        { unfold T, amount_toks, rest_toks. rewrite !Forall_app. split_and!; [destruct aw as [|w aw']; [constructor|]; constructor; [|constructor]|destruct d|destruct l|destruct m]; repeat constructor; unfold no_eol.
          - by intros (y&E&_)%elem_of_list_fmap.
          - set_solver.
          - set_solver.
          - set_solver. }
        clear -Hno; clearbody T. induction Hno as [|t0 T0 Ht0 HT0 IH]; [apply not_elem_of_nil|]. destruct T0 as [|t1 T0]; [done|].
        change (sep (t0 :: t1 :: T0)) with (t0 ++ Mark "," :: sep (t1 :: T0)). unfold no_eol in *. rewrite elem_of_app, elem_of_cons. naive_solver. }
      unfold no_eol in *. rewrite elem_of_cons, elem_of_app, elem_of_list_singleton. naive_solver.
  - intros r. rewrite <- app_assoc. apply maybe_cost_read; [done..|]. unfold T, amount_toks.
    pose proof (amount_cost_part _ _ _ _ _ Hu Ht W3 W4) as Ha. fold aw in Ha. destruct aw as [|w aw'] eqn:Eaw.
    + unfold aw, amount_words in Eaw. destruct u, t, cur; try done. by apply rest_parts.
    + cbn [app cost_parts]. rewrite Ha by done. cbn [mbind option_bind]. by apply rest_parts.
Qed.

(** * Prices *)
Lemma price_item own v p : price_is v p → price_writable p → (own = true ∨ prs_total p = None) →
  ∃ ts, item (cat [Some " "; price_text v]) (Word "@" :: ts) ∧ maybe_price own (Word "@" :: ts) = Some (Some p, []).
Proof.
  destruct p as [u t cur]. intros (H1&H2&H3) (W1&W2&W3&W4) Hown; cbn [prs_per_unit prs_total prs_cur] in *.
  destruct (opt_number _ _ H1 W1) as (wu&Hu&Tu&Su). apply opt_string in H3.
  assert (∃ wt, reads t wt ∧ (u = None → truthy (vget "total" v) = (if t then true else false) ∧ (is_Some t → str_text (vget "total" v) = Some wt))) as (wt&Ht&Ht').
  { destruct u as [x|].
    - rewrite W3 by done. by exists "".
    - destruct (opt_number _ _ (H2 eq_refl) W2) as (wt&Ht&Tt&St). by exists wt. }
  exists (Word <$> amount_words u t cur wu wt). split.
  - exists (" " +:+ String.concat " " ("@" :: amount_words u t cur wu wt)). split_and!.
    + unfold price_text. rewrite Tu, H3. destruct u as [u|].
      * rewrite Su by done. unfold amount_words. destruct cur as [c|]; cbn [fmap option_fmap option_map truthy print_text str_text cat mbind option_bind String.concat app];
          rewrite ?string_app_assoc, ?app_nil; done.
      * destruct (Ht' eq_refl) as [-> St]. destruct t as [t|]; [rewrite St by done|]; unfold amount_words;
          (destruct cur as [c|]; cbn [fmap option_fmap option_map truthy print_text str_text cat mbind option_bind String.concat app];
          rewrite ?string_app_assoc, ?app_nil; done).
    + change (Word "@" :: (Word <$> amount_words u t cur wu wt)) with (Word <$> ("@" :: amount_words u t cur wu wt)). apply seg_words; [|done].
      constructor; [done|]. by apply amount_words_names.
    + unfold no_eol. rewrite elem_of_cons. intros [|(y&E&_)%elem_of_list_fmap]; done.
  - assert (∀ c, currency_name c → read_number c = None ∧ is_currency c = true) as Hcur.
    { intros c [H _]. by destruct (currency_not c H) as (E1&_). }
    unfold amount_words. destruct u as [u|].
    + rewrite W3 by done. cbn in Hu. destruct cur as [c|]; cbn [app fmap list_fmap maybe_price maybe_number]; rewrite Hu; cbn [maybe_currency]; [|done].
      destruct (Hcur c W4) as [_ ->]. done.
    + destruct t as [t|].
      * destruct Hown as [-> |]; [|done]. cbn in Ht. destruct cur as [c|]; cbn [app fmap list_fmap maybe_price maybe_number]; change (read_number "#") with (@None dec); cbv iota beta; cbn [maybe_total]; rewrite Ht;
          cbn [String.eqb Ascii.eqb Bool.eqb maybe_currency]; [|done]. destruct (Hcur c W4) as [_ ->]. done.
      * destruct cur as [c|]; [|by destruct own]. destruct (Hcur c W4) as [E1 E2]. cbn [app fmap list_fmap maybe_price maybe_number]. rewrite E1.
        destruct own; cbn [maybe_total maybe_currency]; by rewrite E2.
Qed.
