(** The text of postings, and how it is read. *)
From Coq Require Import Ascii QArith.
From stdpp Require Import prelude gmap strings.
From Verif Require Import DecModel LedgerTypes IsoModel IsoFacts JsonModel WireModel CljModel InventoryModel ClientModel NumText TextFacts FormatModel FormatProps OrderFacts
  TextSpec WriteSpec TextWords TextRead WriteFacts WriteCost.
Local Open Scope nat_scope.
Local Notation string_app_assoc := TextFacts.string_app_assoc.
Local Notation app_nil := TextWords.app_nil.

Lemma cat_app l l' : cat (l ++ l') = cat [cat l; cat l'].
Proof.
  induction l as [|x l IH]; [cbn; by destruct (cat l'); cbn; rewrite ?app_nil|]. cbn [app]. cbn [cat]. destruct x as [s|]; [|done]. cbn [mbind option_bind]. rewrite IH. cbn.
  destruct (cat l), (cat l'); cbn; rewrite ?app_nil, ?string_app_assoc; done.
Qed.
Lemma cat_second x y z l : cat (x :: y :: z :: l) = cat (x :: cat [y; z] :: l).
Proof. cbn [cat]. destruct x; [|done]. cbn [mbind option_bind]. 
  pose proof (cat_pair y z l) as E. cbn [cat] in E. by rewrite E. Qed.

Lemma mapM_some_app {A B} (f : A → option B) l l' r r' : mapM f l = Some r → mapM f l' = Some r' → mapM f (l ++ l') = Some (r ++ r').
Proof.
  revert r. induction l as [|x l IH]; intros r H H'; [by injection H as <-|]. cbn [mapM] in H. cbn [app mapM]. destruct (f x) as [y|]; [|done]. cbn [mbind option_bind] in *.
  destruct (mapM f l) as [ys|]; [|done]. cbn in H. injection H as <-. rewrite (IH ys) by done. done.
Qed.

(** * What is below a directive or posting *)
Definition parts (l l' : list string) (kvs : list (string * meta_value)) : list part := (PTag <$> l) ++ (PLink <$> l') ++ ((λ kv, PMeta kv.1 kv.2) <$> kvs).
Lemma parts_of l l' kvs : tags_of (parts l l' kvs) = l ∧ links_of (parts l l' kvs) = l' ∧ metas_of (parts l l' kvs) = kvs.
Proof.
  unfold parts, tags_of, links_of, metas_of. induction l as [|s l IH]; [|destruct IH as (IH1&IH2&IH3); cbn in *; by rewrite IH1, IH2, IH3].
  cbn [app fmap list_fmap]. induction l' as [|s l' IH]; [|destruct IH as (IH1&IH2&IH3); cbn in *; by rewrite IH1, IH2, IH3].
  cbn [app fmap list_fmap]. induction kvs as [|[k x] kvs IH]; [done|destruct IH as (IH1&IH2&IH3); cbn in *; by rewrite IH1, IH2, IH3].
Qed.
Lemma parts_tags l l' kvs : tags_of (parts l l' kvs) = l.
Proof. apply parts_of. Qed.
Lemma parts_links l l' kvs : links_of (parts l l' kvs) = l'.
Proof. apply parts_of. Qed.
Lemma parts_metas l l' kvs : metas_of (parts l l' kvs) = kvs.
Proof. apply parts_of. Qed.
Definition not_posting (p : part) : Prop := match p with PPosting _ => False | _ => True end.
Lemma parts_not_posting l l' kvs : Forall not_posting (parts l l' kvs).
Proof. unfold parts. rewrite !Forall_app, !Forall_fmap. split_and!; apply Forall_forall; by intros. Qed.
Lemma grouped_plain ps r : Forall not_posting ps → grouped (ps ++ r) = (ps ++ (grouped r).1, (grouped r).2).
Proof.
  induction 1 as [|p ps Hp H IH]; [cbn [app]; by destruct (grouped r)|]. destruct p; try done; cbn [app grouped]; by rewrite IH.
Qed.
Lemma read_label_parts own (l : list string) p : Forall (.≠ "") l → (p = "#"%char ∨ p = "^"%char) →
  mapM (read_part own) ((λ s, [Word (String p s)]) <$> l) = Some ((if Ascii.eqb p "#" then PTag else PLink) <$> l).
Proof.
  intros H Hp. induction H as [|s l Hs H IH]; [done|]. cbn [fmap list_fmap mapM]. rewrite IH. destruct s as [|c s]; [done|]. by destruct Hp as [-> | ->].
Qed.
Lemma opt_true {A} (R : cval → A → Prop) k v o : opt_shown R (vget k v) o → (∀ x a, R x a → truthy (Some x) = true) → opt_shown R (vget_true k v) o.
Proof.
  intros H HR. unfold vget_true. destruct o as [a|]; unfold opt_shown in *.
  - destruct H as (x&E&Hx). exists x. rewrite E, (HR x a) by done. done.
  - by rewrite H.
Qed.
Lemma truthy_metadata x a : metadata_is x a → truthy (Some x) = true.
Proof. by intros (fs&->&_). Qed.
Lemma truthy_num x a : num_is x a → truthy (Some x) = true.
Proof. by intros (n&->&_). Qed.
Lemma truthy_str x a : str_is x a → truthy (Some x) = true.
Proof. by intros ->. Qed.

Section Posting.
Context (so : list cval → list cval) (Hso : ∀ l, so l ≡ₚ l).
Context (own : bool).
Lemma below_rows v X Y md : opt_shown set_is (vget "tags" v) X → opt_shown set_is (vget "links" v) Y → opt_shown metadata_is (vget "metadata" v) md →
  all_of labels_writable X → all_of labels_writable Y → all_of metadata_writable md →
  ∃ ls l l' kvs, rows_of (cat [labels_lines so "  " "#" (vget "tags" v); labels_lines so "  " "^" (vget "links" v); opt_part (vget_true "metadata" v) (meta_lines "  ")])
      ((Indent ::.) <$> ls) ∧
    mapM (read_part own) ls = Some (parts l l' kvs) ∧ label_set l = X ∧ label_set l' = Y ∧ meta_map kvs = Some md.
Proof using Hso.
  intros HX HY Hm WX WY Wm.
  destruct (labels_lines_rows so Hso "#" _ _ eq_refl HX WX) as (l&R1&N1&E1). destruct (labels_lines_rows so Hso "^" _ _ eq_refl HY WY) as (l'&R2&N2&E2).
  assert (∃ ls kvs, rows_of (opt_part (vget_true "metadata" v) (meta_lines "  ")) ((Indent ::.) <$> ls) ∧
    mapM (read_part own) ls = Some ((λ kv, PMeta kv.1 kv.2) <$> kvs) ∧ meta_map kvs = Some md) as (ls&kvs&R3&E3&E4).
  { apply opt_true in Hm; [|apply truthy_metadata]. destruct md as [m|]; cbn in Hm.
    - destruct Hm as (x&->&Hx). destruct (meta_rows _ _ Hx Wm) as (ls&kvs&_&R&E&Em). exists ls, kvs. by split_and!.
    - rewrite Hm. exists [], []. split_and!; [apply rows_of_nil|done..]. }
  exists (((λ s, [Word (String "#" s)]) <$> l) ++ ((λ s, [Word (String "^" s)]) <$> l') ++ ls), l, l', kvs. split_and!; [|..|done|done|done].
  - rewrite !fmap_app, <- !list_fmap_compose. 
    replace ((((Indent ::.) ∘ (λ s, [Word (String "#" s)])) <$> l) ++ (((Indent ::.) ∘ (λ s, [Word (String "^" s)])) <$> l') ++ ((Indent ::.) <$> ls))
      with (concat [(((Indent ::.) ∘ (λ s, [Word (String "#" s)])) <$> l); (((Indent ::.) ∘ (λ s, [Word (String "^" s)])) <$> l'); ((Indent ::.) <$> ls)])
      by (cbn [concat]; by rewrite app_nil_r).
    apply rows_of_cat. repeat constructor; done.
  - unfold parts. apply mapM_some_app; [rewrite (read_label_parts own l "#") by auto; done|].
    apply mapM_some_app; [rewrite (read_label_parts own l' "^") by auto; done|done].
Qed.

(** * The line of a posting *)
Definition flag_words (f : option string) : list tok := match f with Some f => [Word f] | None => [] end.
Lemma flag_not f : is_flag f = true → read_key f = None ∧ labelled "#" f = None ∧ labelled "^" f = None.
Proof.
  intros H. apply flag_cases in H as [H|[c ->]]; [|done]. 
  repeat (apply elem_of_cons in H as [-> |H]; [done|]). by apply elem_of_nil in H.
Qed.
Lemma read_posting_toks f a u c co pr wu Tco Tpr :
  all_of (λ f, is_flag f = true) f → account_name a → reads u wu → all_of currency_name c →
  match co with None => Tco = [] | Some co => ∃ inner, Tco = Mark "{" :: inner ∧ ∀ r, maybe_cost (Mark "{" :: inner ++ r) = Some (Some co, r) end →
  match pr with None => Tpr = [] | Some pr => ∃ ts, Tpr = Word "@" :: ts ∧ maybe_price own (Word "@" :: ts) = Some (Some pr, []) end →
  read_part own (flag_words f ++ [Word a] ++ match u with Some _ => [Word wu] | None => [] end ++
      match c with Some c => [Word c] | None => [] end ++ Tco ++ Tpr) =
    Some (PPosting (PostingSpec None f a u c co pr None None None)).
Proof.
  intros Hf [Ha _] Hu Hc Hco Hpr. destruct (account_not a Ha) as (A1&A2&A3&A4&A5&A6&A7&_).
  set (R := match u with Some _ => [Word wu] | None => [] end ++ match c with Some c => [Word c] | None => [] end ++ Tco ++ Tpr).
  assert (maybe_price own Tpr = Some (pr, [])) as P1.
  { destruct pr as [pr|]; [destruct Hpr as (ts&->&->); done|]. by subst Tpr. }
  assert (maybe_cost (Tco ++ Tpr) = Some (co, Tpr)) as P2.
  { destruct co as [co|]; [destruct Hco as (inner&->&E); apply E|]. subst Tco. destruct pr as [pr|]; [by destruct Hpr as (ts&->&_)|by subst Tpr]. }
  assert (maybe_currency (match c with Some c => [Word c] | None => [] end ++ Tco ++ Tpr) = (c, Tco ++ Tpr)) as P3.
  { destruct c as [c|]; [destruct Hc as [Hc _]; cbn; by rewrite Hc|]. destruct co as [co|]; [by destruct Hco as (inner&->&E)|]. subst Tco.
    destruct pr as [pr|]; [by destruct Hpr as (ts&->&_)|by subst Tpr]. }
  assert (maybe_number R = (u, match c with Some c => [Word c] | None => [] end ++ Tco ++ Tpr)) as P4.
  { unfold R. destruct u as [u|]; [cbn; by rewrite Hu|]. destruct c as [c|]; [destruct Hc as [Hc _]; destruct (currency_not c Hc) as [E _]; cbn; by rewrite E|].
    destruct co as [co|]; [by destruct Hco as (inner&->&E)|]. subst Tco. destruct pr as [pr|]; [by destruct Hpr as (ts&->&_)|by subst Tpr]. }
  assert (read_posting own (flag_words f ++ [Word a] ++ R) = Some (PostingSpec None f a u c co pr None None None)) as P5.
  { assert (match flag_words f ++ [Word a] ++ R with Word f :: r => if is_flag f then (Some f, r) else (None, flag_words (Some f) ++ r) | ts => (None, ts) end = (f, [Word a] ++ R)) as E.
    { destruct f as [f|]; cbn in Hf |- *; [by rewrite Hf|by rewrite A5]. }
    unfold read_posting. destruct f as [f|]; cbn [flag_words app] in *; [cbn in Hf; rewrite Hf|rewrite A5]; rewrite Ha, P4, P3, P2; cbn [mbind option_bind fst snd]; rewrite P1; done. }
  destruct f as [f|]; cbn [flag_words app] in P5 |- *; unfold read_part.
  - destruct (flag_not f Hf) as (->&->&->). fold R. by rewrite P5.
  - rewrite A6, A3, A4. fold R. by rewrite P5.
Qed.
Lemma opt_num_item k v o : opt_shown num_is (vget k v) o → all_of plain_number o →
  ∃ w, reads o w ∧ item (opt_part (vget_true k v) (λ u, cat [Some " "; str_text (Some u)])) (match o with Some _ => [Word w] | None => [] end).
Proof.
  intros H W. apply opt_true in H; [|apply truthy_num]. destruct o as [d|]; cbn in H.
  - destruct H as (x&->&Hx). destruct (num_ok _ _ Hx W) as (w&Ew&Hr&_). exists w. split; [done|]. apply item_word; [done|]. by eapply number_word.
  - rewrite H. exists "". split; [done|]. apply item_nil.
Qed.
Lemma opt_str_item k v o : opt_shown str_is (vget k v) o → all_of word_name o →
  item (opt_part (vget_true k v) (λ u, cat [Some " "; print_text (Some u)])) (match o with Some s => [Word s] | None => [] end).
Proof.
  intros H W. apply opt_true in H; [|apply truthy_str]. destruct o as [s|]; cbn in H.
  - destruct H as (x&->&->). by apply item_word.
  - rewrite H. apply item_nil.
Qed.
Definition readable_posting (q : posting_spec) : Prop := own = true ∨ ∀ p, ps_price q = Some p → prs_total p = None.
Lemma posting_rows v q : posting_is v q → posting_writable q → readable_posting q →
  ∃ ls q' ps, rows_of (posting_text so v) ((Indent ::.) <$> ls) ∧ mapM (read_part own) ls = Some (PPosting q' :: ps) ∧ Forall not_posting ps ∧
    with_parts (q', ps) = Some (unspanned_posting q).
Proof using Hso.
  destruct q as [sp f a u c co pr tg lk md]. intros (H1&H2&H3&H4&H5&H6&H7&H8&H9) (W1&W2&W3&W4&W5&W6&W7&W8&W9) Hown;
    cbn [ps_span ps_flag ps_acc ps_units ps_cur ps_cost ps_price ps_tags ps_links ps_metadata] in *.
  destruct (below_rows v tg lk md H7 H8 H9 W7 W8 W9) as (ls&l&l'&kvs&R&E&El&El'&Em).
  destruct (opt_num_item _ _ _ H3 W3) as (wu&Hwu&Iu).
  pose proof (opt_str_item "cur" v c H4 ltac:(by destruct c; [apply W4|])) as Ic.
  pose proof (opt_str_item "flag" v f H1 ltac:(by destruct f; [apply flag_word|])) as If.
  assert (∃ Tco, item (opt_part (either "cost" "cost-spec" v) (λ c, cat [Some " "; cost_text c])) Tco ∧
    match co with None => Tco = [] | Some co => ∃ inner, Tco = Mark "{" :: inner ∧ ∀ r, maybe_cost (Mark "{" :: inner ++ r) = Some (Some co, r) end) as (Tco&Ico&Hco).
  { destruct co as [co|]; cbn in H5.
    - destruct H5 as (x&->&Hx). destruct (cost_item _ _ Hx W5) as (inner&I&Hr). exists (Mark "{" :: inner). split; [done|]. by exists inner.
    - rewrite H5. exists []. split; [apply item_nil|done]. }
  assert (∃ Tpr, item (opt_part (either "price" "price-spec" v) (λ c, cat [Some " "; price_text c])) Tpr ∧
    match pr with None => Tpr = [] | Some pr => ∃ ts, Tpr = Word "@" :: ts ∧ maybe_price own (Word "@" :: ts) = Some (Some pr, []) end) as (Tpr&Ipr&Hpr).
  { destruct pr as [pr|]; cbn in H6.
    - destruct H6 as (x&->&Hx). destruct (price_item own _ _ Hx W6) as (ts&I&Hr); [destruct Hown as [|Ho]; [by left|right; by apply Ho]|].
      exists (Word "@" :: ts). split; [done|]. by exists ts.
    - rewrite H6. exists []. split; [apply item_nil|done]. }
  set (toks := flag_words f ++ [Word a] ++ match u with Some _ => [Word wu] | None => [] end ++ match c with Some c => [Word c] | None => [] end ++ Tco ++ Tpr).
  pose proof (read_posting_toks f a u c co pr wu Tco Tpr W1 W2 Hwu W4 Hco Hpr) as Hread. fold toks in Hread.
  exists (toks :: ls), (PostingSpec None f a u c co pr None None None), (parts l l' kvs). split_and!.
  - assert (item (cat [opt_part (vget_true "flag" v) (λ f, cat [Some " "; print_text (Some f)]); cat [Some " "; print_text (vget "acc" v)];
      opt_part (vget_true "units" v) (λ u, cat [Some " "; str_text (Some u)]);
      opt_part (vget_true "cur" v) (λ c, cat [Some " "; print_text (Some c)]);
      opt_part (either "cost" "cost-spec" v) (λ c, cat [Some " "; cost_text c]);
      opt_part (either "price" "price-spec" v) (λ c, cat [Some " "; price_text c])]) toks) as (s&Es&Hs&Hno).
    { replace toks with (concat [flag_words f; [Word a]; match u with Some _ => [Word wu] | None => [] end; match c with Some c => [Word c] | None => [] end; Tco; Tpr])
        by (unfold toks; cbn [concat]; by rewrite app_nil_r).
      apply item_cat. constructor; [exact If|]. constructor; [rewrite H2; apply item_word; [reflexivity|apply W2]|].
      constructor; [exact Iu|]. constructor; [exact Ic|]. constructor; [exact Ico|]. constructor; [exact Ipr|constructor]. }
    destruct R as (s'&Es'&Hs'&Hno'). exists ((" " +:+ s +:+ line_end) +:+ s'). split_and!.
    + unfold posting_text.
      match goal with |- cat (?b :: ?x1 :: ?x2 :: ?x3 :: ?x4 :: ?x5 :: ?x6 :: ?x7 :: ?x8 :: ?l) = _ =>
        change (cat (b :: x1 :: x2 :: x3 :: x4 :: x5 :: x6 :: x7 :: x8 :: l)) with (cat ([b] ++ [x1; x2; x3; x4; x5; x6; x7] ++ [x8] ++ l)) end.
      rewrite (cat_app [Some " "]), (cat_app [_; _; _; _; _; _; _]), (cat_app [Some line_end]), Es', cat_second, Es. cbn. rewrite ?app_nil, ?string_app_assoc. done.
    + cbn [fmap list_fmap]. apply (rows_app _ _ [_]); [by apply rows_indent|done].
    + cbn [fmap list_fmap]. constructor; [|done]. unfold no_eol in *. rewrite elem_of_cons. naive_solver.
  - cbn [mapM]. rewrite Hread. cbn [mbind option_bind]. by rewrite E.
  - apply parts_not_posting.
  - unfold with_parts. rewrite parts_metas, parts_tags, parts_links, Em. cbn. rewrite El, El'. done.
Qed.
End Posting.
