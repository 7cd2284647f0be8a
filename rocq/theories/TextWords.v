(** Splitting text into words and lines. *)
From Coq Require Import Ascii QArith.
From stdpp Require Import prelude gmap strings.
From Verif Require Import DecModel LedgerTypes IsoModel IsoFacts NumText TextFacts FormatModel TextSpec WriteSpec.
Local Open Scope nat_scope.
Local Notation string_app_assoc := TextFacts.string_app_assoc.

Lemma app_nil s : s +:+ "" = s.
Proof. induction s as [|c s IH]; [done|]. change (String c (s +:+ "") = String c s). by rewrite IH. Qed.

Definition between (p : place) : Prop := match p with Between | InWord _ => True | _ => False end.
(** From any place between words, [s] adds the tokens [ts]. *)
Definition seg (s : string) (ts : list tok) : Prop :=
  ∀ p, between p → ∃ p' X, between p' ∧ ended p ++ ts = X ++ ended p' ∧ ∀ r, words p (s +:+ r) = app X <$> words p' r.
Definition no_eol (l : list tok) : Prop := Eol ∉ l.
Definition item (o : option string) (ts : list tok) : Prop := ∃ s, o = Some s ∧ seg s ts ∧ no_eol ts.

Lemma fmap_app_app {A} (X Y : list A) (o : option (list A)) : app X <$> (app Y <$> o) = app (X ++ Y) <$> o.
Proof. destruct o; cbn; [|done]. by rewrite app_assoc. Qed.
Lemma fmap_app_nil {A} (o : option (list A)) : app [] <$> o = o.
Proof. by destruct o. Qed.

Lemma seg_nil : seg "" [].
Proof. intros p Hp. exists p, []. split_and!; [done|by rewrite app_nil_r|]. intros r. by rewrite fmap_app_nil. Qed.
Lemma seg_app s s' ts ts' : seg s ts → seg s' ts' → seg (s +:+ s') (ts ++ ts').
Proof.
  intros H H' p Hp. destruct (H p Hp) as (p1&X&Hp1&E1&W1). destruct (H' p1 Hp1) as (p2&Y&Hp2&E2&W2).
  exists p2, (X ++ Y). split_and!; [done|by rewrite app_assoc, E1, <- app_assoc, E2, app_assoc|].
  intros r. by rewrite string_app_assoc, W1, W2, fmap_app_app.
Qed.
Lemma item_nil : item (Some "") [].
Proof. exists "". split_and!; [done|apply seg_nil|apply not_elem_of_nil]. Qed.
Lemma no_eol_app l l' : no_eol l → no_eol l' → no_eol (l ++ l').
Proof. unfold no_eol. rewrite elem_of_app. tauto. Qed.
Lemma item_app o o' ts ts' : item o ts → item o' ts' → item (cat [o; o']) (ts ++ ts').
Proof.
  intros (s&->&Hs&Hn) (s'&->&Hs'&Hn'). cbn. rewrite app_nil. exists (s +:+ s'). split_and!; [done|by apply seg_app|by apply no_eol_app].
Qed.
Lemma item_cat l tss : Forall2 item l tss → item (cat l) (concat tss).
Proof.
  induction 1 as [|o ts l tss (s&->&Hs&Hn) _ (s'&IH&Hs'&Hn')]; [apply item_nil|]. cbn. rewrite IH. exists (s +:+ s'). split_and!; [done|by apply seg_app|by apply no_eol_app].
Qed.

(** Characters of a word. *)
Lemma words_char p c s : between p ∨ p = Begin → no_word c = false →
  words p (String c s) = words (InWord (match p with InWord w => w +:+ String c "" | _ => String c "" end)) s.
Proof.
  intros Hp Hc. unfold no_word in Hc. cbn in Hc. rewrite !orb_false_iff in Hc. destruct Hc as (?&?&?&?&?&?&?&_).
  assert (is_mark c = false) by (unfold is_mark; cbn; by rewrite !orb_false_iff).
  destruct p as [| | |t]; [..|by destruct Hp]; cbn [words]; by repeat case_match.
Qed.
Lemma words_in w s r : has_char no_word w = false → words (InWord s) (w +:+ r) = words (InWord (s +:+ w)) r.
Proof.
  revert s. induction w as [|c w IH]; intros s H; [cbn; by rewrite app_nil|]. cbn in H. apply orb_false_iff in H as [Hc Hw].
  change (String c w +:+ r) with (String c (w +:+ r)). rewrite words_char by (auto; by left). rewrite IH by done. by rewrite string_app_assoc.
Qed.
Lemma words_word p w r : p = Between ∨ p = Begin → word_name w → words p (w +:+ r) = words (InWord w) r.
Proof.
  intros Hp [Hn Hw]. destruct w as [|c w]; [done|]. cbn in Hw. apply orb_false_iff in Hw as [Hc Hw].
  change (String c w +:+ r) with (String c (w +:+ r)). rewrite words_char; [|by destruct Hp as [-> | ->]; [left|right]|done].
  rewrite words_in by done. by destruct Hp as [-> | ->].
Qed.
Lemma words_blank p r : between p → words p (String " " r) = app (ended p) <$> words Between r.
Proof. intros Hp. destruct p; try done; cbn [words]; cbn; by destruct (words Between r). Qed.
Lemma seg_word w : word_name w → seg (" " +:+ w) [Word w].
Proof.
  intros Hw p Hp. exists (InWord w), (ended p). split_and!; [done..|]. intros r.
  change ((" " +:+ w) +:+ r) with (String " " (w +:+ r)). rewrite words_blank by done. by rewrite words_word by auto.
Qed.
Lemma words_quotes s t r : plain_string s → words (InQuotes t) (s +:+ String """" r) = cons (Quoted (t +:+ s)) <$> words Between r.
Proof.
  revert t. induction s as [|c s IH]; intros t H; [cbn; by rewrite app_nil|]. unfold plain_string in H. cbn in H. rewrite !orb_false_iff in H. destruct H as [[H1 H2] H].
  change (String c s +:+ String """" r) with (String c (s +:+ String """" r)). cbn [words]. rewrite H1, H2, IH by done. by rewrite string_app_assoc.
Qed.
Lemma seg_quoted s : plain_string s → seg (" " +:+ String """" (s +:+ """")) [Quoted s].
Proof.
  intros Hs p Hp. exists Between, (ended p ++ [Quoted s]). split_and!; [done|by rewrite app_nil_r|]. intros r.
  change ((" " +:+ String """" (s +:+ """")) +:+ r) with (String " " (String """" ((s +:+ """") +:+ r))). rewrite words_blank by done.
  rewrite string_app_assoc. change ("""" +:+ r) with (String """" r). cbn [words]. cbn [Ascii.eqb Bool.eqb newline_char]. cbn [ended].
  rewrite fmap_app_nil, words_quotes by done. cbn. by destruct (words Between r); cbn; rewrite <- ?app_assoc.
Qed.
Lemma words_mark p c r : between p → is_mark c = true → words p (String c r) = app (ended p ++ [Mark c]) <$> words Between r.
Proof.
  intros Hp Hc. assert (c = "{" ∨ c = "}" ∨ c = ",")%char as [-> |[-> | ->]].
  { unfold is_mark in Hc. cbn in Hc. rewrite !orb_true_iff in Hc. destruct Hc as [?|[?|[?|?]]]; try done; rewrite Ascii.eqb_eq in *; auto. }
  all: destruct p; try done; cbn; by destruct (words Between r).
Qed.
Lemma seg_mark c : is_mark c = true → seg (String c "") [Mark c].
Proof. intros Hc p Hp. exists Between, (ended p ++ [Mark c]). split_and!; [done|by rewrite app_nil_r|]. intros r. by apply words_mark. Qed.
Lemma seg_blank_mark c : is_mark c = true → seg (String " " (String c "")) [Mark c].
Proof.
  intros Hc p Hp. exists Between, (ended p ++ [Mark c]). split_and!; [done|by rewrite app_nil_r|]. intros r.
  change (String " " (String c "") +:+ r) with (String " " (String c r)). rewrite words_blank by done. rewrite words_mark by done. cbn.
  by destruct (words Between r); cbn; rewrite <- ?app_assoc.
Qed.
(** After a mark a blank makes no difference. *)
Lemma seg_mark_blank c s ts : is_mark c = true → seg (String c (String " " s)) ts → seg (String c s) ts.
Proof.
  intros Hc H p Hp. destruct (H p Hp) as (p'&X&?&?&W). exists p', X. split_and!; [done..|]. intros r. rewrite <- W.
  change (String c s +:+ r) with (String c (s +:+ r)). change (String c (String " " s) +:+ r) with (String c (String " " (s +:+ r))).
  rewrite !words_mark by done. by rewrite words_blank, fmap_app_nil by done.
Qed.

(** * Lines *)
Definition row_toks (l : list tok) : list tok := l ++ [Eol].
Definition rows (s : string) (ls : list (list tok)) : Prop :=
  ∀ r, words Begin (s +:+ r) = app (concat (row_toks <$> ls)) <$> words Begin r.
Definition rows_of (o : option string) (ls : list (list tok)) : Prop := ∃ s, o = Some s ∧ rows s ls ∧ Forall no_eol ls.
Lemma rows_nil : rows "" [].
Proof. intros r. by rewrite fmap_app_nil. Qed.
Lemma rows_app s s' ls ls' : rows s ls → rows s' ls' → rows (s +:+ s') (ls ++ ls').
Proof. intros H H' r. by rewrite string_app_assoc, H, H', fmap_app_app, fmap_app, concat_app. Qed.
Lemma rows_of_nil : rows_of (Some "") [].
Proof. exists "". split_and!; [done|apply rows_nil|constructor]. Qed.
Lemma rows_of_cat l lss : Forall2 rows_of l lss → rows_of (cat l) (concat lss).
Proof.
  induction 1 as [|o ls l lss (s&->&Hs&Hn) _ (s'&IH&Hs'&Hn')]; [apply rows_of_nil|]. cbn. rewrite IH. exists (s +:+ s'). split_and!; [done|by apply rows_app|by apply Forall_app].
Qed.
Lemma words_line p s ts r : between p → seg s ts → words p (s +:+ String newline_char r) = app (ended p ++ ts ++ [Eol]) <$> words Begin r.
Proof.
  intros Hp H. destruct (H p Hp) as (p'&X&Hp'&E&W). rewrite W. rewrite (app_assoc (ended p)), E.
  replace (words p' (String newline_char r)) with (app (ended p' ++ [Eol]) <$> words Begin r) by (destruct p'; try done; cbn; by destruct (words Begin r)).
  by rewrite fmap_app_app, app_assoc.
Qed.
(** A line which begins with a word. *)
Lemma rows_head w s ts : word_name w → seg s ts → rows (w +:+ s +:+ line_end) [Word w :: ts].
Proof.
  intros Hw Hs r. rewrite !string_app_assoc, words_word by auto. change (line_end +:+ r) with (String newline_char r).
  rewrite (words_line (InWord w) s ts) by done. cbn. by rewrite app_nil_r.
Qed.
(** An indented line. *)
Lemma rows_indent s ts : seg s ts → rows (" " +:+ s +:+ line_end) [Indent :: ts].
Proof.
  intros Hs r. change ((" " +:+ s +:+ line_end) +:+ r) with (String " " ((s +:+ line_end) +:+ r)). rewrite string_app_assoc.
  replace (words Begin (String " " ((s +:+ (line_end +:+ r))))) with (app [Indent] <$> words Between (s +:+ line_end +:+ r)) by done.
  change (line_end +:+ r) with (String newline_char r). rewrite (words_line Between s ts) by done. rewrite fmap_app_app. cbn. by rewrite app_nil_r.
Qed.
Lemma rows_blank : rows line_end [[]].
Proof. intros r. change (line_end +:+ r) with (String newline_char r). cbn. by destruct (words Begin r). Qed.

Lemma lines_app l ts : no_eol l → lines (l ++ Eol :: ts) = l :: lines ts.
Proof.
  induction l as [|t l IH]; intros H; [done|]. apply not_elem_of_cons in H as [Ht H]. cbn. rewrite IH by done. by destruct t.
Qed.
Lemma lines_rows ls : Forall no_eol ls → lines (concat (row_toks <$> ls)) = ls ++ [[]].
Proof.
  induction 1 as [|l ls Hl _ IH]; [done|]. cbn. unfold row_toks at 1. rewrite <- app_assoc. cbn. rewrite lines_app by done. by rewrite IH.
Qed.
Lemma words_rows s ls : rows s ls → words Begin s = Some (concat (row_toks <$> ls)).
Proof. intros H. specialize (H ""). rewrite app_nil in H. rewrite H. cbn. by rewrite app_nil_r. Qed.
