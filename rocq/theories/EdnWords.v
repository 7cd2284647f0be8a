(** Words, numbers and strings are read as [EdnSpec.v] says. *)
From Coq Require Import Ascii QArith.
From stdpp Require Import prelude gmap strings.
From Verif Require Import DecModel LedgerTypes IsoModel JsonModel CljModel TextFacts ReadModel ReadSpec ReadFacts EdnModel EdnSpec.
Local Open Scope nat_scope.
Local Notation digits := ReadSpec.digits.
Local Notation app_assoc := TextFacts.string_app_assoc.

(** * Characters *)
Lemma blank_spec c : blank c = true ↔ white c.
Proof.
  unfold blank, white. rewrite !orb_true_iff, !andb_true_iff, !N.eqb_eq, !N.leb_le.
  assert (E : ∀ d, N_of_ascii c = N_of_ascii d ↔ c = d).
  { intros d. split; [|by intros ->]. intros H. by rewrite <- (ascii_N_embedding c), H, ascii_N_embedding. }
  change 32%N with (N_of_ascii " "). change 44%N with (N_of_ascii ","). rewrite !E. tauto.
Qed.
Lemma ends_word_spec c : ends_word c = true ↔ white c ∨ delimiter c.
Proof.
  unfold ends_word. rewrite orb_true_iff, blank_spec. apply or_iff_compat_l. unfold delimiter. rewrite !elem_of_cons, elem_of_nil. split.
  - destruct c as [[] [] [] [] [] [] [] []]; cbn; try done; intros _; tauto.
  - intros H. repeat (destruct H as [->|H]; [done|]). done.
Qed.
Lemma ends_number_spec c : ends_number c = true ↔ white c ∨ delimiter c ∨ c = "#"%char.
Proof.
  unfold ends_number. rewrite orb_true_iff, blank_spec. apply or_iff_compat_l. unfold delimiter. rewrite !elem_of_cons, elem_of_nil. split.
  - destruct c as [[] [] [] [] [] [] [] []]; cbn; try done; intros _; tauto.
  - intros H. repeat (destruct H as [H|H]; [try (by subst c); repeat (destruct H as [->|H]; [done|]); done|]). by subst c.
Qed.
Definition stopped (stop : ascii → bool) (r : string) : Prop := match r with String c _ => stop c = true | EmptyString => True end.
Lemma after_word_stopped r : after_word r ↔ stopped ends_word r.
Proof. destruct r as [|c r]; [done|]. unfold after_word, then_stops, stopped. rewrite ends_word_spec. tauto. Qed.
Lemma after_number_stopped r : after_number r ↔ stopped ends_number r.
Proof. destruct r as [|c r]; [done|]. unfold after_number, then_stops, stopped. rewrite ends_number_spec. tauto. Qed.
Lemma take_until_spec stop s t r : take_until stop s = (t, r) → s = t +:+ r ∧ every (λ c, stop c = false) t ∧ stopped stop r.
Proof.
  revert t r. induction s as [|c s IH]; intros t r; cbn [take_until]; [by intros [= <- <-]|].
  destruct (stop c) eqn:Ec; [by intros [= <- <-]|]. destruct (take_until stop s) as [t' r'] eqn:E. intros [= <- <-].
  destruct (IH _ _ eq_refl) as (->&?&?). done.
Qed.
Lemma take_until_app stop t r : every (λ c, stop c = false) t → stopped stop r → take_until stop (t +:+ r) = (t, r).
Proof.
  induction t as [|c t IH]; intros Ht Hr.
  - rewrite nil_app. destruct r as [|c r]; [done|]. cbn [take_until]. by rewrite Hr.
  - destruct Ht as [Hc Ht]. rewrite app_cons. cbn [take_until]. by rewrite Hc, IH.
Qed.
Lemma every_impl (P Q : ascii → Prop) s : (∀ c, P c → Q c) → every P s → every Q s.
Proof. intros H. induction s as [|c s IH]; [done|]. cbn. naive_solver. Qed.
Lemma contains_spec P s : contains P s = false ↔ every (λ c, P c = false) s.
Proof. induction s as [|c s IH]; [done|]. cbn. rewrite orb_false_iff, IH. done. Qed.

(** * Words *)
Lemma last_char_spec s c : last_char s = Some c ↔ ∃ t, s = t +:+ String c "".
Proof.
  induction s as [|d s IH].
  - split; [done|]. intros (t&H). by destruct t.
  - cbn [last_char]. destruct s as [|e s].
    + split; [intros [= ->]; by exists ""|]. intros ([|a t]&H); [by injection H as ->|]. rewrite app_cons in H. injection H as -> H. by destruct t.
    + rewrite IH. split; [intros (t&->); by exists (String d t)|]. intros ([|a t]&H); [done|]. rewrite app_cons in H. injection H as -> H. by exists t.
Qed.
Lemma ends_colon_spec s : ends_colon s = true ↔ ∃ t, s = t +:+ ":".
Proof.
  unfold ends_colon. change ":" with (String ":" ""). rewrite <- last_char_spec. destruct (last_char s) as [c|]; [|done].
  destruct c as [[] [] [] [] [] [] [] []]; done.
Qed.
Lemma two_colons_spec s : two_colons s = true ↔ ∃ a b, s = a +:+ "::" +:+ b.
Proof.
  induction s as [|c s IH].
  - split; [done|]. intros (a&b&H). by destruct a.
  - cbn [two_colons]. rewrite orb_true_iff, IH. split.
    + intros [H|(a&b&->)]; [|by exists (String c a), b]. exists "".
      assert (c = ":"%char) as -> by (destruct c as [[] [] [] [] [] [] [] []]; done). destruct s as [|d s]; [done|].
      assert (d = ":"%char) as -> by (destruct d as [[] [] [] [] [] [] [] []]; done). by exists s.
    + intros ([|a a']&b&H).
      * left. rewrite nil_app in H. change ("::" +:+ b) with (String ":" (String ":" b)) in H. by injection H as -> ->.
      * right. rewrite app_cons in H. injection H as -> ->. by exists a', b.
Qed.
Lemma leads_spec s : leads s = true ↔ begins_name s.
Proof.
  unfold leads, begins_name, is_digit_char. destruct s as [|c s]; [split; [done|]; intros (?&?&?&_); done|].
  rewrite andb_true_iff, !negb_true_iff, <- !not_true_iff_false, is_digit_spec, Ascii.eqb_eq. split; [intros [? ?]; by exists c, s|].
  intros (c'&t&[= <- <-]&?&?). done.
Qed.
Definition no_slash : string → Prop := every (λ c, c ≠ "/"%char).
Lemma cut_name_spec s : match cut_name s with
  | (None, p) => s = p ∧ no_slash p
  | (Some q, p) => s = q +:+ "/" +:+ p ∧ no_slash p end.
Proof.
  induction s as [|c s IH]; [done|]. cbn [cut_name]. destruct (cut_name s) as [[q|] p].
  - destruct IH as [-> ?]. done.
  - destruct IH as [-> ?]. destruct (Ascii.eqb_spec c "/") as [->|]; done.
Qed.
Lemma cut_name_none p : no_slash p → cut_name p = (None, p).
Proof.
  induction p as [|c p IH]; [done|]. intros [Hc Hp]. cbn [cut_name]. rewrite IH by done. destruct (Ascii.eqb_spec c "/"); done.
Qed.
Lemma cut_name_some q p : no_slash p → cut_name (q +:+ "/" +:+ p) = (Some q, p).
Proof.
  intros Hp. induction q as [|c q IH].
  - rewrite nil_app. change ("/" +:+ p) with (String "/" p). cbn [cut_name]. by rewrite cut_name_none.
  - rewrite app_cons. cbn [cut_name]. by rewrite IH.
Qed.
Lemma name_part_spec s : leads s && negb (ends_colon s) = true ↔ name_part s.
Proof. unfold name_part. rewrite andb_true_iff, negb_true_iff, <- not_true_iff_false, leads_spec, ends_colon_spec. done. Qed.
Lemma banned_spec c : banned c = false ↔ c ≠ "@"%char ∧ c ≠ "`"%char ∧ c ≠ "~"%char.
Proof. split; [|destruct c as [[] [] [] [] [] [] [] []]; naive_solver]. intros H. split_and!; intros ->; done. Qed.
Lemma word_chars_spec t : word_chars t ↔ every (λ c, ends_word c = false) t ∧ contains banned t = false.
Proof.
  rewrite contains_spec. unfold word_chars. induction t as [|c t IH]; [done|]. cbn.
  rewrite IH, banned_spec, <- not_true_iff_false, ends_word_spec. tauto.
Qed.
Lemma word_ok_spec t : every (λ c, ends_word c = false) t → word_ok t = true ↔ name_text t.
Proof.
  intros Hw. unfold word_ok, name_text. rewrite !andb_true_iff, !negb_true_iff, word_chars_spec, <- (not_true_iff_false (two_colons t)), two_colons_spec.
  rewrite !orb_true_iff, !String.eqb_eq.
  assert (H : (let '(q, p) := cut_name t in
     leads p && negb (ends_colon p) && match q with None => true | Some q => leads q && negb (ends_colon q) end) = true ↔
     ∃ p, name_part p ∧ every (λ c, c ≠ "/"%char) p ∧ (t = p ∨ ∃ q, name_part q ∧ t = q +:+ "/" +:+ p)); [|tauto].
  pose proof (cut_name_spec t) as Hc. split.
  - destruct (cut_name t) as [[q|] p].
    + destruct Hc as [-> Hp]. intros [H1 H2]%andb_true_iff. apply name_part_spec in H1, H2. exists p. split_and!; [done..|]. right. by exists q.
    + destruct Hc as [-> Hp]. intros [H1 _]%andb_true_iff. apply name_part_spec in H1. exists p. auto.
  - intros (p&Hn&Hp&[->|(q&Hq&->)]).
    + rewrite cut_name_none by done. apply andb_true_iff. split; [by apply name_part_spec|done].
    + rewrite cut_name_some by done. apply andb_true_iff. split; by apply name_part_spec.
Qed.
Lemma colon_head t : (∃ k, t = ":" +:+ k) ∨ (¬ (∃ k, t = ":" +:+ k) ∧ match t with String ":" k => EKw k | _ => ESym t end = ESym t).
Proof.
  destruct t as [|c t]; [right; split; [by intros (?&?)|done]|]. destruct (Ascii.eqb_spec c ":") as [->|H]; [left; by exists t|right].
  split; [intros (k&E); by injection E|]. destruct c as [[] [] [] [] [] [] [] []]; done.
Qed.
Lemma word_sound t v : every (λ c, ends_word c = false) t → begins_word t → word_value t = Some v → word t v.
Proof.
  intros Hw Hb. unfold word_value.
  destruct (String.eqb_spec t "nil") as [->|H1]; [intros [= <-]; constructor|].
  destruct (String.eqb_spec t "true") as [->|H2]; [intros [= <-]; constructor|].
  destruct (String.eqb_spec t "false") as [->|H3]; [intros [= <-]; constructor|].
  destruct (word_ok t) eqn:E; [|done]. apply word_ok_spec in E; [|done].
  destruct (colon_head t) as [(k&->)|[Hk ->]]; intros [= <-]; [by constructor|]. constructor; try done.
  rewrite !elem_of_cons, elem_of_nil. tauto.
Qed.
Lemma name_text_stop t : name_text t → every (λ c, ends_word c = false) t.
Proof. intros [H _]. by apply word_chars_spec in H as [H _]. Qed.
Lemma word_complete t v : word t v → word_value t = Some v ∧ every (λ c, ends_word c = false) t ∧ begins_word t.
Proof.
  intros [| | |k Hk|s Hs Hb Hc Hn].
  1-3: split_and!; [done|vm_compute; done|]; eexists _, _; (split; [reflexivity|]); (split; [done|]); split; [|by intros [[|] _]];
      unfold is_digit_char; vm_compute; intros [? H]; by apply H.
  - split_and!; [|by apply name_text_stop|].
    + unfold word_value. rewrite (proj2 (word_ok_spec _ (name_text_stop _ Hk)) Hk). done.
    + exists ":"%char, k. split; [done|]. split; [done|]. split; [|by intros [[|] _]]. unfold is_digit_char. vm_compute. intros [_ H]. by apply H.
  - split_and!; [|by apply name_text_stop|done]. rewrite !elem_of_cons, elem_of_nil in Hn. unfold word_value.
    destruct (String.eqb_spec s "nil"); [tauto|]. destruct (String.eqb_spec s "true"); [tauto|]. destruct (String.eqb_spec s "false"); [tauto|].
    rewrite (proj2 (word_ok_spec _ (name_text_stop _ Hs)) Hs). destruct (colon_head s) as [?|[_ ->]]; done.
Qed.

(** * Strings *)
Lemma edn_escape_spec e c : edn_escape e = Some c ↔
  (e, c) ∈ [("""", """"); ("\", "\"); ("b", "008"); ("t", "009"); ("n", "010"); ("f", "012"); ("r", "013")]%char.
Proof.
  rewrite !elem_of_cons, elem_of_nil. split.
  - destruct e as [[] [] [] [] [] [] [] []]; try done; intros [= <-]; tauto.
  - intros H. repeat (destruct H as [[= -> ->]|H]; [done|]). done.
Qed.
Lemma edn_chars_spec s x r : edn_chars s = Some (x, r) → ∃ u, s = u +:+ String """" r ∧ string_chars u x.
Proof.
  remember (String.length s) as n eqn:En. revert s x r En. induction (lt_wf n) as [n _ IH]. intros s x r -> H.
  destruct s as [|c s]; [done|]. cbn [edn_chars] in H.
  destruct (Ascii.eqb_spec c """") as [->|Hq].
  { injection H as <- <-. exists "". split; [done|constructor]. }
  destruct (Ascii.eqb_spec c "\") as [->|Hb].
  - destruct s as [|e s2]; [done|]. destruct (edn_escape e) as [y|] eqn:Ee.
    + apply onto_spec in H as (z&H&->). apply (IH (String.length s2)) in H as (u&->&Hu); [|cbn; lia|done].
      exists (String "\" (String e u)). split; [done|]. apply edn_escape_spec in Ee. by econstructor.
    + destruct (Ascii.eqb_spec e "u") as [->|He].
      2: { exfalso. revert H. clear -He. destruct e as [[] [] [] [] [] [] [] []]; done. }
      destruct s2 as [|h1 [|h2 [|h3 [|h4 s3]]]]; try done.
      apply bind_Some in H as (m&Hm&H). destruct (surrogates m) as [Hh Hl].
      destruct (high_surrogate m) eqn:Eh.
      * destruct s3 as [|a s3]; [done|].
        destruct (Ascii.eqb_spec a "\") as [->|Ha]; [|exfalso; revert H; clear -Ha; destruct a as [[] [] [] [] [] [] [] []]; done].
        destruct s3 as [|b s3]; [done|].
        destruct (Ascii.eqb_spec b "u") as [->|Hb]; [|exfalso; revert H; clear -Hb; destruct b as [[] [] [] [] [] [] [] []]; done].
        destruct s3 as [|l1 [|l2 [|l3 [|l4 s4]]]]; try done.
        apply bind_Some in H as (k&Hk&H). destruct (surrogates k) as [_ Hlk]. destruct (low_surrogate k); [|done].
        apply onto_spec in H as (z&H&->). apply (IH (String.length s4)) in H as (u&->&Hu); [|cbn; lia|done].
        exists ("\u" +:+ String h1 (String h2 (String h3 (String h4 ("\u" +:+ String l1 (String l2 (String l3 (String l4 u)))))))).
        split; [done|]. econstructor; [by apply hex4_spec|by apply hex4_spec|by apply Hh|by apply Hlk|by apply utf8_spec|done].
      * destruct (low_surrogate m) eqn:El; [done|]. apply onto_spec in H as (z&H&->). apply (IH (String.length s3)) in H as (u&->&Hu); [|cbn; lia|done].
        exists ("\u" +:+ String h1 (String h2 (String h3 (String h4 u)))). split; [done|]. econstructor; [by apply hex4_spec| |by apply utf8_spec|done].
        assert (¬ (55296 ≤ m ≤ 56319)%N) by (intros ?%Hh; done). assert (¬ (56320 ≤ m ≤ 57343)%N) by (intros ?%Hl; done). lia.
  - apply onto_spec in H as (z&H&->). apply (IH (String.length s)) in H as (u&->&Hu); [|cbn; lia|done].
    exists (String c u). split; [done|]. rewrite app_cons, nil_app. by constructor.
Qed.
Lemma edn_chars_app u x r : string_chars u x → edn_chars (u +:+ String """" r) = Some (x, r).
Proof.
  induction 1 as [|c t s H1 H2 H IH|e c t s He H IH|h1 h2 h3 h4 n x t s Hn Hr Hx H IH|h1 h2 h3 h4 l1 l2 l3 l4 n m x t s Hn Hm Hrn Hrm Hx H IH].
  - done.
  - rewrite app_cons. cbn [edn_chars]. destruct (Ascii.eqb_spec c """"); [done|]. destruct (Ascii.eqb_spec c "\"); [done|]. by rewrite IH.
  - rewrite !app_cons. cbn [edn_chars]. change (Ascii.eqb "\" """") with false. change (Ascii.eqb "\" "\") with true. cbv iota.
    apply edn_escape_spec in He. rewrite He, IH. done.
  - apply hex4_spec in Hn. apply utf8_spec in Hx as <-. change (("\u" +:+ String h1 (String h2 (String h3 (String h4 t)))) +:+ String """" r) with
      (String "\" (String "u" (String h1 (String h2 (String h3 (String h4 (t +:+ String """" r))))))).
    cbn [edn_chars]. change (Ascii.eqb "\" """") with false. change (Ascii.eqb "\" "\") with true. cbv iota.
    change (edn_escape "u") with (@None ascii). cbv iota. rewrite Hn. cbn [mbind option_bind].
    destruct (surrogates n) as [Hh Hl].
    destruct (high_surrogate n); [destruct (proj1 Hh eq_refl); lia|]. destruct (low_surrogate n); [destruct (proj1 Hl eq_refl); lia|].
    by rewrite IH.
  - apply hex4_spec in Hn, Hm. apply utf8_spec in Hx as <-. change (("\u" +:+ String h1 (String h2 (String h3 (String h4 ("\u" +:+ String l1 (String l2 (String l3 (String l4 t)))))))) +:+ String """" r) with
      (String "\" (String "u" (String h1 (String h2 (String h3 (String h4
         (String "\" (String "u" (String l1 (String l2 (String l3 (String l4 (t +:+ String """" r))))))))))))).
    cbn [edn_chars]. change (Ascii.eqb "\" """") with false. change (Ascii.eqb "\" "\") with true. cbv iota.
    change (edn_escape "u") with (@None ascii). cbv iota. rewrite Hn. cbn [mbind option_bind].
    destruct (surrogates n) as [Hh _]. destruct (surrogates m) as [_ Hl]. apply Hh in Hrn. apply Hl in Hrm. rewrite Hrn, Hm. cbn [mbind option_bind].
    by rewrite Hrm, IH.
Qed.
