(** Reading JSON text is what RFC 8259 says. *)
From Coq Require Import Ascii QArith.
From stdpp Require Import prelude strings.
From Verif Require Import DecModel JsonModel JsonText TextFacts ReadModel ReadSpec.
Local Open Scope nat_scope.

Lemma app_nil s : s +:+ "" = s.
Proof. induction s as [|c s IH]; [done|]. change (String c s +:+ "") with (String c (s +:+ "")). by rewrite IH. Qed.
Lemma app_cons c s t : String c s +:+ t = String c (s +:+ t).
Proof. done. Qed.
Lemma nil_app t : "" +:+ t = t.
Proof. done. Qed.
Notation app_assoc := string_app_assoc.
Lemma every_app P a b : every P (a +:+ b) ↔ every P a ∧ every P b.
Proof. induction a as [|c a IH]; [naive_solver|]. rewrite app_cons. cbn. naive_solver. Qed.

(** * White space *)
Lemma is_space_spec c : is_space c = true ↔ (c = " "%char ∨ c = "009"%char ∨ c = "010"%char ∨ c = "013"%char).
Proof. unfold is_space. rewrite !orb_true_iff, !Ascii.eqb_eq. tauto. Qed.
Lemma skip_space_spec s : ∃ a, spaces a ∧ s = a +:+ skip_space s.
Proof.
  induction s as [|c s (a&Ha&E)]; [by exists ""|]. cbn [skip_space]. destruct (is_space c) eqn:Ec; [|by exists ""].
  exists (String c a). split; [split; [by apply is_space_spec|done]|]. rewrite app_cons. by rewrite <- E.
Qed.
Lemma skip_spaces a s : spaces a → skip_space (a +:+ s) = skip_space s.
Proof. induction a as [|c a IH]; [done|]. intros [Hc Ha]. rewrite app_cons. cbn [skip_space]. apply is_space_spec in Hc. rewrite Hc. auto. Qed.
Lemma skip_none c s : is_space c = false → skip_space (String c s) = String c s.
Proof. intros H. cbn. by rewrite H. Qed.
Lemma skip_all a : spaces a → skip_space a = "".
Proof. intros H. rewrite <- (app_nil a), skip_spaces by done. done. Qed.
Lemma skip_nil s : skip_space s = "" → spaces s.
Proof. intros H. destruct (skip_space_spec s) as (a&Ha&E). rewrite E, H, app_nil. done. Qed.
Lemma skip_first s c t : skip_space s = String c t → is_space c = false.
Proof. induction s as [|d s IH]; [done|]. cbn. destruct (is_space d) eqn:E; [auto|]. by intros [= -> ->]. Qed.

(** What comes after a value. *)
Definition stops (r : string) : Prop :=
  match r with EmptyString => True | String c _ => is_space c = true ∨ c = ","%char ∨ c = "]"%char ∨ c = "}"%char end.
Lemma stops_space a r : spaces a → stops r → stops (a +:+ r).
Proof. destruct a as [|c a]; [done|]. intros [Hc _] _. left. by apply is_space_spec. Qed.

(** * Numbers *)
Lemma is_digit_spec c : is_digit c = true ↔ (48 ≤ N_of_ascii c ≤ 57)%N.
Proof. unfold is_digit. rewrite andb_true_iff, !N.leb_le. done. Qed.
Lemma take_digits_spec s ds r : take_digits s = (ds, r) →
  s = ds +:+ r ∧ digits ds ∧ (match r with String c _ => is_digit c = false | _ => True end).
Proof.
  revert ds r. induction s as [|c s IH]; intros ds r; cbn [take_digits]; [by intros [= <- <-]|].
  destruct (is_digit c) eqn:Ec; [|by intros [= <- <-]]. destruct (take_digits s) as [ds' r'] eqn:E. intros [= <- <-].
  destruct (IH _ _ eq_refl) as (->&Hd&Hr). split_and!; [done| |done]. split; [by apply is_digit_spec|done].
Qed.
Lemma take_digits_app ds r : digits ds → (match r with String c _ => is_digit c = false | _ => True end) → take_digits (ds +:+ r) = (ds, r).
Proof.
  induction ds as [|c ds IH]; intros Hd Hr.
  - rewrite nil_app. destruct r as [|c r]; [done|]. cbn. by rewrite Hr.
  - destruct Hd as [Hc Hd]. rewrite app_cons. cbn [take_digits]. apply is_digit_spec in Hc. rewrite Hc. by rewrite IH.
Qed.
Lemma digits_value_acc acc ds : digits ds → Z.of_N (digits_value acc ds) = (Z.of_N acc * 10 ^ Z.of_nat (String.length ds) + value_of ds)%Z.
Proof.
  revert acc. induction ds as [|c ds IH]; intros acc Hd; [cbn; lia|]. destruct Hd as [Hc Hd]. cbn [digits_value value_of String.length].
  rewrite IH by done. unfold digit_value. rewrite Nat2Z.inj_succ, Z.pow_succ_r by lia.
  rewrite N2Z.inj_add, N2Z.inj_mul, N2Z.inj_sub by lia. change (Z.of_N 10) with 10%Z. change (Z.of_N 48) with 48%Z. ring.
Qed.
Lemma digits_value_spec ds : digits ds → Z.of_N (digits_value 0 ds) = value_of ds.
Proof. intros H. rewrite digits_value_acc by done. cbn. lia. Qed.
Lemma pow10Z_pow n : pow10Z n = (10 ^ Z.of_nat n)%Z.
Proof.
  unfold pow10Z. induction n as [|n IH]; [done|]. rewrite Nat2Z.inj_succ, Z.pow_succ_r by lia. rewrite <- IH. cbn [pow10]. lia.
Qed.
Lemma scaled_spec m places e d : scaled m places e = d ↔ is_dec m (e - Z.of_nat places) d.
Proof.
  unfold scaled, is_dec. destruct (Z.leb_spec 0 (Z.of_nat places - e)).
  - replace (- (e - Z.of_nat places))%Z with (Z.of_nat places - e)%Z by lia. naive_solver lia.
  - rewrite pow10Z_pow, Z2Nat.id by lia. replace (- (Z.of_nat places - e))%Z with (e - Z.of_nat places)%Z by lia. naive_solver lia.
Qed.
Lemma read_whole_spec s w r : read_whole s = Some (w, r) →
  s = w +:+ r ∧ whole_text w ∧ digits w ∧ (match r with String c _ => is_digit c = false | _ => True end).
Proof.
  unfold read_whole. destruct (take_digits s) as [ds r'] eqn:E. apply take_digits_spec in E as (->&Hd&Hr). intros H.
  assert (ds = w ∧ r' = r ∧ whole_text ds) as (->&->&Hw); [|done].
  destruct ds as [|c ds]; [done|]. unfold whole_text.
  destruct (Ascii.eqb_spec c "0") as [->|Hc].
  - destruct ds; [|done]. injection H as <- <-. auto.
  - assert (H' : Some (String c ds, r') = Some (w, r)) by (revert H; destruct c as [[] [] [] [] [] [] [] []]; try done).
    injection H' as <- <-. split_and!; [done..|]. right. split; [done|]. eauto.
Qed.
Lemma whole_digits w : whole_text w → digits w ∧ w ≠ "".
Proof. intros [->|[H (c&t&->&_)]]; [split; [|done]; by repeat split|done]. Qed.
Lemma read_whole_app w r : whole_text w → (match r with String c _ => is_digit c = false | _ => True end) →
  read_whole (w +:+ r) = Some (w, r).
Proof.
  intros Hw Hr. pose proof (whole_digits w Hw) as [Hd Hn]. unfold read_whole. rewrite take_digits_app by done.
  destruct Hw as [->|[_ (c&t&->&Hc)]]; [done|]. destruct c as [[] [] [] [] [] [] [] []]; try done.
Qed.
Lemma read_fraction_spec s ds r : read_fraction s = Some (ds, r) → ∃ ft, s = ft +:+ r ∧ fraction_text ft ds ∧ digits ds.
Proof.
  unfold read_fraction. destruct s as [|c s]; [intros [= <- <-]; exists ""; by repeat split; left|].
  destruct (Ascii.eqb_spec c ".") as [->|Hc].
  - destruct (take_digits s) as [ds' r'] eqn:E. apply take_digits_spec in E as (->&Hd&Hr). intros H.
    assert (ds' ≠ "" ∧ ds' = ds ∧ r' = r) as (Hn&->&->) by (destruct ds'; [done|]; by injection H as <- <-).
    exists ("." +:+ ds). split; [done|]. split; [|done]. by right.
  - intros H. assert (H' : Some ("", String c s) = Some (ds, r)) by (revert H; destruct c as [[] [] [] [] [] [] [] []]; try done).
    injection H' as <- <-. exists "". split; [done|]. by repeat split; left.
Qed.
Definition no_number (r : string) : Prop :=
  match r with String c _ => is_digit c = false ∧ c ≠ "."%char | _ => True end.
Lemma read_fraction_app ft ds r : fraction_text ft ds → no_number r → read_fraction (ft +:+ r) = Some (ds, r).
Proof.
  intros [[-> ->]|(->&Hd&Hn)] Hr.
  - rewrite nil_app. destruct r as [|c r]; [done|]. destruct Hr as [_ Hc]. unfold read_fraction.
    destruct c as [[] [] [] [] [] [] [] []]; try done.
  - change (("." +:+ ds) +:+ r) with (String "." (ds +:+ r)). unfold read_fraction.
    rewrite take_digits_app; [by destruct ds|done|]. destruct r; [done|]. by destruct Hr.
Qed.
Lemma read_exponent_spec s e r : read_exponent s = Some (e, r) → ∃ xt, s = xt +:+ r ∧ exponent_text xt e.
Proof.
  unfold read_exponent. destruct s as [|c s]; [intros [= <- <-]; exists ""; split; [done|by left]|].
  destruct (Ascii.eqb c "e" || Ascii.eqb c "E") eqn:Ec; [|intros [= <- <-]; exists ""; split; [done|by left]].
  assert (Hs : ∃ sg t, s = sg +:+ t ∧ (sg = "" ∨ sg = "+" ∨ sg = "-") ∧
     match s with String "-" t => (true, t) | String "+" t => (false, t) | _ => (false, s) end = (bool_decide (sg = "-"), t)).
  { destruct s as [|d s]; [by exists "", ""; auto|].
    destruct (Ascii.eqb_spec d "-") as [->|H1]; [exists "-", s; auto|].
    destruct (Ascii.eqb_spec d "+") as [->|H2]; [exists "+", s; auto|].
    exists "", (String d s). split_and!; [done|auto|]. destruct d as [[] [] [] [] [] [] [] []]; try done. }
  destruct Hs as (sg&t&->&Hsg&->). destruct (take_digits t) as [ds r'] eqn:E. apply take_digits_spec in E as (->&Hd&Hr). intros H.
  assert (ds ≠ "" ∧ r' = r ∧ e = if bool_decide (sg = "-") then (- value_of ds)%Z else value_of ds) as (Hn&->&He).
  { rewrite <- digits_value_spec by done. destruct ds; [done|]. by injection H as <- <-. }
  exists (String c "" +:+ sg +:+ ds). split; [rewrite !app_cons, nil_app, !app_assoc; done|].
  right. exists (String c ""), sg, ds. split; [done|]. split.
  { apply orb_true_iff in Ec as [->%Ascii.eqb_eq| ->%Ascii.eqb_eq]; auto. }
  split_and!; [done..|]. rewrite He. destruct Hsg as [->|[->| ->]]; cbn; auto.
Qed.
Lemma read_exponent_app xt e r : exponent_text xt e → stops r → read_exponent (xt +:+ r) = Some (e, r).
Proof.
  intros H Hr. assert (Hd : match r with String c _ => is_digit c = false | _ => True end).
  { destruct r as [|c r]; [done|]. destruct Hr as [Hr|[->|[->| ->]]]; try done. apply is_space_spec in Hr as [->|[->|[->| ->]]]; done. }
  destruct H as [[-> ->]|(m&sg&ds&->&Hm&Hds&Hn&H)].
  - rewrite nil_app. destruct r as [|c r]; [done|]. unfold read_exponent.
    assert (Ascii.eqb c "e" || Ascii.eqb c "E" = false) as ->; [|done].
    destruct Hr as [Hr|[->|[->| ->]]]; try done. apply is_space_spec in Hr as [->|[->|[->| ->]]]; done.
  - assert (Hb : ∀ b : bool, match ds with "" => None | String _ _ => Some (if b then (- Z.of_N (digits_value 0 ds))%Z else Z.of_N (digits_value 0 ds), r) end =
        Some (if b then (- value_of ds)%Z else value_of ds, r)) by (rewrite digits_value_spec by done; by destruct ds).
    rewrite !app_assoc.
    assert (Hx : ∀ s, read_exponent (m +:+ s) = 
        let '(neg, s'') := match s with String "-" t => (true, t) | String "+" t => (false, t) | _ => (false, s) end in
        let '(ds, r) := take_digits s'' in
        match ds with
        | EmptyString => None
        | _ => let e := Z.of_N (digits_value 0 ds) in Some (if neg then (- e)%Z else e, r)
        end) by (intros; by destruct Hm as [->| ->]). rewrite Hx.
    destruct H as [[[->| ->] ->]|[-> ->]].
    + rewrite nil_app. destruct ds as [|c ds]; [done|]. rewrite app_cons.
      assert (Hc : match String c (ds +:+ r) with String "-" t => (true, t) | String "+" t => (false, t) | _ => (false, String c (ds +:+ r)) end = (false, String c (ds +:+ r))).
      { destruct Hds as [Hc _]. destruct c as [[] [] [] [] [] [] [] []]; try done; by exfalso; destruct Hc as [Hc1 Hc2]; vm_compute in Hc1, Hc2; (apply Hc1 || apply Hc2). }
      rewrite Hc, <- app_cons, take_digits_app by done. exact (Hb false).
    + change ("+" +:+ ds +:+ r) with (String "+" (ds +:+ r)). cbv beta iota. rewrite take_digits_app by done. exact (Hb false).
    + change ("-" +:+ ds +:+ r) with (String "-" (ds +:+ r)). cbv beta iota. rewrite take_digits_app by done. exact (Hb true).
Qed.
Lemma read_number_spec s d r : read_number s = Some (d, r) → ∃ t, s = t +:+ r ∧ number_text t d.
Proof.
  unfold read_number.
  assert (Hs : ∃ sg t, s = sg +:+ t ∧ (sg = "" ∨ sg = "-") ∧ match s with String "-" t => (true, t) | _ => (false, s) end = (bool_decide (sg = "-"), t)).
  { destruct s as [|c s]; [by exists "", ""; auto|]. destruct (Ascii.eqb_spec c "-") as [->|H1]; [exists "-", s; auto|].
    exists "", (String c s). split_and!; [done|auto|]. destruct c as [[] [] [] [] [] [] [] []]; try done. }
  destruct Hs as (sg&t&->&Hsg&->). intros H.
  apply bind_Some in H as ([w s1]&Hw&H). apply bind_Some in H as ([f s2]&Hf&H). apply bind_Some in H as ([e s3]&He&H). cbn [fst snd] in *.
  apply read_whole_spec in Hw as (->&Hw&Hdw&_). apply read_fraction_spec in Hf as (ft&->&Hf&Hdf). apply read_exponent_spec in He as (xt&->&He).
  injection H as Hd <-. exists (sg +:+ w +:+ ft +:+ xt). split; [by rewrite !app_assoc|].
  exists sg, w, ft, f, xt, e. split_and!; [done..|]. apply scaled_spec in Hd. rewrite digits_value_spec in Hd by (apply every_app; done).
  destruct Hsg as [->| ->]; cbn in Hd; auto.
Qed.
Lemma read_number_app t d r : number_text t d → stops r → read_number (t +:+ r) = Some (d, r).
Proof.
  intros (sg&w&ft&ds&xt&e&->&Hw&Hf&Hx&Hd) Hr.
  assert (Hr' : no_number r).
  { destruct r as [|c r]; [done|]. destruct Hr as [Hr|[->|[->| ->]]]; try done. apply is_space_spec in Hr as [->|[->|[->| ->]]]; done. }
  assert (Hxr : no_number (xt +:+ r)).
  { destruct Hx as [[-> _]|(m&sg'&ds'&->&[->| ->]&_)]; done. }
  assert (Hfr : match ft +:+ xt +:+ r with String c _ => is_digit c = false | _ => True end).
  { destruct Hf as [[-> _]|(->&_)]; [|done]. rewrite nil_app. destruct (xt +:+ r); [done|]. by destruct Hxr. }
  pose proof (whole_digits w Hw) as [Hdw Hnw].
  assert (Hdd : digits (w +:+ ds)). { apply every_app. split; [done|]. destruct Hf as [[_ ->]|(_&?&_)]; done. }
  assert (Hs : match (sg +:+ w +:+ ft +:+ xt) +:+ r with String "-" t => (true, t) | _ => (false, (sg +:+ w +:+ ft +:+ xt) +:+ r) end =
      (bool_decide (sg = "-"), w +:+ ft +:+ xt +:+ r)).
  { destruct Hd as [[-> _]|[-> _]].
    - rewrite nil_app, !app_assoc. destruct w as [|c w]; [done|]. rewrite app_cons. destruct Hdw as [Hc _].
      destruct c as [[] [] [] [] [] [] [] []]; try done; by exfalso; destruct Hc as [Hc1 Hc2]; vm_compute in Hc1, Hc2; (apply Hc1 || apply Hc2).
    - change (("-" +:+ w +:+ ft +:+ xt) +:+ r) with (String "-" ((w +:+ ft +:+ xt) +:+ r)). by rewrite !app_assoc. }
  unfold read_number. rewrite Hs, read_whole_app by done. cbn [mbind option_bind fst snd].
  rewrite (read_fraction_app ft ds) by done. cbn [mbind option_bind fst snd]. rewrite (read_exponent_app xt e) by done. cbn [mbind option_bind fst snd].
  do 2 f_equal. apply scaled_spec. rewrite digits_value_spec by done. destruct Hd as [[-> Hd]|[-> Hd]]; exact Hd.
Qed.

(** * Strings *)
Lemma simple_escape_spec e c : simple_escape e = Some c ↔
  (e, c) ∈ [("""", """"); ("\", "\"); ("/", "/"); ("b", "008"); ("t", "009"); ("n", "010"); ("f", "012"); ("r", "013")]%char.
Proof.
  rewrite !elem_of_cons, elem_of_nil. split.
  - destruct e as [[] [] [] [] [] [] [] []]; try done; intros [= <-]; tauto.
  - intros H. repeat (destruct H as [[= -> ->]|H]; [done|]). done.
Qed.
Lemma onto_spec a o x r : onto a o = Some (x, r) → ∃ y, o = Some (y, r) ∧ x = a +:+ y.
Proof. unfold onto. intros ([y r']&->&[= <- <-])%bind_Some. by exists y. Qed.
Lemma surrogates n : (high_surrogate n = true ↔ 55296 ≤ n ≤ 56319)%N ∧ (low_surrogate n = true ↔ 56320 ≤ n ≤ 57343)%N.
Proof. unfold high_surrogate, low_surrogate. rewrite !andb_true_iff, !N.leb_le. done. Qed.
Lemma hex_value_spec c n : hex_value c = Some n ↔ hex c n.
Proof.
  unfold hex_value, hex, is_digit. set (k := N_of_ascii c).
  destruct (N.leb_spec 48 k), (N.leb_spec k 57), (N.leb_spec 65 k), (N.leb_spec k 70), (N.leb_spec 97 k), (N.leb_spec k 102); cbn [andb];
    (split; [intros [= <-]; lia|intros Hn; try (f_equal; lia); exfalso; lia]).
Qed.
Lemma hex4_spec h1 h2 h3 h4 n : hex4 h1 h2 h3 h4 = Some n ↔ code_unit h1 h2 h3 h4 n.
Proof.
  unfold hex4, code_unit. split.
  - intros H. apply bind_Some in H as (a&Ha&H). apply bind_Some in H as (b&Hb&H). apply bind_Some in H as (c&Hc&H).
    apply bind_Some in H as (d&Hd&[= <-]). exists a, b, c, d. rewrite <- !hex_value_spec. split_and!; try done. lia.
  - intros (a&b&c&d&Ha&Hb&Hc&Hd&->). apply hex_value_spec in Ha as ->, Hb as ->, Hc as ->, Hd as ->.
    cbn [mbind option_bind]. f_equal. lia.
Qed.
Lemma bytes_octets l : bytes l = octets l.
Proof. unfold bytes, octets. induction l as [|n l IH]; [done|]. cbn. by rewrite IH. Qed.
Lemma utf8_spec n x : utf8 n = x ↔ encodes n x.
Proof.
  unfold utf8, encodes. rewrite bytes_octets.
  assert (Hd : ∀ k, (k = k / 64 * 64 + k mod 64 ∧ k mod 64 < 64)%N).
  { intros k. split; [rewrite N.mul_comm; apply N.div_mod'|by apply N.mod_lt]. }
  assert (Hu : ∀ k q r, (r < 64 → k = q * 64 + r → k / 64 = q ∧ k mod 64 = r)%N).
  { intros k q r Hr ->. rewrite (N.div_add_l q 64 r), N.div_small, N.add_0_r by lia.
    rewrite N.add_comm, N.mod_add by lia. by rewrite N.mod_small. }
  assert (H4 : (n / 4096 = n / 64 / 64)%N) by by rewrite N.div_div.
  assert (H5 : (n / 262144 = n / 64 / 64 / 64)%N) by by rewrite !N.div_div.
  destruct (Hd n) as [E1 L1], (Hd (n / 64)%N) as [E2 L2], (Hd (n / 64 / 64)%N) as [E3 L3]. rewrite H4, H5.
  destruct (N.ltb_spec n 128); [|destruct (N.ltb_spec n 2048); [|destruct (N.ltb_spec n 65536)]].
  - split; [by left|]. intros [[_ ->]|[?|[?|?]]]; [done|lia..].
  - split; [intros <-; right; left; split; [lia|]; by exists (n / 64)%N, (n mod 64)%N|].
    intros [?|[(_&a&b&Hb&Hn&->)|[?|?]]]; [lia| |lia..]. by destruct (Hu n a b Hb Hn) as [-> ->].
  - split; [intros <-; right; right; left; split; [lia|]; exists (n / 64 / 64)%N, ((n / 64) mod 64)%N, (n mod 64)%N; split_and!; try done; lia|].
    intros [?|[?|[(_&a&b&c&Hb&Hc&Hn&->)|?]]]; [lia|lia| |lia]. destruct (Hu n _ c Hc Hn) as [E ->]. destruct (Hu _ _ _ Hb E) as [-> ->]. done.
  - split; [intros <-; right; right; right; split; [lia|]; exists (n / 64 / 64 / 64)%N, ((n / 64 / 64) mod 64)%N, ((n / 64) mod 64)%N, (n mod 64)%N; split_and!; try done; lia|].
    intros [?|[?|[?|(_&a&b&c&d&Hb&Hc&Hd'&Hn&->)]]]; [lia|lia|lia|]. destruct (Hu n _ d Hd' Hn) as [E ->]. destruct (Hu _ _ _ Hc E) as [E' ->]. destruct (Hu _ _ _ Hb E') as [-> ->]. done.
Qed.
Lemma read_chars_spec s x r : read_chars s = Some (x, r) → ∃ u, s = u +:+ String """" r ∧ chars_text u x.
Proof.
  remember (String.length s) as n eqn:En. revert s x r En. induction (lt_wf n) as [n _ IH]. intros s x r -> H.
  destruct s as [|c s]; [done|]. cbn [read_chars] in H.
  destruct (Ascii.eqb_spec c """") as [->|Hq].
  { injection H as <- <-. exists "". split; [done|constructor]. }
  destruct (Ascii.eqb_spec c "\") as [->|Hb].
  - destruct s as [|e s2]; [done|]. destruct (simple_escape e) as [y|] eqn:Ee.
    + apply onto_spec in H as (z&H&->). apply (IH (String.length s2)) in H as (u&->&Hu); [|cbn; lia|done].
      exists (String "\" (String e u)). split; [done|]. apply simple_escape_spec in Ee. by econstructor.
    + destruct (Ascii.eqb_spec e "u") as [->|He].
      2: { exfalso. revert H. clear -He. destruct e as [[] [] [] [] [] [] [] []]; done. }
      destruct s2 as [|h1 [|h2 [|h3 [|h4 s3]]]]; try done.
      apply bind_Some in H as (m&Hm&H). destruct (surrogates m) as [Hh Hl].
      destruct (high_surrogate m) eqn:Eh.
      * destruct s3 as [|a s3]; [done|].
        destruct (Ascii.eqb_spec a "\") as [->|Ha]; [|exfalso; revert H; clear -Ha; destruct a as [[] [] [] [] [] [] [] []]; done].
        destruct s3 as [|b s3]; [done|].
        destruct (Ascii.eqb_spec b "u") as [->|Hb]; [|exfalso; revert H; clear -Hb; destruct b as [[] [] [] [] [] [] [] []]; done].
        destruct s3 as [|l1 [|l2 [|l3 [|l4 s4]]]]; try done.
        apply bind_Some in H as (k&Hk&H). destruct (surrogates k) as [_ Hlk]. destruct (low_surrogate k); [|done].
        apply onto_spec in H as (z&H&->). apply (IH (String.length s4)) in H as (u&->&Hu); [|cbn; lia|done].
        exists ("\u" +:+ String h1 (String h2 (String h3 (String h4 ("\u" +:+ String l1 (String l2 (String l3 (String l4 u)))))))).
        split; [done|]. econstructor; [by apply hex4_spec|by apply hex4_spec|by apply Hh|by apply Hlk|by apply utf8_spec|done].
      * destruct (low_surrogate m) eqn:El; [done|]. apply onto_spec in H as (z&H&->). apply (IH (String.length s3)) in H as (u&->&Hu); [|cbn; lia|done].
        exists ("\u" +:+ String h1 (String h2 (String h3 (String h4 u)))). split; [done|]. econstructor; [by apply hex4_spec| |by apply utf8_spec|done].
        assert (¬ (55296 ≤ m ≤ 56319)%N) by (intros ?%Hh; done). assert (¬ (56320 ≤ m ≤ 57343)%N) by (intros ?%Hl; done). lia.
  - destruct (N.ltb_spec (N_of_ascii c) 32); [done|]. apply onto_spec in H as (z&H&->). apply (IH (String.length s)) in H as (u&->&Hu); [|cbn; lia|done].
    exists (String c u). split; [done|]. rewrite app_cons, nil_app. by constructor.
Qed.
Lemma read_chars_app u x r : chars_text u x → read_chars (u +:+ String """" r) = Some (x, r).
Proof.
  induction 1 as [|c t s H1 H2 H3 H IH|e c t s He H IH|h1 h2 h3 h4 n x t s Hn Hr Hx H IH|h1 h2 h3 h4 l1 l2 l3 l4 n m x t s Hn Hm Hrn Hrm Hx H IH].
  - done.
  - rewrite app_cons. cbn [read_chars]. destruct (Ascii.eqb_spec c """"); [done|]. destruct (Ascii.eqb_spec c "\"); [done|].
    destruct (N.ltb_spec (N_of_ascii c) 32); [lia|]. by rewrite IH.
  - rewrite !app_cons. cbn [read_chars]. change (Ascii.eqb "\" """") with false. change (Ascii.eqb "\" "\") with true. cbv iota.
    apply simple_escape_spec in He. rewrite He, IH. done.
  - apply hex4_spec in Hn. apply utf8_spec in Hx as <-. change (("\u" +:+ String h1 (String h2 (String h3 (String h4 t)))) +:+ String """" r) with
      (String "\" (String "u" (String h1 (String h2 (String h3 (String h4 (t +:+ String """" r))))))).
    cbn [read_chars]. change (Ascii.eqb "\" """") with false. change (Ascii.eqb "\" "\") with true. cbv iota.
    change (simple_escape "u") with (@None ascii). cbv iota. rewrite Hn. cbn [mbind option_bind].
    destruct (surrogates n) as [Hh Hl].
    destruct (high_surrogate n); [destruct (proj1 Hh eq_refl); lia|]. destruct (low_surrogate n); [destruct (proj1 Hl eq_refl); lia|].
    by rewrite IH.
  - apply hex4_spec in Hn, Hm. apply utf8_spec in Hx as <-. change (("\u" +:+ String h1 (String h2 (String h3 (String h4 ("\u" +:+ String l1 (String l2 (String l3 (String l4 t)))))))) +:+ String """" r) with
      (String "\" (String "u" (String h1 (String h2 (String h3 (String h4
         (String "\" (String "u" (String l1 (String l2 (String l3 (String l4 (t +:+ String """" r))))))))))))).
    cbn [read_chars]. change (Ascii.eqb "\" """") with false. change (Ascii.eqb "\" "\") with true. cbv iota.
    change (simple_escape "u") with (@None ascii). cbv iota. rewrite Hn. cbn [mbind option_bind].
    destruct (surrogates n) as [Hh _]. destruct (surrogates m) as [_ Hl]. apply Hh in Hrn. apply Hl in Hrm. rewrite Hrn, Hm. cbn [mbind option_bind].
    by rewrite Hrm, IH.
Qed.

(** * Lists *)
Lemma strip_spec p s r : strip p s = Some r ↔ s = p +:+ r.
Proof.
  revert s. induction p as [|a p IH]; intros s; [cbn; rewrite nil_app; naive_solver|]. rewrite app_cons. cbn [strip].
  destruct s as [|b s]; [done|]. destruct (Ascii.eqb_spec a b) as [->|H]; [rewrite IH|]; naive_solver.
Qed.
Definition after_commas (ts : list string) : string := String.concat "" ((λ t, "," +:+ t) <$> ts).
Lemma concat_empty_cons x l : String.concat "" (x :: l) = x +:+ String.concat "" l.
Proof. cbn [String.concat]. destruct l; [by rewrite app_nil|]. by rewrite nil_app. Qed.
Lemma after_commas_cons t ts : after_commas (t :: ts) = String "," (t +:+ after_commas ts).
Proof. unfold after_commas. rewrite fmap_cons, concat_empty_cons. done. Qed.
Lemma concat_commas t ts : String.concat "," (t :: ts) = t +:+ after_commas ts.
Proof.
  revert t. induction ts as [|u ts IH]; intros t; [cbn; by rewrite app_nil|].
  change (String.concat "," (t :: u :: ts)) with (t +:+ "," +:+ String.concat "," (u :: ts)). rewrite IH, after_commas_cons. done.
Qed.
Lemma after_commas_length ts : length ts ≤ String.length (after_commas ts).
Proof.
  induction ts as [|t ts IH]; [done|]. rewrite after_commas_cons. cbn [length String.length].
  enough (String.length (after_commas ts) ≤ String.length (t +:+ after_commas ts)) by lia.
  clear. generalize (after_commas ts). intros v. induction t as [|c t IH]; [done|]. rewrite app_cons. cbn. lia.
Qed.
Lemma length_app a b : String.length (a +:+ b) = String.length a + String.length b.
Proof. induction a as [|c a IH]; [done|]. rewrite app_cons. cbn. by rewrite IH. Qed.

Section Items.
Context {A : Type} (item : string → option (A * string)) (close : ascii) (P : string → A → Prop).
Context (Hclose : close = "]"%char ∨ close = "}"%char).
Context (Hpad : ∀ t x b, P t x → spaces b → P (t +:+ b) x).
Context (Hsound : ∀ s x r, item s = Some (x, r) → ∃ t, s = t +:+ r ∧ P t x).
Context (Hcomplete : ∀ t x r, P t x → stops r → ∃ b, spaces b ∧ item (t +:+ r) = Some (x, b +:+ r)).
Context (Hnot : ∀ s x, item s = Some x → ∀ s', skip_space s ≠ String close s').
Lemma read_more_spec fuel s l r : read_more item close fuel s = Some (l, r) →
  ∃ b ts, spaces b ∧ Forall2 P ts l ∧ s = b +:+ after_commas ts +:+ String close r.
Proof using Hpad Hsound.
  clear Hclose Hcomplete Hnot.
  revert s l r. induction fuel as [|fuel IH]; intros s l r; [done|]. cbn [read_more].
  destruct (skip_space_spec s) as (b&Hb&E). destruct (skip_space s) as [|c s'] eqn:Es; [done|].
  destruct (Ascii.eqb_spec c close) as [->|Hc].
  { intros [= <- <-]. exists b, []. done. }
  destruct (Ascii.eqb_spec c ",") as [->|]; [|done]. intros H.
  apply bind_Some in H as ([x s1]&Hx&H). apply bind_Some in H as ([l' r']&Hl&[= <- <-]). cbn [fst snd] in *.
  apply Hsound in Hx as (t&->&Ht). apply IH in Hl as (b'&ts&Hb'&Hts&->).
  exists b, ((t +:+ b') :: ts). split; [done|]. split; [constructor; auto|]. rewrite E, after_commas_cons. by rewrite !app_cons, !string_app_assoc.
Qed.
Lemma stops_commas ts r : stops (after_commas ts +:+ String close r).
Proof using Hclose. clear Hnot Hsound Hpad Hcomplete. destruct ts as [|t ts]; [cbn; right; destruct Hclose; auto|]. rewrite after_commas_cons, app_cons. cbn. auto. Qed.
Lemma read_more_app fuel b ts l r : spaces b → Forall2 P ts l → length ts < fuel →
  read_more item close fuel (b +:+ after_commas ts +:+ String close r) = Some (l, r).
Proof using Hclose Hcomplete.
  clear Hnot Hsound Hpad.
  intros Hb Hts. revert fuel b Hb. induction Hts as [|t x ts l Ht Hts IH]; intros fuel b Hb Hf; (destruct fuel as [|fuel]; [cbn in Hf; lia|]); cbn [read_more].
  - rewrite skip_spaces by done. change (after_commas [] +:+ String close r) with (String close r).
    rewrite skip_none by (destruct Hclose as [->| ->]; done). by rewrite Ascii.eqb_refl.
  - rewrite skip_spaces by done. rewrite after_commas_cons, app_cons. rewrite skip_none by done.
    destruct (Ascii.eqb_spec "," close); [destruct Hclose; congruence|]. rewrite Ascii.eqb_refl, string_app_assoc.
    destruct (Hcomplete t x (after_commas ts +:+ String close r) Ht (stops_commas ts r)) as (b'&Hb'&->). cbn [mbind option_bind fst snd].
    rewrite IH; [done|done|cbn in Hf; lia].
Qed.
Lemma read_items_spec s l r : read_items item close s = Some (l, r) →
  ∃ t, s = t +:+ String close r ∧ (l = [] ∧ spaces t ∨ l ≠ [] ∧ ∃ ts, Forall2 P ts l ∧ t = String.concat "," ts).
Proof using Hpad Hsound.
  clear Hclose Hcomplete Hnot.
  unfold read_items. destruct (skip_space_spec s) as (b&Hb&E). destruct (skip_space s) as [|c s'] eqn:Es; [done|].
  destruct (Ascii.eqb_spec c close) as [->|Hc].
  { intros [= <- <-]. exists b. auto. }
  intros H. apply bind_Some in H as ([x s1]&Hx&H). apply bind_Some in H as ([l' r']&Hl&[= <- <-]). cbn [fst snd] in *.
  apply Hsound in Hx as (t&Es'&Ht). apply read_more_spec in Hl as (b'&ts&Hb'&Hts&->).
  exists (String.concat "," ((t +:+ b') :: ts)). split; [rewrite concat_commas, Es', !string_app_assoc; done|].
  right. split; [done|]. exists ((t +:+ b') :: ts). split; [constructor; auto|done].
Qed.
Lemma read_items_empty a r : spaces a → read_items item close (a +:+ String close r) = Some ([], r).
Proof using Hclose.
  clear Hnot Hsound Hpad Hcomplete. intros Ha. unfold read_items. rewrite skip_spaces by done. rewrite skip_none by (destruct Hclose as [->| ->]; done). by rewrite Ascii.eqb_refl.
Qed.
Lemma read_items_app ts l r : ts ≠ [] → Forall2 P ts l → read_items item close (String.concat "," ts +:+ String close r) = Some (l, r).
Proof using Hclose Hcomplete Hnot.
  clear Hsound Hpad.
  intros Hn Hts. destruct Hts as [|t x ts l Ht Hts]; [done|]. rewrite concat_commas, string_app_assoc. unfold read_items.
  destruct (Hcomplete t x (after_commas ts +:+ String close r) Ht (stops_commas ts r)) as (b'&Hb'&Hx).
  pose proof (Hnot _ _ Hx) as Hs. destruct (skip_space _) as [|c s'] eqn:Es.
  { apply skip_nil in Es. apply every_app in Es as [_ Es]. apply every_app in Es as [_ [Es _]].
    exfalso. destruct Hclose as [->| ->]; naive_solver. }
  destruct (Ascii.eqb_spec c close) as [->|Hc]; [by destruct (Hs s')|]. rewrite Hx. cbn [mbind option_bind fst snd].
  rewrite (read_more_app _ b' ts l r); [done|done|done|]. pose proof (after_commas_length ts). rewrite !length_app. cbn. lia.
Qed.
End Items.

(** * Values *)
Lemma padded_pad {A} (P : string → A → Prop) t x b : padded P t x → spaces b → padded P (t +:+ b) x.
Proof.
  intros (a&u&b'&->&Ha&Hb'&Hu) Hb. exists a, u, (b' +:+ b). rewrite !string_app_assoc. split_and!; [done|done|by apply every_app|done].
Qed.
Lemma member_pad V t x b : member_text V t x → spaces b → member_text V (t +:+ b) x.
Proof.
  intros (a&q&b'&u&->&Ha&Hb'&Hq&Hu) Hb. exists a, q, b', (u +:+ b). rewrite !string_app_assoc. split_and!; try done. by apply padded_pad.
Qed.
Section Value.
Context (value : string → option (json * string)) (V : string → json → Prop).
Context (Hsound : ∀ s j r, value s = Some (j, r) → ∃ t, s = t +:+ r ∧ padded V t j).
Context (Hcomplete : ∀ t j r, padded V t j → stops r → ∃ b, spaces b ∧ value (t +:+ r) = Some (j, b +:+ r)).
Lemma read_member_spec s kv r : read_member value s = Some (kv, r) → ∃ t, s = t +:+ r ∧ member_text V t kv.
Proof using Hsound.
  unfold read_member. destruct (skip_space_spec s) as (a&Ha&E). destruct (skip_space s) as [|c s1]; [done|].
  destruct (Ascii.eqb_spec c """") as [->|Hc]; [|intros H; exfalso; revert H; clear -Hc; destruct c as [[] [] [] [] [] [] [] []]; done].
  intros H. apply bind_Some in H as ([k s2]&Hk&H). cbn [fst snd] in H. apply read_chars_spec in Hk as (u&->&Hu).
  destruct (skip_space_spec s2) as (b&Hb&E2). destruct (skip_space s2) as [|c s3]; [done|].
  destruct (Ascii.eqb_spec c ":") as [->|Hc]; [|exfalso; revert H; clear -Hc; destruct c as [[] [] [] [] [] [] [] []]; done].
  apply bind_Some in H as ([v r']&Hv&[= <- <-]). cbn [fst snd] in *. apply Hsound in Hv as (t&->&Ht).
  exists (a +:+ String """" (u +:+ """") +:+ b +:+ ":" +:+ t). split.
  - rewrite E, E2. rewrite !string_app_assoc, !app_cons, !string_app_assoc. done.
  - exists a, (String """" (u +:+ """")), b, t. split_and!; try done. by exists u.
Qed.
Lemma read_member_app t kv r : member_text V t kv → stops r → ∃ b, spaces b ∧ read_member value (t +:+ r) = Some (kv, b +:+ r).
Proof using Hcomplete.
  intros (a&q&b&u&->&Ha&Hb&(x&->&Hx)&Hu) Hr. destruct (Hcomplete _ _ r Hu Hr) as (b'&Hb'&Hv). exists b'. split; [done|].
  assert (E : (a +:+ String """" (x +:+ """") +:+ b +:+ ":" +:+ u) +:+ r = a +:+ String """" (x +:+ String """" (b +:+ String ":" (u +:+ r)))).
  { rewrite !string_app_assoc, !app_cons, !string_app_assoc. done. }
  rewrite E. clear E. unfold read_member. rewrite skip_spaces by done. rewrite skip_none by done.
  rewrite (read_chars_app x kv.1) by done. cbn [mbind option_bind fst snd]. rewrite skip_spaces by done. rewrite skip_none by done.
  rewrite Hv. by destruct kv.
Qed.
Lemma read_member_not s x s' : read_member value s = Some x → skip_space s ≠ String "}" s'.
Proof. intros H E. unfold read_member in H. by rewrite E in H. Qed.
End Value.
Lemma read_value_not depth s x s' : read_value depth s = Some x → skip_space s ≠ String "]" s'.
Proof. intros H E. destruct depth; cbn [read_value] in H; by rewrite E in H. Qed.

Theorem read_value_spec depth s j r : read_value depth s = Some (j, r) → ∃ t, s = t +:+ r ∧ padded (value_text depth) t j.
Proof.
  revert s j r. induction depth as [depth IH] using (well_founded_induction lt_wf). intros s j r H.
  destruct (skip_space_spec s) as (a&Ha&E).
  enough (∃ u, skip_space s = u +:+ r ∧ value_text depth u j) as (u&Eu&Hu).
  { exists (a +:+ u). split; [rewrite E, Eu, string_app_assoc; done|]. exists a, u, "". by rewrite app_nil. }
  assert (Hcase : ∀ c s', skip_space s = String c s' →
    (r0 ← strip "null" (String c s'); Some (JNull, r0)) = Some (j, r) ∨
    (r0 ← strip "true" (String c s'); Some (JBool true, r0)) = Some (j, r) ∨
    (r0 ← strip "false" (String c s'); Some (JBool false, r0)) = Some (j, r) ∨
    c = """"%char ∧ (x ← read_chars s'; Some (JStr x.1, x.2)) = Some (j, r) ∨
    c = "["%char ∧ (∃ n, depth = S n ∧ (x ← read_items (read_value n) "]" s'; Some (JArr x.1, x.2)) = Some (j, r)) ∨
    c = "{"%char ∧ (∃ n, depth = S n ∧ (x ← read_items (read_member (read_value n)) "}" s'; Some (JObj x.1, x.2)) = Some (j, r)) ∨
    (x ← read_number (String c s'); Some (JNum x.1, x.2)) = Some (j, r)).
  { intros c s' Es. destruct depth as [|n]; cbn [read_value] in H; rewrite Es in H;
      repeat (match type of H with (if Ascii.eqb ?x ?y then _ else _) = _ => destruct (Ascii.eqb_spec x y) as [->|] end);
      try done; eauto 15. }
  destruct (skip_space s) as [|c s'] eqn:Es.
  { exfalso. destruct depth; cbn [read_value] in H; by rewrite Es in H. }
  specialize (Hcase c s' eq_refl).
  destruct Hcase as [Hc|[Hc|[Hc|[[-> Hc]|[[-> (n&->&Hc)]|[[-> (n&->&Hc)]|Hc]]]]]]; apply bind_Some in Hc as (x&Hx&[= <- <-]).
  - apply strip_spec in Hx as ->. exists "null". split; [done|by destruct depth].
  - apply strip_spec in Hx as ->. exists "true". split; [done|by destruct depth].
  - apply strip_spec in Hx as ->. exists "false". split; [done|by destruct depth].
  - destruct x as [y r]. apply read_chars_spec in Hx as (u&->&Hu). exists (String """" (u +:+ """")).
    split; [by rewrite app_cons, string_app_assoc|]. destruct depth; by exists u.
  - destruct x as [l r]. apply (read_items_spec _ _ (padded (value_text n))) in Hx as (t&->&Ht);
      [|apply padded_pad|apply IH; lia].
    exists ("[" +:+ t +:+ "]"). split; [by rewrite !string_app_assoc|]. cbn [value_text fst]. unfold list_text.
    destruct Ht as [[-> Ht]|(Hn&ts&Hts&->)]; [left; split; [done|]; by exists t|right; split; [done|]; by exists ts].
  - destruct x as [l r]. apply (read_items_spec _ _ (member_text (value_text n))) in Hx as (t&->&Ht);
      [|apply member_pad|apply read_member_spec, IH; lia].
    exists ("{" +:+ t +:+ "}"). split; [by rewrite !string_app_assoc|]. cbn [value_text fst]. unfold list_text.
    destruct Ht as [[-> Ht]|(Hn&ts&Hts&->)]; [left; split; [done|]; by exists t|right; split; [done|]; by exists ts].
  - destruct x as [d r]. apply read_number_spec in Hx as (t&E'&Ht). exists t. split; [done|]. by destruct depth.
Qed.

Lemma number_first t d : number_text t d → ∃ c u, t = String c u ∧ (c = "-"%char ∨ is_digit c = true).
Proof.
  intros (sg&w&ft&ds&xt&e&->&Hw&_&_&[[-> _]|[-> _]]); [|exists "-"%char, (w +:+ ft +:+ xt); auto].
  rewrite nil_app. destruct Hw as [->|[Hd (c&w'&->&_)]]; [by exists "0"%char, (ft +:+ xt); auto|].
  exists c, (w' +:+ ft +:+ xt). split; [done|]. right. destruct Hd as [Hc _]. by apply is_digit_spec.
Qed.
Theorem read_value_app depth t j r : padded (value_text depth) t j → stops r →
  ∃ b, spaces b ∧ read_value depth (t +:+ r) = Some (j, b +:+ r).
Proof.
  revert t j r. induction depth as [depth IH] using (well_founded_induction lt_wf).
  intros t j r (a&u&b&->&Ha&Hb&Hu) Hr. exists b. split; [done|]. rewrite !string_app_assoc.
  assert (E : ∀ c v, u = String c v → is_space c = false → skip_space (a +:+ u +:+ b +:+ r) = String c (v +:+ b +:+ r)).
  { intros c v -> Hc. rewrite skip_spaces by done. rewrite app_cons. by apply skip_none. }
  pose proof (stops_space b r Hb Hr) as Hbr.
  destruct j as [|v|d|s|l|fs].
  - assert (u = "null") as -> by by destruct depth. pose proof (E "n"%char "ull" eq_refl eq_refl) as E'.
    destruct depth; cbn [read_value]; rewrite E'; done.
  - assert (u = if v then "true" else "false") as -> by by destruct depth.
    destruct v; [pose proof (E "t"%char "rue" eq_refl eq_refl) as E'|pose proof (E "f"%char "alse" eq_refl eq_refl) as E'];
    destruct depth; cbn [read_value]; rewrite E'; done.
  - assert (number_text u d) as Hn by by destruct depth. destruct (number_first u d Hn) as (c&v&->&Hc).
    pose proof (read_number_app _ _ (b +:+ r) Hn Hbr) as Hx. rewrite app_cons in Hx.
    assert (Hs : is_space c = false ∧ Ascii.eqb c "n" = false ∧ Ascii.eqb c "t" = false ∧ Ascii.eqb c "f" = false ∧ Ascii.eqb c """" = false ∧ Ascii.eqb c "[" = false ∧ Ascii.eqb c "{" = false).
    { destruct Hc as [->|Hc]; [done|]. clear -Hc. destruct c as [[] [] [] [] [] [] [] []]; done. }
    destruct Hs as (H0&H1&H2&H3&H4&H5&H6). pose proof (E c v eq_refl H0) as E'.
    destruct depth; cbn [read_value]; rewrite E', H1, H2, H3, H4, H5, H6, Hx; done.
  - assert (string_text u s) as (x&->&Hx) by by destruct depth.
    pose proof (E """"%char (x +:+ """") eq_refl eq_refl) as E'. rewrite string_app_assoc in E'.
    change ("""" +:+ b +:+ r) with (String """" (b +:+ r)) in E'.
    destruct depth; cbn [read_value]; rewrite E'; cbn [Ascii.eqb Bool.eqb]; rewrite (read_chars_app x s) by done; done.
  - destruct depth as [|n]; [done|]. cbn [value_text] in Hu.
    assert (∃ x, u = "[" +:+ x +:+ "]" ∧ read_items (read_value n) "]" (x +:+ String "]" (b +:+ r)) = Some (l, b +:+ r)) as (x&->&Hx).
    { destruct Hu as [[-> (x&Hx&->)]|[Hl (ts&Hts&->)]]; eexists; (split; [done|]).
      - apply read_items_empty; auto.
      - apply (read_items_app _ _ (padded (value_text n))); try done; auto.
        + intros. by eapply read_value_not.
        + intros ->. by apply Forall2_nil_inv_l in Hts. }
    assert (E' : skip_space (a +:+ ("[" +:+ x +:+ "]") +:+ b +:+ r) = String "[" (x +:+ String "]" (b +:+ r))).
    { rewrite (E "["%char (x +:+ "]") eq_refl eq_refl). by rewrite string_app_assoc. }
    cbn [read_value]. rewrite E'. cbn [Ascii.eqb Bool.eqb]. by rewrite Hx.
  - destruct depth as [|n]; [done|]. cbn [value_text] in Hu.
    assert (∃ x, u = "{" +:+ x +:+ "}" ∧ read_items (read_member (read_value n)) "}" (x +:+ String "}" (b +:+ r)) = Some (fs, b +:+ r)) as (x&->&Hx).
    { destruct Hu as [[-> (x&Hx&->)]|[Hl (ts&Hts&->)]]; eexists; (split; [done|]).
      - apply read_items_empty; auto.
      - apply (read_items_app _ _ (member_text (value_text n))); try done; auto.
        + intros. apply (read_member_app _ (value_text n)); [|done|done]. intros. apply IH; [lia|done|done].
        + intros. by eapply read_member_not.
        + intros ->. by apply Forall2_nil_inv_l in Hts. }
    assert (E' : skip_space (a +:+ ("{" +:+ x +:+ "}") +:+ b +:+ r) = String "{" (x +:+ String "}" (b +:+ r))).
    { rewrite (E "{"%char (x +:+ "}") eq_refl eq_refl). by rewrite string_app_assoc. }
    cbn [read_value]. rewrite E'. cbn [Ascii.eqb Bool.eqb]. by rewrite Hx.
Qed.
Theorem parse_json_spec depth s j : parse_json depth s = Some j ↔ json_text depth s j.
Proof.
  unfold parse_json, json_text. split.
  - intros H. apply bind_Some in H as ([j' r]&Hv&H). cbn [fst snd] in *. apply read_value_spec in Hv as (t&->&Ht).
    destruct (skip_space r) eqn:Er; [|done]. injection H as ->. apply padded_pad; [done|by apply skip_nil].
  - intros H. destruct (read_value_app depth s j "" H I) as (b&Hb&Hv). rewrite !app_nil in Hv. rewrite Hv. cbn [mbind option_bind fst snd].
    by rewrite skip_all.
Qed.
