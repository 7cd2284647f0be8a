(** Numbers are read as [EdnSpec.v] says. *)
From Coq Require Import Ascii QArith.
From stdpp Require Import prelude gmap strings.
From Verif Require Import DecModel LedgerTypes IsoModel JsonModel CljModel TextFacts ReadModel ReadSpec ReadFacts EdnModel EdnSpec EdnWords.
Local Open Scope nat_scope.
Local Notation digits := ReadSpec.digits.
Local Notation app_assoc := TextFacts.string_app_assoc.

Definition sign_of (t : string) : bool * string :=
  match t with String "-" s => (true, s) | String "+" s => (false, s) | _ => (false, t) end.
Lemma sign_of_spec t b u : sign_of t = (b, u) → signed_text t u b.
Proof.
  destruct t as [|c t]; [intros [= <- <-]; left; auto|].
  destruct (Ascii.eqb_spec c "-") as [->|H1]; [intros [= <- <-]; by right|].
  destruct (Ascii.eqb_spec c "+") as [->|H2]; [intros [= <- <-]; left; auto|].
  assert (sign_of (String c t) = (false, String c t)) as -> by (destruct c as [[] [] [] [] [] [] [] []]; done).
  intros [= <- <-]. left. auto.
Qed.
Definition starts_digit (t : string) : Prop := match t with String c _ => is_digit c = true | EmptyString => False end.
Lemma sign_of_text t u b : signed_text t u b → starts_digit u → sign_of t = (b, u).
Proof.
  intros [[[->| ->] ->]|[-> ->]] H; [|done|done]. destruct u as [|c u]; [done|]. cbn in H. revert H.
  destruct c as [[] [] [] [] [] [] [] []]; done.
Qed.
Definition quiet (r : string) : Prop :=
  match r with String c _ => is_digit c = false ∧ c ≠ "e"%char ∧ c ≠ "E"%char | EmptyString => True end.
Lemma exponent_text_app xt e r : exponent_text xt e → quiet r → read_exponent (xt +:+ r) = Some (e, r).
Proof.
  intros H Hr. assert (Hd : match r with String c _ => is_digit c = false | _ => True end) by (destruct r; [done|apply Hr]).
  destruct H as [[-> ->]|(m&sg&ds&->&Hm&Hds&Hn&H)].
  - rewrite nil_app. destruct r as [|c r]; [done|]. unfold read_exponent. destruct Hr as (_&H1&H2).
    destruct (Ascii.eqb_spec c "e"); [done|]. destruct (Ascii.eqb_spec c "E"); done.
  - assert (Hb : ∀ b : bool, match ds with "" => None | String _ _ => Some (if b then (- Z.of_N (digits_value 0 ds))%Z else Z.of_N (digits_value 0 ds), r) end =
        Some (if b then (- value_of ds)%Z else value_of ds, r)) by (rewrite digits_value_spec by done; by destruct ds).
    rewrite !app_assoc.
    assert (Hx : ∀ s, read_exponent (m +:+ s) =
        let '(neg, s'') := sign_of s in
        let '(ds, r) := take_digits s'' in
        match ds with
        | EmptyString => None
        | _ => let e := Z.of_N (digits_value 0 ds) in Some (if neg then (- e)%Z else e, r)
        end) by (intros; by destruct Hm as [->| ->]). rewrite Hx.
    assert (Hs : starts_digit (ds +:+ r)).
    { destruct ds as [|c ds]; [done|]. rewrite app_cons. destruct Hds as [Hc _]. by apply is_digit_spec. }
    destruct H as [[Hsg ->]|[-> ->]].
    + rewrite (sign_of_text _ (ds +:+ r) false); [|left; split; [destruct Hsg as [->| ->]; auto|done]|done].
      rewrite take_digits_app by done. exact (Hb false).
    + rewrite (sign_of_text _ (ds +:+ r) true); [|by right|done]. rewrite take_digits_app by done. exact (Hb true).
Qed.

(** The text without its sign. *)
Definition whole (ds : string) : bool := match ds with EmptyString => false | String "0" (String _ _) => false | _ => true end.
Definition fraction_of (r : string) : string * string := match r with String "." s => take_digits s | _ => ("", r) end.
Definition float_value (t : string) (b : bool) (ds r : string) : option edn :=
  match ds with
  | EmptyString => None
  | _ =>
      let '(fs, r1) := fraction_of r in
      x ← read_exponent r1;
      match x.2 with
      | "" => Some (EDouble t)
      | "M" => Some (ENum (CDec (scaled (signed b (Z.of_N (digits_value 0 (ds +:+ fs)))) (String.length fs) x.1)))
      | _ => None
      end
  end.
Lemma number_value_unfold t : number_value t =
  (let '(b, s) := sign_of t in
   let '(ds, r) := take_digits s in
   let z := signed b (Z.of_N (digits_value 0 ds)) in
   match r with
   | "" => if whole ds then Some (ENum (if fits_long z then CLong z else CBig z)) else None
   | "N" => if whole ds then Some (ENum (CBig z)) else None
   | _ => float_value t b ds r
   end).
Proof. done. Qed.
Lemma whole_spec ds : digits ds → whole ds = true ↔ whole_text ds.
Proof.
  intros Hd. unfold whole, whole_text. destruct ds as [|c ds]; [split; [done|]; intros [?|(_&?&?&?&_)]; done|].
  destruct (Ascii.eqb_spec c "0") as [->|Hc].
  - destruct ds as [|c ds]; [split; auto|]. split; [done|]. intros [?|(_&?&?&[= <- <-]&?)]; done.
  - transitivity True; [|split; [intros _; right; split; [done|by exists c, ds]|done]].
    split; [done|]. intros _. destruct c as [[] [] [] [] [] [] [] []]; done.
Qed.
Lemma fits_long_spec z : fits_long z = true ↔ in_long z.
Proof. unfold fits_long, in_long. rewrite andb_true_iff, Z.leb_le, Z.ltb_lt. done. Qed.
Lemma fraction_of_spec r fs r1 : fraction_of r = (fs, r1) →
  ∃ ft, r = ft +:+ r1 ∧ (ft = "" ∧ fs = "" ∨ ft = "." +:+ fs ∧ digits fs).
Proof.
  unfold fraction_of. destruct r as [|c r]; [intros [= <- <-]; exists ""; auto|]. destruct (Ascii.eqb_spec c ".") as [->|H].
  - intros (->&Hd&_)%take_digits_spec. exists ("." +:+ fs). auto.
  - assert (match String c r with String "." s => take_digits s | _ => ("", String c r) end = ("", String c r)) as ->.
    { destruct c as [[] [] [] [] [] [] [] []]; done. }
    intros [= <- <-]. exists "". auto.
Qed.
Lemma fraction_of_app ft fs r : (ft = "" ∧ fs = "" ∨ ft = "." +:+ fs ∧ digits fs) →
  match r with String c _ => is_digit c = false ∧ c ≠ "."%char | _ => True end → fraction_of (ft +:+ r) = (fs, r).
Proof.
  intros [[-> ->]|[-> Hd]] Hr.
  - rewrite nil_app. destruct r as [|c r]; [done|]. unfold fraction_of. destruct Hr as [_ Hc]. revert Hc. destruct c as [[] [] [] [] [] [] [] []]; done.
  - change (("." +:+ fs) +:+ r) with (String "." (fs +:+ r)). cbn [fraction_of]. apply take_digits_app; [done|]. destruct r; [done|]. apply Hr.
Qed.

Lemma float_value_unfold t b ds r : ds ≠ "" → float_value t b ds r =
  (let '(fs, r1) := fraction_of r in
   x ← read_exponent r1;
   match x.2 with
   | "" => Some (EDouble t)
   | "M" => Some (ENum (CDec (scaled (signed b (Z.of_N (digits_value 0 (ds +:+ fs)))) (String.length fs) x.1)))
   | _ => None
   end).
Proof. by destruct ds. Qed.
Lemma float_sound t b s ds r v : signed_text t s b → take_digits s = (ds, r) → r ≠ "" → float_value t b ds r = Some v → number t v.
Proof.
  intros Hs Hd Hr Hf. apply take_digits_spec in Hd as (->&Hd&Hr').
  assert (Hn : ds ≠ "") by by destruct ds. 
  rewrite float_value_unfold in Hf by done. rename Hf into Hf'.
  destruct (fraction_of r) as [fs r1] eqn:Ef. apply fraction_of_spec in Ef as (ft&->&Hft).
  apply bind_Some in Hf' as ([e r2]&Hx&Hf). apply read_exponent_spec in Hx as (xt&->&Hx). cbn [fst snd] in Hf.
  assert (Hfl : float_text (ds +:+ ft +:+ xt) ds fs e) by (exists ft, xt; done).
  assert (Hdf : digits (ds +:+ fs)). { apply every_app. split; [done|]. destruct Hft as [[_ ->]|[_ ?]]; done. }
  destruct r2 as [|c r2].
  - injection Hf as <-. rewrite app_nil in Hs, Hr, Hr'. eapply N_double; [exact Hs|exact Hfl|]. intros Ha. apply every_app in Ha as [_ Ha].
    destruct (ft +:+ xt) as [|c r2]; [done|]. destruct Ha as [Ha _]. apply is_digit_spec in Ha. congruence.
  - destruct (Ascii.eqb_spec c "M") as [->|Hc]; [|exfalso; revert Hf Hc; clear; destruct c as [[] [] [] [] [] [] [] []]; done].
    destruct r2; [|done]. injection Hf as <-. eapply (N_decimal _ (ds +:+ ft +:+ xt)); [|exact Hfl|].
    + by rewrite !app_assoc.
    + apply scaled_spec. by rewrite digits_value_spec.
Qed.
Lemma number_sound t v : number_value t = Some v → number t v.
Proof.
  rewrite number_value_unfold. destruct (sign_of t) as [b s] eqn:Es. apply sign_of_spec in Es.
  destruct (take_digits s) as [ds r] eqn:Ed. pose proof (float_sound t b s ds r v Es Ed) as Hf.
  apply take_digits_spec in Ed as (->&Hd&Hr). cbv zeta. rewrite digits_value_spec by done. intros H.
  destruct r as [|c r].
  - destruct (whole ds) eqn:Ew; [|done]. apply whole_spec in Ew; [|done]. rewrite app_nil in Es. injection H as <-.
    destruct (fits_long _) eqn:El; [apply (N_long _ ds); [done..|by apply fits_long_spec]|].
    apply (N_large _ ds); [done..|]. rewrite <- fits_long_spec. by rewrite El.
  - destruct (decide (String c r = "N")) as [E|E].
    + injection E as -> ->. destruct (whole ds) eqn:Ew; [|done]. apply whole_spec in Ew; [|done]. injection H as <-. by apply N_big.
    + apply Hf; [done|]. rewrite <- H. revert E. clear. destruct c as [[] [] [] [] [] [] [] []]; try done. by destruct r.
Qed.

(** * The other way *)
Definition number_chars : string → Prop := every (λ c, ends_number c = false).
Lemma digits_chars ds : digits ds → number_chars ds.
Proof.
  apply every_impl. intros c Hc. apply is_digit_spec in Hc. revert Hc. destruct c as [[] [] [] [] [] [] [] []]; done.
Qed.
Lemma chars_app a b : number_chars (a +:+ b) ↔ number_chars a ∧ number_chars b.
Proof. apply every_app. Qed.
Lemma signed_chars t u b : signed_text t u b → number_chars u → number_chars t.
Proof. intros [[[->| ->] _]|[-> _]] H; [done|by split..]. Qed.
Lemma whole_chars w : whole_text w → digits w ∧ number_chars w ∧ starts_digit w.
Proof.
  intros H. assert (Hd : digits w ∧ starts_digit w).
  { destruct H as [->|(Hd&c&w'&->&_)]; [repeat split; by vm_compute|]. split; [done|]. destruct Hd as [Hc _]. by apply is_digit_spec. }
  destruct Hd. split_and!; try done. by apply digits_chars.
Qed.
Lemma exponent_chars xt e : exponent_text xt e → number_chars xt.
Proof.
  intros [[-> _]|(m&sg&ds&->&Hm&Hd&_&H)]; [done|]. apply chars_app. split; [destruct Hm as [->| ->]; by split|]. apply chars_app. split; [|by apply digits_chars].
  destruct H as [[[->| ->] _]|[-> _]]; by split.
Qed.
Lemma float_chars u ds fs e : float_text u ds fs e → number_chars u ∧ starts_digit u.
Proof.
  intros (ft&xt&->&Hd&Hn&Hf&Hx). split.
  - apply chars_app. split; [by apply digits_chars|]. apply chars_app. split; [|by eapply exponent_chars].
    destruct Hf as [[-> _]|[-> ?]]; [done|]. split; [done|]. by apply digits_chars.
  - destruct ds as [|c ds]; [done|]. rewrite app_cons. destruct Hd as [Hc _]. by apply is_digit_spec.
Qed.
Lemma starts_app u r : starts_digit u → starts_digit (u +:+ r).
Proof. by destruct u. Qed.
Lemma number_shape t v : number t v → number_chars t ∧ ∃ u b, signed_text t u b ∧ starts_digit u.
Proof.
  intros [t' w b Hs Hw _|t' w b Hs Hw _|t' w b Hs Hw|t' u b ds fs e d Hs Hf _|t' u b ds fs e Hs Hf _].
  1-2: destruct (whole_chars w Hw) as (_&?&?); split; [by eapply signed_chars|by exists w, b].
  - destruct (whole_chars w Hw) as (_&?&?). split; [eapply signed_chars; [done|]; apply chars_app; split; [done|by split]|]. exists (w +:+ "N"), b. split; [done|by apply starts_app].
  - destruct (float_chars _ _ _ _ Hf). split; [eapply signed_chars; [done|]; apply chars_app; split; [done|by split]|]. exists (u +:+ "M"), b. split; [done|by apply starts_app].
  - destruct (float_chars _ _ _ _ Hf). split; [by eapply signed_chars|]. by exists u, b.
Qed.
Lemma exponent_head xt e r : exponent_text xt e → match r with String c _ => is_digit c = false ∧ c ≠ "."%char | _ => True end →
  match xt +:+ r with String c _ => is_digit c = false ∧ c ≠ "."%char | _ => True end.
Proof. intros [[-> _]|(m&sg&ds&->&[->| ->]&_)] H; done. Qed.
Lemma float_complete t b u ds fs e r :
  signed_text t (u +:+ r) b → float_text u ds fs e → (r = "M" ∨ r = "" ∧ ¬ digits u) →
  number_value t = Some (match r with "" => EDouble t | _ =>
    ENum (CDec (scaled (signed b (value_of (ds +:+ fs))) (String.length fs) e)) end).
Proof.
  intros Hs Hf Hr. pose proof (float_chars _ _ _ _ Hf) as [_ Hd0]. destruct Hf as (ft&xt&->&Hd&Hn&Hft&Hx).
  rewrite number_value_unfold, (sign_of_text _ _ _ Hs) by by apply starts_app.
  assert (Hdr : match r with String c _ => is_digit c = false ∧ c ≠ "."%char | _ => True end) by (destruct Hr as [->|[-> _]]; done).
  pose proof (exponent_head xt e r Hx Hdr) as Hxr.
  assert (Hfr : match ft +:+ xt +:+ r with String c _ => is_digit c = false | _ => True end).
  { destruct Hft as [[-> _]|[-> _]]; [|done]. rewrite nil_app. destruct (xt +:+ r); [done|]. apply Hxr. }
  rewrite !app_assoc, (take_digits_app ds) by done. cbv zeta.
  assert (Hdf : digits (ds +:+ fs)). { apply every_app. split; [done|]. destruct Hft as [[_ ->]|[_ ?]]; done. }
  assert (Hv : float_value t b ds (ft +:+ xt +:+ r) = Some (match r with "" => EDouble t | _ =>
    ENum (CDec (scaled (signed b (value_of (ds +:+ fs))) (String.length fs) e)) end)).
  { rewrite float_value_unfold, (fraction_of_app ft fs) by done.
    rewrite (exponent_text_app xt e) by (try done; destruct Hr as [->|[-> _]]; done). cbn [mbind option_bind fst snd].
    rewrite digits_value_spec by done. by destruct Hr as [->|[-> _]]. }
  assert (Hne : ft +:+ xt +:+ r ≠ "" ∧ ft +:+ xt +:+ r ≠ "N").
  { destruct Hft as [[-> _]|[-> _]]; [|by split]. rewrite !nil_app. destruct Hx as [[-> _]|(m&sg&ds'&->&[->| ->]&_)]; [|by split..].
    rewrite !nil_app. destruct Hr as [->|[-> Hr]]; [done|]. exfalso. apply Hr. by rewrite !app_nil. }
  rewrite <- Hv. destruct Hne as [H1 H2]. revert H1 H2. destruct (ft +:+ xt +:+ r) as [|c r']; [done|]. intros _ H2. revert H2. clear.
  destruct c as [[] [] [] [] [] [] [] []]; try done. by destruct r'.
Qed.
Lemma number_complete t v : number t v → number_value t = Some v.
Proof.
  intros [t' w b Hs Hw Hl|t' w b Hs Hw Hl|t' w b Hs Hw|t' u b ds fs e d Hs Hf Hd|t' u b ds fs e Hs Hf Hd].
  1-3: destruct (whole_chars w Hw) as (Hdw&_&Hsd); rewrite number_value_unfold.
  1-2: rewrite (sign_of_text _ _ _ Hs) by done; rewrite <- (app_nil w) at 1; rewrite take_digits_app by done; cbv zeta;
      rewrite (proj2 (whole_spec w Hdw) Hw), digits_value_spec by done; rewrite <- fits_long_spec in Hl.
  - by rewrite Hl.
  - apply not_true_iff_false in Hl. by rewrite Hl.
  - rewrite (sign_of_text _ _ _ Hs) by by apply starts_app. rewrite take_digits_app by done. cbv zeta.
    by rewrite (proj2 (whole_spec w Hdw) Hw), digits_value_spec.
  - rewrite (float_complete t' b u ds fs e "M") by auto. do 3 f_equal. by apply scaled_spec.
  - rewrite (float_complete t' b u ds fs e "") by (rewrite ?app_nil; auto). done.
Qed.
