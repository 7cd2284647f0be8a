(** Lemmas for [PluginProps.v]: the chain of plugins. *)
From Coq Require Import Ascii QArith.
From stdpp Require Import prelude gmap strings.
From Verif Require Import DecModel LedgerTypes IsoModel JsonModel WireModel CljModel InventoryModel ClientModel FormatModel PluginModel PluginSpec.
Local Open Scope nat_scope.

Lemma erroneous_truthy d : truthy (vget "err" d) = erroneous d.
Proof. unfold truthy, erroneous. destruct (vget "err" d) as [[| [] | | | | | | | |]|]; done. Qed.

Lemma vec_contains_kw l k : vec_contains l (VKw k) = false.
Proof. done. Qed.
Lemma provenance_tag_mark name booked d : provenance_tag name booked d = mark name booked d.
Proof.
  unfold provenance_tag, mark. destruct (vget "provenance" d) as [[]|]; try done; cbn [mbind option_bind];
    rewrite vec_contains_kw; destruct booked; cbn [andb negb]; try done; by rewrite <- app_assoc.
Qed.

Section Chain.
Context (code : nat → nat) (spec : cval → bool) (Hinj : ∀ i j, code i = code j → i = j).
Context (booked : bool).
Notation state := (list (list obj)).

Notation pts_t := (list (string * plugin_xf)).
Definition tail_stages (pts : pts_t) : list stage := p ← pts; [Plug p.2; Tagger (Some (p.1, booked))].

(** The abstract machine. *)
Notation astate := (list (list cval)).
Fixpoint afl (next : astate → cval → option (astate * list cval)) (hs : astate) (vs : list cval) : option (astate * list cval) :=
  match vs with
  | [] => Some (hs, [])
  | v :: vs' =>
      match next hs v with
      | None => None
      | Some (hs1, o1) => match afl next hs1 vs' with None => None | Some (hs2, o2) => Some (hs2, o1 ++ o2) end
      end
  end.
Fixpoint afeed (pts : pts_t) (hs : astate) (v : cval) : option (astate * list cval) :=
  match pts with
  | [] => Some (hs, [v])
  | p :: pts' =>
      let h := hd [] hs ++ [v] in
      match leaves spec p.1 booked h (px_step p.2 h) with
      | None => None
      | Some xs => match afl (afeed pts') (tail hs) xs with None => None | Some (hs1, out) => Some (h :: hs1, out) end
      end
  end.
Fixpoint afinish (pts : pts_t) (hs : astate) : option (list cval) :=
  match pts with
  | [] => Some []
  | p :: pts' =>
      let h := hd [] hs in
      match leaves spec p.1 booked h (px_done p.2 h) with
      | None => None
      | Some xs => match afl (afeed pts') (tail hs) xs with
                   | None => None
                   | Some (hs1, out) => match afinish pts' hs1 with None => None | Some out' => Some (out ++ out') end
                   end
      end
  end.

Lemma afl_app next hs a b :
  afl next hs (a ++ b) =
  match afl next hs a with
  | None => None
  | Some (hs1, o1) => match afl next hs1 b with None => None | Some (hs2, o2) => Some (hs2, o1 ++ o2) end
  end.
Proof.
  revert hs. induction a as [|v a IH]; intros hs; cbn [app afl].
  - by destruct (afl next hs b) as [[]|].
  - destruct (next hs v) as [[hs1 o1]|]; [|done]. rewrite IH.
    destruct (afl next hs1 a) as [[hs2 o2]|]; [|done].
    destruct (afl next hs2 b) as [[hs3 o3]|]; [|done]. by rewrite app_assoc.
Qed.

Lemma leaves_cons name h e es :
  leaves spec name booked h (Some (e :: es)) =
  match leaves spec name booked h (Some [e]), leaves spec name booked h (Some es) with
  | Some a, Some b => Some (a ++ b)
  | _, _ => None
  end.
Proof.
  unfold leaves. cbn [mapM].
  set (x := match e with Pass j => _ | Emit d => _ end). destruct x as [a|]; [|done]. cbn.
  destruct (mapM _ es) as [b|]; [|done]. cbn. by rewrite app_nil_r.
Qed.
Lemma leaves_pass name h j : leaves spec name booked h (Some [Pass j]) = Some (option_list (h !! j)).
Proof. unfold leaves. cbn. by rewrite app_nil_r. Qed.
Lemma leaves_emit name h d :
  leaves spec name booked h (Some [Emit d]) = (λ d', [d']) <$> made spec name booked d.
Proof. unfold leaves. cbn. by destruct (made spec name booked d). Qed.

(** Correspondence. *)
Definition ok (g : glob) (o : obj) : Prop :=
  o_id o < g_next g ∧ (erroneous (o_val o) = true ∨ code (o_id o) ∈ g_known g).
Definition oks (g : glob) (hs : state) : Prop := Forall (Forall (ok g)) hs.
Definition gok (g : glob) : Prop := ∀ c, c ∈ g_known g → ∃ i, i < g_next g ∧ c = code i.
Definition gstep (g g' : glob) : Prop :=
  g_next g ≤ g_next g' ∧ g_known g ⊆ g_known g' ∧
  ∀ c, c ∈ g_known g' → c ∈ g_known g ∨ ∃ i, g_next g ≤ i < g_next g' ∧ c = code i.
Lemma gstep_refl g : gstep g g.
Proof. repeat split; [lia|done|auto]. Qed.
Lemma gstep_trans a b c : gstep a b → gstep b c → gstep a c.
Proof.
  intros (H1 & H2 & H3) (K1 & K2 & K3). split; [lia|]. split; [set_solver|].
  intros x Hx. apply K3 in Hx as [Hx|(i & Hi & ->)].
  - apply H3 in Hx as [Hx|(i & Hi & ->)]; [by left|]. right. exists i. split; [lia|done].
  - right. exists i. split; [lia|done].
Qed.
Lemma gok_step g g' : gok g → gstep g g' → gok g'.
Proof.
  intros Hg (H1 & H2 & H3) c Hc. apply H3 in Hc as [Hc|(i & Hi & ->)].
  - destruct (Hg c Hc) as (i & Hi & ->). exists i. split; [lia|done].
  - exists i. split; [lia|done].
Qed.
Lemma ok_step g g' o : gstep g g' → ok g o → ok g' o.
Proof. intros (H1 & H2 & _) [Hi [He|Hk]]; (split; [lia|]); [by left|right; set_solver]. Qed.
Lemma oks_step g g' hs : gstep g g' → oks g hs → oks g' hs.
Proof.
  intros H Hhs. eapply Forall_impl; [exact Hhs|]. intros h Hh. eapply Forall_impl; [exact Hh|]. intros o. by apply ok_step.
Qed.
Lemma oks_hd g hs : oks g hs → Forall (ok g) (hd [] hs).
Proof. intros H. destruct hs; [constructor|]. by inversion H. Qed.
Lemma oks_tail g hs : oks g hs → oks g (tail hs).
Proof. intros H. destruct hs; [constructor|]. by inversion H. Qed.

Fixpoint shape (pts : pts_t) (hs : state) : astate :=
  match pts with
  | [] => []
  | _ :: pts' => (o_val <$> hd [] hs) :: shape pts' (tail (tail hs))
  end.

Definition agree (pts : pts_t) (g : glob) (r : option (state * glob * list obj)) (a : option (astate * list cval)) : Prop :=
  match r, a with
  | Some (hs, g', out), Some (ahs, aout) =>
      gstep g g' ∧ oks g' hs ∧ ahs = shape pts hs ∧ aout = o_val <$> out
  | None, None => True
  | _, _ => False
  end.

Definition feeds_well (pts : pts_t) : Prop := ∀ hs g o,
  gok g → oks g hs → ok g o →
  agree pts g (feed code spec (tail_stages pts) hs g o) (afeed pts (shape pts hs) (o_val o)).

(** A tagger lets an object which is known pass. *)
Lemma tag_step_ok t g o : ok g o → tag_step code spec t o g = Some (o, g).
Proof.
  intros [_ [He|Hk]]; unfold tag_step; rewrite erroneous_truthy.
  - by rewrite He.
  - destruct (erroneous _); [done|]. by rewrite bool_decide_eq_true_2.
Qed.
(** A new object is marked and becomes known. *)
Lemma tag_step_new name g d :
  gok g →
  match tag_step code spec (Some (name, booked)) (Obj (g_next g) d) (Glob (S (g_next g)) (g_known g)),
        made spec name booked d with
  | Some (o, g'), Some d' => o_val o = d' ∧ gstep g g' ∧ ok g' o
  | None, None => True
  | _, _ => False
  end.
Proof.
  intros Hg. unfold tag_step, made. rewrite erroneous_truthy. cbn [o_val o_id g_known].
  destruct (erroneous d) eqn:He.
  - split; [done|]. split.
    + split; [cbn; lia|]. split; [done|]. intros c Hc. by left.
    + split; [cbn; lia|]. by left.
  - rewrite bool_decide_eq_false_2.
    2:{ intros Hc. destruct (Hg _ Hc) as (i & Hi & Heq). apply Hinj in Heq. lia. }
    rewrite provenance_tag_mark. destruct (mark name booked d) as [d'|]; cbn [mbind option_bind fst snd o_val]; [|done].
    destruct (spec d'); [|done]. cbn [g_next g_known o_id]. split; [done|]. split.
    + split; [cbn; lia|]. split; [cbn; set_solver|]. cbn [g_known g_next]. intros c Hc.
      apply elem_of_union in Hc as [Hc|Hc]; [|by left]. apply elem_of_singleton in Hc as ->.
      right. exists (S (g_next g)). split; [lia|done].
    + split; [cbn; lia|]. right. cbn. set_solver.
Qed.

Lemma feed_tagger t sts hs g o :
  feed code spec (Tagger t :: sts) hs g o =
  match tag_step code spec t o g with
  | None => None
  | Some (o', g') => match feed code spec sts (tail hs) g' o' with
                     | None => None
                     | Some (hs1, g1, out) => Some (hd [] hs :: hs1, g1, out)
                     end
  end.
Proof. cbn [feed]. destruct (tag_step code spec t o g) as [[o' g']|]; [|done]. cbn. by destruct (feed _ _ _ _ _ _) as [[[]]|]. Qed.

(** What a plugin passes on goes through the rest. *)
Lemma emit_all_agree pts name t h es : feeds_well pts → t = Some (name, booked) → ∀ hs g,
  gok g → oks g hs → Forall (ok g) h →
  match emit_all (feed code spec (Tagger t :: tail_stages pts)) h es hs g,
        match leaves spec name booked (o_val <$> h) (Some es) with
        | None => None
        | Some xs => afl (afeed pts) (shape pts (tail hs)) xs
        end with
  | Some (hs', g', out), Some (ahs, aout) =>
      gstep g g' ∧ oks g' hs' ∧ ahs = shape pts (tail hs') ∧ aout = o_val <$> out
  | None, None => True
  | _, _ => False
  end.
Proof.
  intros IHp ->. induction es as [|e es IH]; intros hs g Hg Hhs Hh.
  { cbn. split; [apply gstep_refl|]. done. }
  rewrite leaves_cons. cbn [emit_all]. destruct e as [j|d]; cbn [emitted].
  - rewrite leaves_pass, list_lookup_fmap. destruct (h !! j) as [o|] eqn:Hj; cbn [fmap option_fmap option_map option_list].
    + assert (ok g o) as Ho by (by eapply Forall_lookup_1).
      change (option_list (Some (o_val o))) with [o_val o].
      rewrite feed_tagger, (tag_step_ok _ _ _ Ho).
      pose proof (IHp (tail hs) g o Hg (oks_tail _ _ Hhs) Ho) as Ha. unfold agree in Ha.
      destruct (feed _ _ (tail_stages pts) (tail hs) g o) as [[[hs1 g1] out1]|] eqn:Hf;
        destruct (afeed pts (shape pts (tail hs)) (o_val o)) as [[ahs1 aout1]|] eqn:Haf; try done; cbn [mbind option_bind].
      * destruct Ha as (Hs1 & Hok1 & -> & ->).
        assert (oks g1 (hd [] hs :: hs1)) as Hok1'.
        { constructor; [|done]. apply oks_hd. by eapply oks_step. }
        assert (Forall (ok g1) h) as Hh1. { eapply Forall_impl; [exact Hh|]. intros x. by apply ok_step. }
        pose proof (IH (hd [] hs :: hs1) g1 (gok_step _ _ Hg Hs1) Hok1' Hh1) as Hn.
        destruct (leaves spec name booked (o_val <$> h) (Some es)) as [xs|].
        -- cbn [app afl]. rewrite Haf. cbn [tail] in Hn.
           destruct (emit_all _ h es _ g1) as [[[hs2 g2] out2]|];
             destruct (afl (afeed pts) (shape pts hs1) xs) as [[ahs2 aout2]|]; try done.
           destruct Hn as (Hs2 & Hok2 & -> & ->). split; [by eapply gstep_trans|]. split; [done|]. split; [done|].
           by rewrite fmap_app.
        -- by destruct (emit_all _ h es _ g1) as [[[hs2 g2] out2]|].
      * destruct (leaves spec name booked (o_val <$> h) (Some es)) as [xs|]; [|done].
        cbn [app afl]. by rewrite Haf.
    + pose proof (IH hs g Hg Hhs Hh) as Hn.
      by destruct (leaves spec name booked (o_val <$> h) (Some es)).
  - rewrite leaves_emit, feed_tagger. pose proof (tag_step_new name g d Hg) as Ht.
    destruct (tag_step code spec _ _ _) as [[o' g']|];
      destruct (made spec name booked d) as [d'|]; cbn [mbind option_bind fmap option_fmap option_map] in *; try done.
    destruct Ht as (<- & Hs0 & Ho).
    pose proof (IHp (tail hs) g' o' (gok_step _ _ Hg Hs0) (oks_step _ _ _ Hs0 (oks_tail _ _ Hhs)) Ho) as Ha. unfold agree in Ha.
    destruct (feed _ _ (tail_stages pts) (tail hs) g' o') as [[[hs1 g1] out1]|] eqn:Hf;
      destruct (afeed pts (shape pts (tail hs)) (o_val o')) as [[ahs1 aout1]|] eqn:Haf; try done; cbn [mbind option_bind].
    + destruct Ha as (Hs1 & Hok1 & -> & ->).
      assert (gstep g g1) as Hs01 by (by eapply gstep_trans).
      assert (oks g1 (hd [] hs :: hs1)) as Hok1'.
      { constructor; [|done]. apply oks_hd. by eapply oks_step. }
      assert (Forall (ok g1) h) as Hh1. { eapply Forall_impl; [exact Hh|]. intros x. by apply ok_step. }
      pose proof (IH (hd [] hs :: hs1) g1 (gok_step _ _ Hg Hs01) Hok1' Hh1) as Hn.
      destruct (leaves spec name booked (o_val <$> h) (Some es)) as [xs|].
      * cbn [app afl]. rewrite Haf. cbn [tail] in Hn.
        destruct (emit_all _ h es _ g1) as [[[hs2 g2] out2]|];
          destruct (afl (afeed pts) (shape pts hs1) xs) as [[ahs2 aout2]|]; try done.
        destruct Hn as (Hs2 & Hok2 & -> & ->). split; [by eapply gstep_trans|]. split; [done|]. split; [done|].
        by rewrite fmap_app.
      * by destruct (emit_all _ h es _ g1) as [[[hs2 g2] out2]|].
    + destruct (leaves spec name booked (o_val <$> h) (Some es)) as [xs|]; [|done].
      cbn [app afl]. by rewrite Haf.
Qed.

Lemma tail_stages_cons p pts : tail_stages (p :: pts) = Plug p.2 :: Tagger (Some (p.1, booked)) :: tail_stages pts.
Proof. done. Qed.
Lemma feed_plug p sts hs g o :
  feed code spec (Plug p :: sts) hs g o =
  match px_step p (o_val <$> (hd [] hs ++ [o])) with
  | None => None
  | Some es => match emit_all (feed code spec sts) (hd [] hs ++ [o]) es (tail hs) g with
               | None => None
               | Some (hs1, g1, out) => Some ((hd [] hs ++ [o]) :: hs1, g1, out)
               end
  end.
Proof. cbn [feed]. destruct (px_step _ _) as [es|]; [|done]. cbn. by destruct (emit_all _ _ _ _ _) as [[[]]|]. Qed.

Lemma all_feed_well pts : feeds_well pts.
Proof.
  induction pts as [|p pts IH]; intros hs g o Hg Hhs Ho.
  { cbn. split; [apply gstep_refl|]. done. }
  rewrite tail_stages_cons, feed_plug. cbn [afeed shape hd tail]. rewrite fmap_app. cbn [fmap list_fmap].
  set (ah := (o_val <$> hd [] hs) ++ [o_val o]).
  assert (Forall (ok g) (hd [] hs ++ [o])) as Hh. { apply Forall_app. split; [by apply oks_hd|by constructor]. }
  destruct (px_step p.2 ah) as [es|]; [|done].
  pose proof (emit_all_agree pts p.1 (Some (p.1, booked)) (hd [] hs ++ [o]) es IH eq_refl (tail hs) g Hg (oks_tail _ _ Hhs) Hh) as Ha.
  rewrite fmap_app in Ha. cbn [fmap list_fmap] in Ha. fold ah in Ha.
  destruct (emit_all _ _ es (tail hs) g) as [[[hs1 g1] out]|];
    destruct (leaves spec p.1 booked ah (Some es)) as [xs|]; try done;
    destruct (afl (afeed pts) (shape pts (tail (tail hs))) xs) as [[ahs aout]|]; try done.
  destruct Ha as (Hs & Hok & -> & ->). split; [done|]. split.
  { constructor; [|done]. eapply Forall_impl; [exact Hh|]. intros x. by apply ok_step. }
  split; [|done]. cbn [shape hd tail]. by rewrite fmap_app.
Qed.

Lemma finish_agree pts : ∀ hs g, gok g → oks g hs →
  finish code spec (tail_stages pts) hs g = None ∧ afinish pts (shape pts hs) = None ∨
  ∃ out, finish code spec (tail_stages pts) hs g = Some out ∧ afinish pts (shape pts hs) = Some (o_val <$> out).
Proof.
  induction pts as [|p pts IH]; intros hs g Hg Hhs.
  { right. exists []. done. }
  rewrite tail_stages_cons. cbn [finish afinish shape hd tail].
  destruct (px_done p.2 (o_val <$> hd [] hs)) as [es|]; cbn [mbind option_bind]; [|by left].
  pose proof (emit_all_agree pts p.1 (Some (p.1, booked)) (hd [] hs) es (all_feed_well pts) eq_refl (tail hs) g Hg (oks_tail _ _ Hhs) (oks_hd _ _ Hhs)) as Ha.
  destruct (emit_all _ _ es (tail hs) g) as [[[hs1 g1] out]|];
    destruct (leaves spec p.1 booked (o_val <$> hd [] hs) (Some es)) as [xs|]; try done; try (by left);
    destruct (afl (afeed pts) (shape pts (tail (tail hs))) xs) as [[ahs aout]|]; try done; try (by left).
  destruct Ha as (Hs & Hok & -> & ->). cbn [mbind option_bind finish].
  destruct (IH (tail hs1) g1 (gok_step _ _ Hg Hs) (oks_tail _ _ Hok)) as [[H1 H2]|(out' & H1 & H2)].
  - left. rewrite H1, H2. done.
  - right. rewrite H1, H2. cbn. exists (out ++ out'). by rewrite fmap_app.
Qed.

(** The abstract machine, one directive at a time through all plugins, does the same
    as one plugin at a time for all directives. *)
Fixpoint steps (p : string * plugin_xf) (h : list cval) (vs : list cval) : option (list cval) :=
  match vs with
  | [] => Some []
  | v :: vs' =>
      match leaves spec p.1 booked (h ++ [v]) (px_step p.2 (h ++ [v])), steps p (h ++ [v]) vs' with
      | Some a, Some b => Some (a ++ b)
      | _, _ => None
      end
  end.
Lemma afl_staged p pts vs : ∀ h hs,
  afl (afeed (p :: pts)) (h :: hs) vs =
  match steps p h vs with
  | None => None
  | Some xs => match afl (afeed pts) hs xs with None => None | Some (hs', out) => Some ((h ++ vs) :: hs', out) end
  end.
Proof.
  induction vs as [|v vs IH]; intros h hs; cbn [afl steps].
  { by rewrite app_nil_r. }
  cbn [afeed hd tail].
  destruct (leaves spec p.1 booked (h ++ [v]) (px_step p.2 (h ++ [v]))) as [a|]; [|done].
  destruct (afl (afeed pts) hs a) as [[hs1 o1]|] eqn:Ha.
  - rewrite IH. destruct (steps p (h ++ [v]) vs) as [b|]; [|done].
    rewrite afl_app, Ha. destruct (afl (afeed pts) hs1 b) as [[hs2 o2]|]; [|done].
    by rewrite <- app_assoc.
  - destruct (steps p (h ++ [v]) vs) as [b|]; [|done]. by rewrite afl_app, Ha.
Qed.

Lemma steps_beginnings p vs : ∀ h,
  steps p h vs =
  mjoin <$> mapM (λ b, leaves spec p.1 booked b (px_step p.2 b)) ((λ n, h ++ take (S n) vs) <$> seq 0 (length vs)).
Proof.
  induction vs as [|v vs IH]; intros h; [done|].
  cbn [steps length seq]. rewrite fmap_cons. cbn [mapM]. cbn [take]. change (take 0 vs) with (@nil cval).
  destruct (leaves spec p.1 booked (h ++ [v]) (px_step p.2 (h ++ [v]))) as [a|]; [|done]. cbn [mbind option_bind].
  rewrite IH. rewrite <- seq_shift.
  assert (((λ n : nat, h ++ v :: take n vs) <$> (S <$> seq 0 (length vs))) =
          ((λ n : nat, (h ++ [v]) ++ take (S n) vs) <$> seq 0 (length vs))) as Heq.
  { rewrite <- list_fmap_compose. apply list_fmap_ext. intros i n _. cbn [compose]. by rewrite <- app_assoc. }
  change (map S (seq 0 (length vs))) with (S <$> seq 0 (length vs)). rewrite Heq.
  destruct (mapM _ _) as [bs|]; [|done]. done.
Qed.
Lemma steps_through p ds :
  match steps p [] ds, leaves spec p.1 booked ds (px_done p.2 ds) with
  | Some a, Some b => Some (a ++ b)
  | _, _ => None
  end = through spec booked p ds.
Proof.
  unfold through. rewrite steps_beginnings. cbn [app]. fold (beginnings ds).
  by destruct (mapM _ (beginnings ds)).
Qed.

Definition whole (pts : pts_t) (hs : astate) (vs : list cval) : option (list cval) :=
  match afl (afeed pts) hs vs with
  | None => None
  | Some (hs', out) => match afinish pts hs' with None => None | Some out' => Some (out ++ out') end
  end.
Fixpoint empty_shape (pts : pts_t) : astate := match pts with [] => [] | _ :: pts' => [] :: empty_shape pts' end.
Lemma afl_nil vs : ∀ hs, afl (afeed []) hs vs = Some (hs, vs).
Proof. induction vs as [|v vs IH]; intros hs; [done|]. cbn [afl afeed]. by rewrite IH. Qed.
Lemma whole_chain pts : ∀ vs, whole pts (empty_shape pts) vs = chain spec booked pts vs.
Proof.
  induction pts as [|p pts IH]; intros vs; unfold whole.
  { rewrite afl_nil. cbn. by rewrite app_nil_r. }
  cbn [empty_shape chain]. rewrite afl_staged, <- steps_through.
  destruct (steps p [] vs) as [xs|]; [|done]. cbn [app].
  destruct (leaves spec p.1 booked vs (px_done p.2 vs)) as [ys|] eqn:Hd.
  - rewrite <- IH. unfold whole. rewrite afl_app.
    destruct (afl (afeed pts) (empty_shape pts) xs) as [[hs1 o1]|]; [|done].
    cbn [afinish hd tail]. rewrite Hd.
    destruct (afl (afeed pts) hs1 ys) as [[hs2 o2]|]; [|done].
    destruct (afinish pts hs2) as [o3|]; [|done]. by rewrite app_assoc.
  - destruct (afl (afeed pts) (empty_shape pts) xs) as [[hs1 o1]|]; [|done].
    cbn [afinish hd tail]. by rewrite Hd.
Qed.

(** The inputs. *)
Definition okin (ds : list cval) : option (list cval) := if acceptable spec ds then Some ds else None.
Lemma shape_replicate pts n : n = 2 * length pts → shape pts (replicate n []) = empty_shape pts.
Proof.
  revert n. induction pts as [|p pts IH]; intros n ->; [done|].
  cbn [shape empty_shape length]. replace (2 * S (length pts)) with (S (S (2 * length pts))) by lia.
  cbn [replicate hd tail]. by rewrite IH.
Qed.
Lemma tail_stages_length pts : length (tail_stages pts) = 2 * length pts.
Proof. induction pts as [|p pts IH]; [done|]. rewrite tail_stages_cons. cbn [length]. rewrite IH. lia. Qed.

Lemma tag_first g o :
  code (o_id o) ∉ g_known g →
  tag_step code spec None o g =
  if erroneous (o_val o) then Some (o, g)
  else if spec (o_val o) then Some (o, Glob (g_next g) ({[code (o_id o)]} ∪ g_known g)) else None.
Proof.
  intros Hn. unfold tag_step. rewrite erroneous_truthy. destruct (erroneous (o_val o)); [done|].
  by rewrite bool_decide_eq_false_2.
Qed.

(** Input number [i] is fed when the codes known are of earlier inputs and of objects
    made on the way. *)
Definition inv (n i : nat) (g : glob) : Prop :=
  n ≤ g_next g ∧ ∀ c, c ∈ g_known g → ∃ j, (j < i ∨ n ≤ j) ∧ j < g_next g ∧ c = code j.
Lemma inv_gok n i g : inv n i g → gok g.
Proof. intros [_ H] c Hc. destruct (H c Hc) as (j & _ & Hj & ->). by exists j. Qed.

Lemma feed_list_agree pts n ds : ∀ hs g i,
  i + length ds = n → inv n i g → oks g hs →
  match feed_list code spec (Tagger None :: tail_stages pts) hs g (imap (λ k d, Obj (i + k) d) ds),
        (if acceptable spec ds then afl (afeed pts) (shape pts (tail hs)) ds else None) with
  | Some (hs', g', out), Some (ahs, aout) =>
      gok g' ∧ oks g' hs' ∧ ahs = shape pts (tail hs') ∧ aout = o_val <$> out
  | None, None => True
  | _, _ => False
  end.
Proof.
  induction ds as [|d ds IH]; intros hs g i Hn Hinv Hhs.
  { cbn. split; [by eapply inv_gok|]. done. }
  cbn [imap feed_list length] in *. rewrite Nat.add_0_r. rewrite feed_tagger.
  assert (code i ∉ g_known g) as Hfresh.
  { intros Hc. destruct Hinv as [_ Hk]. destruct (Hk _ Hc) as (j & Hj & _ & Heq). apply Hinj in Heq. lia. }
  rewrite tag_first by done. cbn [o_val o_id].
  assert (acceptable spec (d :: ds) = (erroneous d || spec d) && acceptable spec ds) as -> by done.
  destruct (erroneous d || spec d) eqn:Hacc; cbn [andb].
  2:{ apply orb_false_iff in Hacc as [-> ->]. by destruct (acceptable spec ds). }
  assert (∃ g0, (if erroneous d then Some (Obj i d, g) else if spec d then Some (Obj i d, Glob (g_next g) ({[code i]} ∪ g_known g)) else None) = Some (Obj i d, g0)
     ∧ g_next g0 = g_next g ∧ g_known g ⊆ g_known g0 ∧ inv n (S i) g0 ∧ ok g0 (Obj i d)) as (g0 & -> & Hnx & Hsub & Hinv0 & Hok0).
  { destruct Hinv as [Hle Hk]. destruct (erroneous d) eqn:He.
    - exists g. split; [done|]. split; [done|]. split; [done|]. split.
      + split; [done|]. intros c Hc. destruct (Hk c Hc) as (j & Hj & Hj' & ->). exists j. split; [lia|done].
      + split; [cbn; lia|]. by left.
    - cbn in Hacc. rewrite Hacc. eexists. split; [done|]. cbn [g_next g_known]. split; [done|]. split; [set_solver|]. split.
      + split; [done|]. cbn [g_known g_next]. intros c Hc. apply elem_of_union in Hc as [Hc|Hc].
        * apply elem_of_singleton in Hc as ->. exists i. split; [lia|]. split; [lia|done].
        * destruct (Hk c Hc) as (j & Hj & Hj' & ->). exists j. split; [lia|done].
      + split; [cbn; lia|]. right. cbn. set_solver. }
  assert (oks g0 hs) as Hhs0.
  { eapply Forall_impl; [exact Hhs|]. intros h Hh. eapply Forall_impl; [exact Hh|]. intros o [Ho1 Ho2].
    split; [lia|]. destruct Ho2; [by left|right; set_solver]. }
  pose proof (all_feed_well pts (tail hs) g0 (Obj i d) (inv_gok _ _ _ Hinv0) (oks_tail _ _ Hhs0) Hok0) as Ha.
  unfold agree in Ha. cbn [o_val] in Ha.
  destruct (feed code spec (tail_stages pts) (tail hs) g0 (Obj i d)) as [[[hs1 g1] out1]|];
    destruct (afeed pts (shape pts (tail hs)) d) as [[ahs1 aout1]|] eqn:Haf; try done; cbn [mbind option_bind].
  2:{ destruct (acceptable spec ds); [|done]. cbn [afl]. by rewrite Haf. }
  destruct Ha as (Hs1 & Hok1 & -> & ->).
  assert (inv n (S i) g1) as Hinv1.
  { destruct Hinv0 as [Hle Hk]. destruct Hs1 as (Hnx1 & _ & Hk1). split; [lia|]. intros c Hc.
    apply Hk1 in Hc as [Hc|(j & Hj & ->)].
    - destruct (Hk c Hc) as (j & Hj & Hj' & ->). exists j. split; [done|]. split; [lia|done].
    - exists j. split; [lia|]. split; [lia|done]. }
  assert (oks g1 (hd [] hs :: hs1)) as Hok1'.
  { constructor; [|done]. apply oks_hd. by eapply oks_step. }
  pose proof (IH (hd [] hs :: hs1) g1 (S i) ltac:(lia) Hinv1 Hok1') as Hrec. cbn [tail] in Hrec.
  assert (imap ((λ (k : nat) (d0 : cval), Obj (i + k) d0) ∘ S) ds = imap (λ (k : nat) (d0 : cval), Obj (S i + k) d0) ds) as ->.
  { apply imap_ext. intros k x _. cbn. f_equal. lia. }
  destruct (acceptable spec ds).
  - cbn [afl]. rewrite Haf. destruct (feed_list _ _ _ _ g1 _) as [[[hs2 g2] out2]|];
      destruct (afl (afeed pts) (shape pts hs1) ds) as [[ahs2 aout2]|]; try done. cbn [mbind option_bind].
    destruct Hrec as (Hg2 & Hok2 & -> & ->). split; [done|]. split; [done|]. split; [done|]. by rewrite fmap_app.
  - by destruct (feed_list _ _ _ _ g1 _) as [[[hs2 g2] out2]|].
Qed.

Lemma stages_of_tail ps : stages_of ps booked = Tagger None :: tail_stages (of_phase booked ps).
Proof.
  unfold stages_of. f_equal. unfold select, of_phase. induction ps as [|p ps IH]; [done|]. rewrite bind_cons, IH.
  cbn [omap list_omap]. destruct (if booked then pl_booked p else pl_raw p) as [xf|]; done.
Qed.

Theorem run_plugins_chain ps ds :
  run_plugins code spec ps booked ds = if acceptable spec ds then chain spec booked (of_phase booked ps) ds else None.
Proof.
  unfold run_plugins. rewrite stages_of_tail. set (pts := of_phase booked ps).
  cbn [length]. rewrite tail_stages_length. cbn [replicate].
  assert (oks (Glob (length ds) ∅) ([] :: replicate (2 * length pts) [])) as Hok.
  { constructor; [done|]. apply Forall_replicate. done. }
  assert (inv (length ds) 0 (Glob (length ds) ∅)) as Hinv. { split; [done|]. cbn. set_solver. }
  pose proof (feed_list_agree pts (length ds) ds _ _ 0 eq_refl Hinv Hok) as Ha.
  cbn [tail] in Ha. rewrite shape_replicate in Ha by done.
  change (imap (λ (k : nat) (d : cval), Obj (0 + k) d) ds) with (objects ds) in Ha.
  destruct (feed_list _ _ _ _ _ (objects ds)) as [[[hs g] out]|]; cbn [mbind option_bind].
  - destruct (acceptable spec ds); [|done].
    rewrite <- whole_chain. unfold whole.
    destruct (afl (afeed pts) (empty_shape pts) ds) as [[ahs aout]|]; [|done].
    destruct Ha as (Hg & Hoks & -> & ->). cbn [finish].
    destruct (finish_agree pts (tail hs) g Hg (oks_tail _ _ Hoks)) as [[-> ->]|(o' & -> & ->)]; [done|].
    cbn [mbind option_bind]. by rewrite fmap_app.
  - destruct (acceptable spec ds); [|done].
    rewrite <- whole_chain. unfold whole.
    by destruct (afl (afeed pts) (empty_shape pts) ds) as [[ahs aout]|].
Qed.
End Chain.
