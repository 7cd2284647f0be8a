(** A small booking library satisfying [lib_ok].  It shows that the premises made
    about the third-party library can be met, and runs the concrete ledgers used
    as examples and counterexamples.  It is not a model of [limabean_booking]:
    it interpolates nothing, and splits a posting at cost into two lots. *)
From Coq Require Import Ascii QArith.
From stdpp Require Import prelude gmap strings.
From Verif Require Import DecModel DecProofs LedgerTypes BookModel BookSpec BookLib BookUnits.
Local Open Scope nat_scope.

Notation holding := (gmap string dec).

Definition sample_add (p : holding) (u : dec) (c : string) : holding :=
  <[c := dec_add (default dec_zero (p !! c)) u]> p.

Definition sample_lots (dt : date) (u : dec) (cs : cost_spec) : list (string * posting_cost) :=
  let lot v := (default "USD" (cs_cur cs),
                PostingCost (default dt (cs_date cs)) v (default dec_zero (cs_per_unit cs))
                  (dec_mul v (default dec_zero (cs_per_unit cs))) (cs_label cs) (cs_merge cs)) in
  [lot (dec_sub u (Dec 1 0)); lot (Dec 1 0)].

Fixpoint sample_postings (dt : date) (i : nat) (l : list posting_spec) : nat + list interpolated :=
  match l with
  | [] => inr []
  | ps :: l' =>
      match ps_units ps, ps_cur ps with
      | Some u, Some c =>
          match sample_postings dt (S i) l' with
          | inr r => inr (Interpolated u c (sample_lots dt u <$> ps_cost ps) None :: r)
          | inl e => inl e
          end
      | _, _ => inl i
      end
  end.

Fixpoint sample_apply (n : string) (l : list (interpolated * posting_spec)) (p : holding) : holding :=
  match l with
  | [] => p
  | (ip, ps) :: l' =>
      sample_apply n l' (if String.eqb (ps_acc ps) n then sample_add p (in_units ip) (in_currency ip) else p)
  end.

Definition sample_book (dt : date) (l : list posting_spec) (inv : string → option holding)
    (_ : string → lbooking) : lib_result holding :=
  match l with
  | [] => LibErrTransaction "empty transaction"
  | _ =>
      match sample_postings dt 0 l with
      | inl i => LibErrPosting i "cannot infer"
      | inr ips =>
          LibOk ips ((λ n, (n, sample_apply n (zip ips l) (default ∅ (inv n))))
                       <$> remove_dups (ps_acc <$> l))
      end
  end.

Definition sample_lib : booking_lib holding := BookingLib holding
  ∅ (λ p, p) sample_add sample_book
  (λ b, match b with LAverage => false | _ => true end) LStrict None
  (λ b, match b with LAverage => "average" | _ => "strict" end).

(** Iteration orders for the examples: by key, and its reverse. *)
Definition sample_ord (m : gmap string (account holding)) := map_to_list m.
Definition reverse_ord (m : gmap string (account holding)) := reverse (map_to_list m).

Lemma sample_ord_perm m : sample_ord m ≡ₚ map_to_list m.
Proof. done. Qed.
Lemma reverse_ord_perm m : reverse_ord m ≡ₚ map_to_list m.
Proof. apply reverse_Permutation. Qed.

Lemma sample_add_held p u c cur :
  (held sample_lib (sample_add p u c) cur ==
   held sample_lib p cur + (if String.eqb c cur then dec_value u else 0))%Q.
Proof.
  unfold held, sample_add. cbn [lib_units sample_lib]. destruct (String.eqb_spec c cur) as [->|Hne].
  - rewrite lookup_insert. cbn. apply dec_add_value.
  - rewrite lookup_insert_ne by done. ring.
Qed.

Lemma sample_postings_length dt i l r : sample_postings dt i l = inr r → length r = length l.
Proof.
  revert i r. induction l as [|ps l IH]; intros i r; cbn; [by intros [= <-]|].
  destruct (ps_units ps), (ps_cur ps); try done.
  destruct (sample_postings dt (S i) l) as [e|r'] eqn:E; [done|]. intros [= <-]. cbn. f_equal. eauto.
Qed.

Lemma sample_postings_lots dt i l r ip costs :
  sample_postings dt i l = inr r → ip ∈ r → in_cost ip = Some costs →
  (Qsum ((λ c, dec_value (pc_units c.2)) <$> costs) == dec_value (in_units ip))%Q.
Proof.
  revert i r. induction l as [|ps l IH]; intros i r; cbn; [intros [= <-] ?%elem_of_nil; done|].
  destruct (ps_units ps) as [u|], (ps_cur ps) as [c|]; try done.
  destruct (sample_postings dt (S i) l) as [e|r'] eqn:E; [done|]. intros [= <-].
  intros [->|Hin]%elem_of_cons Hc; [|by eapply IH].
  cbn in Hc. destruct (ps_cost ps) as [cs|]; [|done]. cbn in Hc. injection Hc as <-.
  cbn -[dec_value dec_sub]. rewrite dec_sub_value. ring.
Qed.

Lemma sample_apply_held n l p cur :
  (held sample_lib (sample_apply n l p) cur ==
   held sample_lib p cur + interpolated_units n cur l)%Q.
Proof.
  revert p. induction l as [|[ip ps] l IH]; intros p.
  - unfold interpolated_units. cbn. ring.
  - change (sample_apply n ((ip, ps) :: l) p) with
      (sample_apply n l (if String.eqb (ps_acc ps) n then sample_add p (in_units ip) (in_currency ip) else p)).
    rewrite IH. unfold interpolated_units. rewrite fmap_cons, Qsum_cons. cbn [fst snd].
    destruct (String.eqb (ps_acc ps) n); [|cbn [andb]; ring].
    rewrite sample_add_held. cbn [andb]. ring.
Qed.

Lemma interpolated_units_absent n cur l :
  n ∉ (λ x, ps_acc x.2) <$> l → (interpolated_units n cur l == 0)%Q.
Proof.
  intros Hn. unfold interpolated_units. apply Qsum_zero. intros x Hx.
  destruct (String.eqb_spec (ps_acc x.2) n) as [<-|]; [|done].
  exfalso. apply Hn. apply elem_of_list_fmap. eauto.
Qed.

Lemma sample_book_inv dt ps inv bk ips upd :
  sample_book dt ps inv bk = LibOk ips upd →
  sample_postings dt 0 ps = inr ips ∧
  upd = (λ n, (n, sample_apply n (zip ips ps) (default ∅ (inv n)))) <$> remove_dups (ps_acc <$> ps).
Proof.
  unfold sample_book. destruct ps as [|p l]; [done|]. 
  destruct (sample_postings dt 0 (p :: l)) as [e|r]; [done|]. by intros [= <- <-].
Qed.

Theorem sample_lib_ok : lib_ok sample_lib.
Proof.
  split.
  - intros cur. done.
  - intros p u c cur. apply sample_add_held.
  - intros dt ps inv bk ips upd [H _]%sample_book_inv. by eapply sample_postings_length.
  - intros dt ps inv bk ips upd [_ ->]%sample_book_inv.
    rewrite <- list_fmap_compose. unfold compose. cbn.
    rewrite list_fmap_id. split; [apply NoDup_remove_dups|].
    intros n. by rewrite elem_of_remove_dups.
  - intros dt ps inv bk ips upd ip costs [H _]%sample_book_inv. by eapply sample_postings_lots.
  - intros dt ps inv bk ips upd n p cur [H ->]%sample_book_inv Hn.
    pose proof (sample_postings_length _ _ _ _ H) as Hlen.
    destruct (decide (n ∈ ps_acc <$> ps)) as [Hin|Hin].
    + assert ((list_to_map ((λ n, (n, sample_apply n (zip ips ps) (default ∅ (inv n)))) <$>
         remove_dups (ps_acc <$> ps)) : gmap string holding) !! n =
         Some (sample_apply n (zip ips ps) p)) as ->.
      { apply elem_of_list_to_map_1.
        - rewrite <- list_fmap_compose. unfold compose. cbn. rewrite list_fmap_id. apply NoDup_remove_dups.
        - apply elem_of_list_fmap. exists n. rewrite Hn. cbn. split; [done|]. by apply elem_of_remove_dups. }
      apply sample_apply_held.
    + rewrite not_elem_of_list_to_map_1.
      * rewrite interpolated_units_absent; [ring|]. intros (x & -> & Hx)%elem_of_list_fmap.
        destruct x as [ip ps']. apply elem_of_zip_r in Hx. apply Hin, elem_of_list_fmap. eauto.
      * rewrite <- list_fmap_compose. unfold compose. cbn. rewrite list_fmap_id. by rewrite elem_of_remove_dups.
Qed.

Theorem sample_lib_ext : lib_ext sample_lib.
Proof.
  intros dt ps inv inv' bk bk' Hi _. unfold lib_book, sample_lib, sample_book.
  destruct ps as [|p l]; [done|]. destruct (sample_postings dt 0 (p :: l)); [done|]. f_equal.
  apply list_fmap_ext. intros _ n _. by rewrite Hi.
Qed.
