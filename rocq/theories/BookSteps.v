(** Relational reading of one step of the booking loop, and facts about the loop. *)
From Coq Require Import Ascii QArith.
From stdpp Require Import prelude gmap strings pretty.
From Verif Require Import DecModel LedgerTypes BookModel.
Local Open Scope nat_scope.

Section Steps.
Context {P : Type} (L : booking_lib P).
Context (ord : gmap string (account P) → list (string * account P)).

Definition run (opt : option booking) (ds : list directive) : cres :=
  collect_loop L ord 0 ds (CSt (acc_new (default_booking_option L opt)) [] []).

Lemma collect_loop_app i ds1 ds2 c :
  collect_loop L ord i (ds1 ++ ds2) c =
  match collect_loop L ord i ds1 c with
  | CRun c' => collect_loop L ord (i + length ds1) ds2 c'
  | CPanic w => CPanic w
  end.
Proof.
  revert i c. induction ds1 as [|d ds1 IH]; intros i c; cbn.
  - by rewrite Nat.add_0_r.
  - destruct (collect_step L ord i d c); [|done]. rewrite IH.
    by replace (S i + length ds1) with (i + S (length ds1)) by lia.
Qed.

Lemma run_snoc opt ds d :
  run opt (ds ++ [d]) =
  match run opt ds with
  | CRun c => collect_step L ord (length ds) d c
  | CPanic w => CPanic w
  end.
Proof.
  unfold run. rewrite collect_loop_app. cbn.
  destruct (collect_loop _ _ _ _ _); [|done].
  by destruct (collect_step _ _ _ _ _).
Qed.

Lemma run_app_inv opt ds1 ds2 c :
  run opt (ds1 ++ ds2) = CRun c → ∃ c1, run opt ds1 = CRun c1 ∧
    collect_loop L ord (length ds1) ds2 c1 = CRun c.
Proof.
  unfold run. rewrite collect_loop_app. cbn.
  destruct (collect_loop _ _ 0 ds1 _); [|done]. eauto.
Qed.

(** Induction over runs. *)
Lemma run_ind opt (Inv : list directive → cst → Prop) :
  Inv [] (CSt (acc_new (default_booking_option L opt)) [] []) →
  (∀ ds d c c', run opt ds = CRun c → Inv ds c →
     collect_step L ord (length ds) d c = CRun c' → Inv (ds ++ [d]) c') →
  ∀ ds c, run opt ds = CRun c → Inv ds c.
Proof.
  intros H0 HS ds. induction ds as [|d ds IH] using rev_ind; intros c Hrun.
  - unfold run in Hrun. cbn in Hrun. by injection Hrun as <-.
  - rewrite run_snoc in Hrun. destruct (run opt ds) as [c0|w] eqn:E; [|done]. eauto.
Qed.

(** Directives which booking copies without looking at them. *)
Definition passive_copy (v : directive_variant) : option bvariant :=
  match v with
  | DPrice p => Some (BVPrice p)
  | DCommodity c => Some (BVCommodity c)
  | DDocument a p => Some (BVDocument a p)
  | DNote a c => Some (BVNote a c)
  | DEvent t x => Some (BVEvent t x)
  | DQuery n c => Some (BVQuery n c)
  | DCustom c => Some (BVCustom c)
  | _ => None
  end.

Definition next_window (a : account P) (n : nat) : nat * nat :=
  match a_window a with Some (_, e) => (e, n) | None => (0, n) end.

Definition bal_margin (s : accst P) (b : balance) : option dec :=
  calculate_balance_margin (bal_units b) (effective_tolerance L b)
    (total_rollup_units_for_currency L ord s (bal_acc b) (bal_cur b)).

Inductive step_rel (i : nat) (d : directive) (c : cst) : @cst P → Prop :=
| StPassive v :
    passive_copy (d_variant d) = Some v →
    step_rel i d c (CSt (c_acc c) (c_errors c) (c_booked c ++ [booked_of i d v]))
| StTxnOk t s' l :
    d_variant d = DTransaction t →
    book_txn L (c_acc c) (d_date d) (tx_postings t) (eidx_of_nat i) = (s', ROk l) →
    step_rel i d c (CSt s' (c_errors c)
      (c_booked c ++ [booked_of i d (BVTransaction
          (BTransaction (tx_flag t) (tx_payee t) (tx_narration t) l))]))
| StTxnErr t s' err :
    d_variant d = DTransaction t →
    book_txn L (c_acc c) (d_date d) (tx_postings t) (eidx_of_nat i) = (s', RErr err) →
    step_rel i d c (CSt s' (c_errors c ++ [err]) (c_booked c))
| StOpenDup o j :
    d_variant d = DOpen o → s_open (c_acc c) !! op_acc o = Some j →
    step_rel i d c (CSt (c_acc c)
      (c_errors c ++ [related_to (mk_report (eidx_of_nat i) "account already opened") j])
      (c_booked c))
| StOpenClosed o j :
    d_variant d = DOpen o → s_open (c_acc c) !! op_acc o = None →
    s_closed (c_acc c) !! op_acc o = Some j →
    step_rel i d c (CSt (set_open (c_acc c) (<[op_acc o := eidx_of_nat i]> (s_open (c_acc c))))
      (c_errors c ++ [related_to (mk_report (eidx_of_nat i) "account was closed") j])
      (c_booked c))
| StOpenOk o s' bk ws :
    d_variant d = DOpen o → s_open (c_acc c) !! op_acc o = None →
    s_closed (c_acc c) !! op_acc o = None →
    bk = (let b := match op_booking o with
                   | Some b => booking_into b
                   | None => s_default_booking (c_acc c)
                   end in
          if lib_supported L b then b else lib_default_booking L) →
    s' = AccSt (<[op_acc o := eidx_of_nat i]> (s_open (c_acc c))) (s_closed (c_acc c))
           (<[op_acc o := account_new L (match op_currencies o with Some cs => cs | None => ∅ end)
                            bk (eidx_of_nat i)]> (s_accounts (c_acc c)))
           (s_default_booking (c_acc c)) (s_warnings (c_acc c) ++ ws) →
    step_rel i d c (CSt s' (c_errors c) (c_booked c ++ [booked_of i d (BVOpen o)]))
| StCloseOk a j :
    d_variant d = DClose a → s_open (c_acc c) !! a = Some j → s_closed (c_acc c) !! a = None →
    step_rel i d c (CSt
      (AccSt (delete a (s_open (c_acc c))) (<[a := eidx_of_nat i]> (s_closed (c_acc c)))
         (s_accounts (c_acc c)) (s_default_booking (c_acc c)) (s_warnings (c_acc c)))
      (c_errors c) (c_booked c ++ [booked_of i d (BVClose a)]))
| StCloseClosed a j k :
    d_variant d = DClose a → s_open (c_acc c) !! a = Some j → s_closed (c_acc c) !! a = Some k →
    step_rel i d c (CSt (c_acc c)
      (c_errors c ++ [related_to (mk_report (eidx_of_nat i) "account was already closed") k])
      (c_booked c))
| StCloseNotOpen a :
    d_variant d = DClose a → s_open (c_acc c) !! a = None →
    step_rel i d c (CSt (c_acc c)
      (c_errors c ++ [mk_report (eidx_of_nat i) "account not open"]) (c_booked c))
| StPadInvalid p err :
    d_variant d = DPad p → validate_account (c_acc c) (pad_acc p) (eidx_of_nat i) = Some err →
    step_rel i d c (CSt (c_acc c) (c_errors c ++ [err]) (c_booked c))
| StPadSecond p a k u :
    d_variant d = DPad p → validate_account (c_acc c) (pad_acc p) (eidx_of_nat i) = None →
    s_accounts (c_acc c) !! pad_acc p = Some a → a_pad a = Some (k, u) →
    step_rel i d c (CSt (put_account (c_acc c) (pad_acc p) (set_pad a None))
      (c_errors c ++ [related_to (mk_report u "unused, second pad encountered") (eidx_of_nat i)])
      (c_booked c))
| StPadOk p a :
    d_variant d = DPad p → validate_account (c_acc c) (pad_acc p) (eidx_of_nat i) = None →
    s_accounts (c_acc c) !! pad_acc p = Some a → a_pad a = None →
    step_rel i d c (CSt
      (put_account (c_acc c) (pad_acc p) (set_pad a (Some (length (c_booked c), eidx_of_nat i))))
      (c_errors c)
      (c_booked c ++ [booked_of i d (BVPad p);
                      booked_of i d (BVTransaction (BTransaction PAD_FLAG None None []))]))
| StBalInvalid b err :
    d_variant d = DBalance b → validate_account (c_acc c) (bal_acc b) (eidx_of_nat i) = Some err →
    step_rel i d c (CSt (c_acc c) (c_errors c ++ [err]) (c_booked c))
| StBalCurrency b a err :
    d_variant d = DBalance b → validate_account (c_acc c) (bal_acc b) (eidx_of_nat i) = None →
    s_accounts (c_acc c) !! bal_acc b = Some a →
    validate_currency a (bal_cur b) (eidx_of_nat i) = Some err →
    step_rel i d c (CSt (c_acc c) (c_errors c ++ [err]) (c_booked c))
| StBalPass b a :
    d_variant d = DBalance b → validate_account (c_acc c) (bal_acc b) (eidx_of_nat i) = None →
    s_accounts (c_acc c) !! bal_acc b = Some a →
    validate_currency a (bal_cur b) (eidx_of_nat i) = None →
    bal_margin (c_acc c) b = None →
    step_rel i d c (CSt
      (put_account (c_acc c) (bal_acc b)
         (set_pad (set_window a (Some (next_window a (length (c_booked c))))) None))
      (c_errors c ++ match a_pad a with
                     | Some (_, u) => [mk_report u "unused, no balance adjustment required"]
                     | None => []
                     end)
      (c_booked c ++ [booked_of i d (BVBalance (BBalance b (snd <$> a_pad a) None))]))
| StBalFail b a m s' rep :
    d_variant d = DBalance b → validate_account (c_acc c) (bal_acc b) (eidx_of_nat i) = None →
    s_accounts (c_acc c) !! bal_acc b = Some a →
    validate_currency a (bal_cur b) (eidx_of_nat i) = None →
    bal_margin (c_acc c) b = Some m → a_pad a = None →
    s' = put_account (c_acc c) (bal_acc b)
           (adjust_account_to_match_balance L
              (set_pad (set_window a (Some (next_window a (length (c_booked c))))) None)
              (bal_cur b) m AdjAdd) →
    balance_report s' (bal_acc b) m (bal_cur b) (eidx_of_nat i) (c_booked c) = ROk rep →
    step_rel i d c (CSt s' (c_errors c ++ [rep])
      (c_booked c ++ [booked_of i d (BVBalance (BBalance b None (Some m)))]))
| StBalPadded b a m k u padd p txnd txn pa s' :
    d_variant d = DBalance b → validate_account (c_acc c) (bal_acc b) (eidx_of_nat i) = None →
    s_accounts (c_acc c) !! bal_acc b = Some a →
    validate_currency a (bal_cur b) (eidx_of_nat i) = None →
    bal_margin (c_acc c) b = Some m → a_pad a = Some (k, u) →
    c_booked c !! k = Some padd → b_variant padd = BVPad p →
    c_booked c !! S k = Some txnd → b_variant txnd = BVTransaction txn →
    s' = put_account (c_acc c) (bal_acc b)
           (adjust_account_to_match_balance L
              (set_pad (set_window a (Some (next_window a (length (c_booked c))))) None)
              (bal_cur b) m AdjAdd) →
    s_accounts s' !! pad_source p = Some pa →
    step_rel i d c (CSt
      (put_account s' (pad_source p) (adjust_account_to_match_balance L pa (bal_cur b) m AdjSubtract))
      (c_errors c)
      (<[S k := set_variant txnd (BVTransaction (set_postings txn
          (calculate_balance_pad_postings (bal_cur b) m (bal_acc b) (pad_source p))))]> (c_booked c)
       ++ [booked_of i d (BVBalance (BBalance b None None))])).

Lemma balance_report_not_err s base m cur e bds err :
  balance_report (P:=P) s base m cur e bds ≠ RErr err.
Proof.
  unfold balance_report. repeat case_match; done.
Qed.

Lemma collect_step_rel i d c c' :
  collect_step L ord i d c = CRun c' → step_rel i d c c'.
Proof.
  unfold collect_step, directive_dct. destruct (d_variant d) as [t|pr|b|o|a|cu|p|a pa|a co|ty de|n co|cu] eqn:Ev.
  - unfold transaction_dct.
    destruct (book_txn L (c_acc c) (d_date d) (tx_postings t) (eidx_of_nat i)) as [s' [l|err|w]] eqn:Eb;
      cbn; intros [= <-].
    + by eapply StTxnOk.
    + by eapply StTxnErr.
  - intros [= <-]. eapply StPassive. by rewrite Ev.
  - unfold balance_dct, get_valid_account.
    destruct (validate_account (c_acc c) (bal_acc b) (eidx_of_nat i)) as [err|] eqn:Eva; cbn.
    { intros [= <-]. by eapply StBalInvalid. }
    destruct (s_accounts (c_acc c) !! bal_acc b) as [a|] eqn:Ea; cbn; [|done].
    destruct (validate_currency a (bal_cur b) (eidx_of_nat i)) as [err|] eqn:Ec; cbn.
    { intros [= <-]. by eapply StBalCurrency. }
    fold (next_window a (length (c_booked c))).
    fold (bal_margin (c_acc c) b).
    destruct (bal_margin (c_acc c) b) as [m|] eqn:Em; cbn.
    + destruct (a_pad a) as [[k u]|] eqn:Ep; cbn.
      * destruct (c_booked c !! k) as [padd|] eqn:Ek; cbn; [|done].
        destruct (b_variant padd) as [ | | | | | |p| | | | | ] eqn:Epv; cbn; try done.
        destruct (c_booked c !! S k) as [txnd|] eqn:Ek1; cbn; [|done].
        destruct (b_variant txnd) as [txn| | | | | | | | | | | ] eqn:Etv; cbn; try done.
        destruct (_ !! pad_source p) as [pa|] eqn:Epa; cbn; [|done].
        intros [= <-]. rewrite app_nil_r. by eapply StBalPadded.
      * destruct (balance_report _ _ _ _ _ _) as [rep|err|w] eqn:Er; [|by destruct (balance_report_not_err _ _ _ _ _ _ _ Er)|done].
        intros [= <-]. rewrite app_nil_r. by eapply StBalFail.
    + intros [= <-].
      replace (match snd <$> a_pad a with
               | Some u => [mk_report u "unused, no balance adjustment required"]
               | None => [] end) with
        (match a_pad a with
               | Some (_, u) => [mk_report u "unused, no balance adjustment required"]
               | None => [] end) by (by destruct (a_pad a) as [[? ?]|]).
      by eapply StBalPass.
  - unfold open_dct.
    destruct (s_open (c_acc c) !! op_acc o) as [j|] eqn:Eo; cbn.
    { intros [= <-]. by eapply StOpenDup. }
    destruct (s_closed (c_acc c) !! op_acc o) as [j|] eqn:Ecl; cbn.
    { intros [= <-]. by eapply StOpenClosed. }
    match goal with |- context [negb (lib_supported L ?b)] => set (bk0 := b) end.
    destruct (lib_supported L bk0) eqn:Es; cbn.
    + destruct (op_booking o) as [ob|] eqn:Eob.
      * change bk0 with (booking_into ob) in Es. rewrite Es. intros [= <-].
        eapply (StOpenOk i d c o _ _ []); [done..|reflexivity|].
        unfold put_account, set_accounts, set_open. cbn. rewrite Eob, Es. by rewrite app_nil_r.
      * intros [= <-].
        eapply (StOpenOk i d c o _ _ []); [done..|reflexivity|].
        unfold put_account, set_accounts, set_open. cbn. rewrite Eob. fold bk0. rewrite Es.
        by rewrite app_nil_r.
    + destruct (op_booking o) as [ob|] eqn:Eob.
      * change bk0 with (booking_into ob) in Es. rewrite Es. intros [= <-].
        eapply (StOpenOk i d c o _ _ [_; _]); [done..|reflexivity|].
        unfold put_account, set_accounts, set_open, push_warning. cbn. rewrite Eob, Es.
        by rewrite <- app_assoc.
      * intros [= <-].
        eapply (StOpenOk i d c o _ _ [_]); [done..|reflexivity|].
        unfold put_account, set_accounts, set_open, push_warning. cbn. rewrite Eob. fold bk0.
        by rewrite Es.
  - unfold close_dct.
    destruct (s_open (c_acc c) !! a) as [j|] eqn:Eo; cbn.
    + destruct (s_closed (c_acc c) !! a) as [k|] eqn:Ecl; cbn; intros [= <-].
      * by eapply StCloseClosed.
      * by eapply StCloseOk.
    + intros [= <-]. by eapply StCloseNotOpen.
  - intros [= <-]. eapply StPassive. by rewrite Ev.
  - unfold pad_dct, get_valid_account.
    destruct (validate_account (c_acc c) (pad_acc p) (eidx_of_nat i)) as [err|] eqn:Eva; cbn.
    { intros [= <-]. by eapply StPadInvalid. }
    destruct (s_accounts (c_acc c) !! pad_acc p) as [a|] eqn:Ea; cbn; [|done].
    destruct (a_pad a) as [[k u]|] eqn:Ep; cbn; intros [= <-].
    + by eapply StPadSecond.
    + by eapply StPadOk.
  - intros [= <-]. eapply StPassive. by rewrite Ev.
  - intros [= <-]. eapply StPassive. by rewrite Ev.
  - intros [= <-]. eapply StPassive. by rewrite Ev.
  - intros [= <-]. eapply StPassive. by rewrite Ev.
  - intros [= <-]. eapply StPassive. by rewrite Ev.
Qed.

End Steps.
