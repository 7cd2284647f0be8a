(** Theorems about reports which are asked for in a session. *)
From Coq Require Import Ascii QArith.
From stdpp Require Import prelude gmap strings.
From Verif Require Import DecModel LedgerTypes IsoModel JsonModel WireModel BookModel SpanModel ParserModel SampleLib SampleLedgers ServerModel ServerSamples CljModel InventoryModel ClientModel
  ClientSamples PluginModel PluginProps LoaderModel LoaderProps SystemModel SystemProps RollupModel UserModel UserSpec UserProps ReplModel ReplSpec.
From Verif Require Import WireSpec SystemLoad SystemErrors SystemTrace ClientSpec InventorySpec PluginSpec ViewSpec ViewProps.
Local Open Scope nat_scope.

Section Repl.
Context (ro : report_orders).
Context {P S : Type} (env : server_env P S).
Context (jso : list json → list json) (jmo : list (string * json) → list (string * json)).
Context (ns : string → option namespace) (read_config : option cval → option (option cval)).
Context (code : nat → nat) (spec : bool → cval → bool) (so : list cval → list cval).
Notation world := (@world P S).
Notation command := (@command P S).
Notation load_in := (load_in env jso jmo ns read_config code spec so).
Notation user_load := (user_load env jso jmo ns read_config code spec so).
Notation print_errors := (print_errors env jso jmo).
Notation replies := (replies ro env jso jmo ns read_config code spec so).
Implicit Types (w : world) (s : session) (q : request).

(** What the globals have after loads of which [w] was the last. *)
Definition beans_of_load (w : option world) : option loaded :=
  match w with
  | Some w =>
      match w_spawn w, load_in w with
      | None, inr (Some m) => match (print_errors w m).2 with None => Some m | Some _ => None end
      | _, _ => None
      end
  | None => None
  end.
Definition holds_load (w : option world) (g : globals) : Prop := (snd <$> g_beans g) = beans_of_load w.
Lemma load_holds w path s s' t o : user_load w path s = (s', t, o) → holds_load (Some w) (se_globals s').
Proof.
  intros H. destruct (load_cases env jso jmo ns read_config code spec so w path s) as (s1&t1&o1&H1&Ho). rewrite H in H1. injection H1 as <- <- <-.
  unfold holds_load, beans_of_load. destruct o as [|e].
  - destruct Ho as (m&Hm&Hw&Hp&->&_). by rewrite Hw, Hm, Hp.
  - destruct Ho as [(Hw&->&_)|[(Hw&(u&Hu&_)&->&_)|(Hw&[Hu|(m&Hm&Hp)]&->)]]; rewrite Hw; [done|by rewrite Hu|by rewrite Hu|by rewrite Hm, Hp].
Qed.
Lemma reports_alike g g' q : (snd <$> g_beans g) = (snd <$> g_beans g') → session_report ro g q = session_report ro g' q.
Proof.
  intros H. assert (Hc : current_beans g = current_beans g').
  { unfold current_beans. destruct (g_beans g) as [[? ?]|], (g_beans g') as [[? ?]|]; cbn in H; try done. by injection H as ->. }
  destruct q; unfold session_report; by rewrite Hc.
Qed.
Lemma reply_at (cs : list command) (w : option world) s n q : holds_load w (se_globals s) → cs !! n = Some (Ask q) →
  ∃ g, replies cs s !! n = Some (ReportReply (session_report ro g q)) ∧ holds_load (last_load (take n cs) w) g.
Proof.
  revert w s n. induction cs as [|c cs IH]; intros w s n Hh Hn; [done|]. destruct n as [|n].
  - injection Hn as ->. exists (se_globals s). by split.
  - cbn in Hn. destruct c as [w' path|q'].
    + cbn [ReplModel.replies]. destruct (user_load w' path s) as [[s' t] o] eqn:El. cbn [lookup list_lookup take last_load].
      apply IH; [|done]. by eapply load_holds.
    + cbn [ReplModel.replies lookup list_lookup take last_load]. by apply IH.
Qed.
Lemma start_holds : holds_load None (se_globals session_start).
Proof. done. Qed.

(** * C112 *)

(** Whatever was loaded and asked for before, a report depends on the ledger loaded last
    and on nothing else. *)
Theorem C112_same (cs : list command) n (cs' : list command) n' q :
  cs !! n = Some (Ask q) → cs' !! n' = Some (Ask q) →
  last_load (take n cs) None = last_load (take n' cs') None →
  is_Some (replies cs session_start !! n) ∧ replies cs session_start !! n = replies cs' session_start !! n'.
Proof.
  intros Hn Hn' Hl. destruct (reply_at cs None session_start n q start_holds Hn) as (g&->&Hg).
  destruct (reply_at cs' None session_start n' q start_holds Hn') as (g'&->&Hg'). split; [by eexists|].
  do 2 f_equal. apply reports_alike. unfold holds_load in *. by rewrite Hg, Hg', Hl.
Qed.

Lemma selected_order bs f fs : selected bs (f :: fs) = selected bs (fs ++ [f]).
Proof. unfold selected. apply list_filter_iff. intros p. rewrite forallb_app. cbn [forallb]. by rewrite andb_true_r, andb_comm. Qed.
Lemma inventory_order bs f fs : inventory (ro_client ro) bs (f :: fs) = inventory (ro_client ro) bs (fs ++ [f]).
Proof. unfold inventory. by rewrite selected_order. Qed.
Lemma session_report_for g bs q : current_beans g = Some bs → session_report ro g q = report_for ro bs q.
Proof.
  intros H. destruct q; unfold session_report; rewrite H; cbn [mbind option_bind report_for]; [done| | |done|done];
    unfold balances, income_statement, with_names; by rewrite inventory_order.
Qed.
(** If that one loaded without an error, the report is the one of its directives and
    options; a filter for the accounts of a report counts as if it came last. *)
Theorem C112_loaded cs n q m vs ds :
  cs !! n = Some (Ask q) → good load_in (last_load (take n cs) None) m →
  l_directives m = Some vs → mapM view_directive vs = Some ds →
  replies cs session_start !! n = Some (ReportReply (report_for ro (Beans ds (default VNil (l_options m))) q)).
Proof.
  intros Hn (w&Hw&Hs&Hm&He) Hd Hv. destruct (reply_at cs None session_start n q start_holds Hn) as (g&->&Hg). do 2 f_equal.
  apply session_report_for. unfold holds_load in Hg. rewrite Hw in Hg. cbn [beans_of_load] in Hg. rewrite Hs, Hm in Hg.
  assert (Hp : (print_errors w m).2 = None) by (unfold UserModel.print_errors; by rewrite He).
  rewrite Hp in Hg. unfold current_beans. destruct (g_beans g) as [[pod m']|]; [|done]. cbn in Hg. injection Hg as ->. by rewrite Hd, Hv.
Qed.

Lemma report_nothing o q : (∀ l, co_freq (ro_client ro) l ≡ₚ l) → is_Some (default_booking o) → report_for ro (Beans [] o) q = nothing q.
Proof.
  intros Hco [d Ho]. assert (Hi : ∀ fs, inventory (ro_client ro) (Beans [] o) fs = Some ∅).
  { intros fs. unfold inventory. cbn [be_options]. rewrite Ho. unfold selected. cbn [be_directives]. change (xf_postings []) with (@nil cposting).
    rewrite filter_nil. unfold inventory_build. cbn [fold_opt fmap option_fmap option_map]. f_equal. apply omap_empty. }
  destruct q; cbn [report_for nothing]; unfold balances, income_statement; rewrite ?Hi; [done..|].
  cbn [mbind option_bind]. unfold rollup. assert (Hf : map_to_list (cur_freq ∅) = []) by done. rewrite Hf.
  assert (Hn : co_freq (ro_client ro) [] = []) by (apply Permutation_nil; symmetry; apply Hco). by rewrite Hn.
Qed.
(** If it did not, or if nothing has been loaded, every report shows nothing, and none
    but the roll-up throws. *)
Theorem C112_failed cs n q :
  (∀ l, co_freq (ro_client ro) l ≡ₚ l) →
  cs !! n = Some (Ask q) → (∀ m, ¬ good load_in (last_load (take n cs) None) m) →
  replies cs session_start !! n = Some (ReportReply (nothing q)).
Proof.
  intros Hco Hn Hb. destruct (reply_at cs None session_start n q start_holds Hn) as (g&->&Hg). do 2 f_equal.
  rewrite <- (report_nothing VNil) by (done || by eexists). apply session_report_for. unfold holds_load in Hg. unfold current_beans.
  destruct (g_beans g) as [[pod m]|]; [|done]. cbn in Hg. symmetry in Hg. unfold beans_of_load in Hg.
  destruct (last_load (take n cs) None) as [w|]; [|done]. destruct (w_spawn w) eqn:Hs; [done|].
  destruct (load_in w) as [|[m'|]] eqn:Hm; [done| |done]. destruct ((print_errors w m').2); [done|]. injection Hg as ->.
  pose proof (loaded_directives _ _ _ _ _ _ _ _ w m Hm) as Hd. destruct (l_error m) eqn:He.
  - by rewrite Hd.
  - destruct (Hb m). by exists w.
Qed.

(** In a session, too, an account has the units which were booked to it and which the
    filters let pass; whatever was done before. *)
Theorem C112_booked (Hjso : ∀ l, jso l ≡ₚ l) (Hjmo : ∀ l, jmo l ≡ₚ l) cs n filters w p m :
  cs !! n = Some (Ask (AskInventory filters)) → last_load (take n cs) None = Some w →
  w_spawn w = None → w_health w = Healthy (inl p) → load_in w = inr (Some m) → l_error m = None → of_phase true (l_plugins m) = [] →
  (∀ k a, or_accounts (w_orders w k) a ≡ₚ map_to_list a) →
  countable_ledger p → (∀ xs, l_raw_xf m = Some xs → countable xs) → (∀ l, co_lots (ro_client ro) l ≡ₚ l) →
  ∃ k l bs ws, to_be_booked env jso jmo p m l ∧ book_with env p (w_orders w) k l = BookSuccess bs ws ∧
    (Forall dates_valid bs → ∃ i, replies cs session_start !! n = Some (ReportReply (Inventory i)) ∧
       ∀ inv acc cur, i = Some inv → (held cur (holding inv acc) == entry_units cur (to_account acc (entries_selected filters bs)))%Q).
Proof.
  intros Hn Hw Hs Hh Hm He Hp Hacc Hc Hx Hco. pose proof Hm as Hl. unfold UserModel.load_in in Hl. rewrite Hh in Hl.
  destruct (C87_loaded _ _ _ Hjso Hjmo _ _ _ _ _ _ _ _ Hacc _ Hl He Hp Hc Hx) as (k&l&bs&ws&Hb&Hk&H). exists k, l, bs, ws. split_and!; [done..|].
  intros Hd. destruct (H Hd) as (vs&ds&Hvs&Hds&Hseen). eexists. split.
  - rewrite (C112_loaded cs n _ m vs ds Hn); [|by exists w|done|done]. cbn [report_for]. reflexivity.
  - intros inv acc cur Hi. by apply (C87_inventory _ _ _ _ _ _ Hco Hseen Hi).
Qed.
End Repl.
Print Assumptions C112_same.
Print Assumptions C112_loaded.
Print Assumptions C112_failed.
Print Assumptions C112_booked.

(** * Samples *)

Definition r_orders : report_orders := ReportOrders plain_orders id.
Definition r_replies : list command → session → list reply :=
  replies r_orders sample_env id id (p_env None) s_read id (λ _ _, true) id.
Definition r_load : world → option cval + option loaded := load_in sample_env id id (p_env None) s_read id (λ _ _, true) id.
Definition r_empty : health := Healthy (inl (Parsed [] (pa_options (sample_parsed true)) [])).
Definition r_script : list command :=
  [Ask (AskInventory []); Load (u_world (Healthy (inl (u_plain true)))) "a.beancount"; Ask (AskInventory []); Ask (AskJournal [f_cur "USD"]); Ask (AskRollup []);
   Load (u_world (Healthy (inl (u_plain false)))) "b.beancount"; Ask (AskInventory []); Ask (AskRollup []);
   Load (u_world (Unhealthy "gone")) "c.beancount"; Ask (AskJournal []);
   Load (u_world (Healthy (inl (u_plain true)))) "a.beancount"; Ask (AskBalances [])].
Definition r_shown (r : reply) : option (option nat) :=
  match r with
  | LoadReply _ _ => None
  | ReportReply (Inventory i) => Some (length ∘ map_to_list <$> i)
  | ReportReply (Journal l) => Some (length <$> l)
  | ReportReply (Rollup e) => Some (length ∘ map_to_list <$> e)
  end.
Lemma r_good w : w_spawn w = None → match r_load w with inr (Some m) => match l_error m with None => true | _ => false end | _ => false end = true → ∃ m, good r_load (Some w) m.
Proof.
  intros Hw. destruct (r_load w) as [|[m|]] eqn:E; [done| |done]. destruct (l_error m) eqn:Ee; [done|]. intros _. exists m, w. done.
Qed.
Lemma r_bad w : match r_load w with inr (Some m) => match l_error m with None => true | _ => false end | _ => false end = false → ∀ m, ¬ good r_load (Some w) m.
Proof. intros H m (w'&[= <-]&_&Hm&He). rewrite Hm, He in H. done. Qed.
(** Reports before anything is loaded, of a ledger, of one with an error, of one which is
    not there, and of the first one again. *)
Example C112_example :
  (∃ m, good r_load (last_load (take 2 r_script) None) m) ∧ (∀ m, ¬ good r_load (last_load (take 6 r_script) None) m) ∧
  (∀ m, ¬ good r_load (last_load (take 9 r_script) None) m) ∧ (∃ m, good r_load (last_load (take 11 r_script) None) m) ∧
  r_shown <$> r_replies r_script session_start =
  [Some (Some 0); None; Some (Some 2); Some (Some 2); Some (Some 4); None; Some (Some 0); Some None; None; Some (Some 0); None; Some (Some 1)].
Proof.
  split_and!; [apply r_good; [done|by vm_compute]|apply r_bad; by vm_compute|apply r_bad; by vm_compute|apply r_good; [done|by vm_compute]|by vm_compute].
Qed.

(** "Reports tell whether the ledger could be loaded" is false: those of a ledger with an
    error are those of one in which there is nothing. *)
Theorem C112_told_refuted :
  ∃ w w' m', (∀ m, ¬ good r_load (Some w) m) ∧ is_returned (u_load None w "a.beancount" session_start).2 = true ∧
    good r_load (Some w') m' ∧ l_directives m' = Some [] ∧
    ∀ path q, r_replies [Load w path; Ask q] session_start !! 1 = r_replies [Load w' path; Ask q] session_start !! 1.
Proof.
  assert (He : match r_load (u_world r_empty) with
               | inr (Some m) => match l_error m, l_directives m, default_booking (default VNil (l_options m)) with None, Some [], Some _ => true | _, _, _ => false end
               | _ => false end = true) by by vm_compute.
  destruct (r_load (u_world r_empty)) as [|[m|]] eqn:Em; [done| |done]. destruct (l_error m) eqn:Ee; [done|].
  destruct (l_directives m) as [[|]|] eqn:Ed; [|done..]. destruct (default_booking _) as [b|] eqn:Eb; [|done].
  assert (Hb : ∀ m, ¬ good r_load (Some (u_world (Healthy (inl (u_plain false))))) m) by (apply r_bad; by vm_compute).
  assert (Hg : good r_load (Some (u_world r_empty)) m) by (by exists (u_world r_empty)).
  exists (u_world (Healthy (inl (u_plain false)))), (u_world r_empty), m. split_and!; [exact Hb|by vm_compute|exact Hg|exact Ed|].
  intros path q. unfold r_replies.
  rewrite (C112_failed r_orders sample_env id id (p_env None) s_read id (λ _ _, true) id [Load _ path; Ask q] 1 q); [|by intros l|done|exact Hb].
  rewrite (C112_loaded r_orders sample_env id id (p_env None) s_read id (λ _ _, true) id [Load _ path; Ask q] 1 q m [] []); [|done|exact Hg|exact Ed|done].
  rewrite report_nothing; [done|by intros l|by exists b].
Qed.
Print Assumptions C112_told_refuted.
