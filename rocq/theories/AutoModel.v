(** Model of [clj/src/beancount/plugins/auto_accounts.clj]. *)
From Coq Require Import Ascii QArith.
From stdpp Require Import prelude gmap strings.
From Verif Require Import DecModel LedgerTypes IsoModel JsonModel WireModel CljModel InventoryModel ClientModel FormatModel PluginModel.

(** [(:acc x)]: an account, or nil.  Simplification: an account which is neither nil
    nor a string is an exception if it is posted to; in the code it is one if it has to
    be compared with another. *)
Definition acc_key (v : cval) : option (option string) :=
  match vget "acc" v with
  | None | Some VNil => Some None
  | Some (VStr a) => Some (Some a)
  | Some _ => None
  end.
(** auto_accounts.clj:16 [(= (:dct dct) :open)]. *)
Definition is_open (d : cval) : bool := match vget "dct" d with Some (VKw "open") => true | _ => false end.
(** auto_accounts.clj:28-31. *)
Definition auto_open (d : cval) (acc : option string) : cval :=
  VMap [("dct", VKw "open"); ("date", default VNil (vget "date" d));
        ("acc", match acc with Some a => VStr a | None => VNil end); ("metadata", VMap [("auto", VNil)])].
(** auto_accounts.clj:21 [txn-accs]. *)
Definition txn_accs (d : cval) : option (gset (option string)) := list_to_set <$> mapM acc_key (vpostings d).
(** auto_accounts.clj:22-23: [(sort (vec (set/difference txn-accs @opened-accounts)))]. *)
Definition auto_new (opened : gset (option string)) (d : cval) : option (list (option string)) :=
  if is_open d then Some []
  else if is_txn d then
    (λ accs, sort_by (compare_nil_first str_compare) (base.elements (accs ∖ opened))) <$> txn_accs d
  else Some [].
(** auto_accounts.clj:16-18, 24-26: what [opened-accounts] holds afterwards. *)
Definition auto_opened (opened : gset (option string)) (d : cval) : option (gset (option string)) :=
  if is_open d then Some (match acc_key d with Some a => {[a]} ∪ opened | None => opened end)
  else if is_txn d then (λ accs, accs ∪ opened) <$> txn_accs d
  else Some opened.

(** * As a transducer *)

Section Reducing.
(** A reducing function: from the result so far and a directive the next result.  It
    may also change the state [s] which results refer to, as [conj!] does. *)
Context {R S : Type} (rf : R → cval → S → R * S).
(** auto_accounts.clj:27-34: the opens; [reduce] over the new accounts. *)
Definition reduce_opens (d : cval) (accs : list (option string)) (r : R) (s : S) : R * S :=
  fold_left (λ rs a, rf rs.1 (auto_open d a) rs.2) accs (r, s).
(** auto_accounts.clj:15-36, the step.  The result of [reduce] is not used: the
    directive is added to the result from before. *)
Definition auto_step (r : R) (d : cval) (s : S) (opened : gset (option string)) : option (R * S * gset (option string)) :=
  new ← auto_new opened d;
  opened' ← auto_opened opened d;
  let s' := (reduce_opens d new r s).2 in
  Some (rf r d s', opened').
(** A reduction with it. *)
Fixpoint auto_reduce (r : R) (ds : list cval) (s : S) (opened : gset (option string)) : option (R * S) :=
  match ds with
  | [] => Some (r, s)
  | d :: ds' =>
      x ← auto_step r d s opened;
      let '(r', s', opened') := x in auto_reduce r' ds' s' opened'
  end.
End Reducing.

(** * As a plugin *)

(** With [into], plugins.clj:103-113, results are the one transient vector, and what
    the plugin passes on for a directive is the new opens and the directive, see
    [C57_reducing]. *)
Definition auto_accounts : plugin_xf :=
  PluginXf (λ h, match last h with
                 | None => Some []
                 | Some d =>
                     opened ← fold_opt auto_opened ∅ (take (pred (length h)) h);
                     new ← auto_new opened d;
                     Some (((λ a, Emit (auto_open d a)) <$> new) ++ [Pass (pred (length h))])
                 end)
           (λ _, Some []).
