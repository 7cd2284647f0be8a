(** Model of [clj/src/limabean/core/rollup.clj] and [rollup] of
    [clj/src/limabean.clj]. *)
From Coq Require Import Ascii QArith.
From stdpp Require Import prelude gmap strings.
From Verif Require Import DecModel LedgerTypes CljModel InventoryModel.

(** [str/split acc #":"]: the parts between colons, trailing empty ones dropped;
    a string without colons is its only part. *)
Fixpoint parts (s : string) : list string :=
  match s with
  | EmptyString => [""]
  | String c s' =>
      if Ascii.eqb c ":" then "" :: parts s'
      else match parts s' with p :: ps => String c p :: ps | [] => [String c ""] end
  end.
Fixpoint drop_trailing_empty (l : list string) : list string :=
  match l with
  | [] => []
  | x :: l' => match drop_trailing_empty l' with
               | [] => if String.eqb x "" then [] else [x]
               | r => x :: r
               end
  end.
Definition split_colon (s : string) : list string :=
  match parts s with [p] => [p] | ps => drop_trailing_empty ps end.

(** rollup.clj:17-27 [account-and-ancestors]. *)
Definition ancestors_step (r : list string * string) (part : string) : list string * string :=
  match r.1 with
  | [] => ([part], part)
  | _ => let combined := r.2 +:+ ":" +:+ part in (r.1 ++ [combined], combined)
  end.
Definition account_and_ancestors (acc : string) : list string :=
  (fold_left ancestors_step (split_colon acc) ([], "")).1.

(** rollup.clj:29-32 [account-depth]. *)
Fixpoint account_depth (acc : string) : nat :=
  match acc with EmptyString => 0 | String c s => (if Ascii.eqb c ":" then 1 else 0) + account_depth s end.

(** The entry of an account: [:item] and [:total], each a number and a column. *)
Record entry := Entry { e_item : option (dec * nat); e_total : option (dec * nat) }.

Section Rollup.
(** The orders in which hash maps list their entries. *)
Context (ho : list (string * dec) → list (string * dec)) (hof : list (string * nat) → list (string * nat)).

(** rollup.clj:9-15, 43 [item-units]. *)
Definition item_units (inv : gmap string (list position)) (cur : string) : gmap string dec :=
  omap (λ ps, let u := units_of ps cur in if (dec_mant u =? 0)%Z then None else Some u) inv.
(** rollup.clj:34-38, 44-47 [total-units]. *)
Definition total_units (items : gmap string dec) : gmap string dec :=
  fold_left (λ r e, <[e.1 := dec_add e.2 (default dec_zero (r !! e.1))]> r)
    (e ← ho (map_to_list items); (λ a, (a, e.2)) <$> account_and_ancestors e.1) (∅ : gmap string dec).
(** rollup.clj:48-49 [max-depth]. *)
Definition max_depth (items : gmap string dec) : nat :=
  fold_left Nat.max ((λ e, account_depth e.1) <$> ho (map_to_list items)) 0.
(** [=] of numbers or nil, rollup.clj:61-62; both numbers are decimals, which are
    equal when they are the same number. *)
Definition same_units (a b : option dec) : bool :=
  match a, b with
  | Some x, Some y => match dec_compare x y with Eq => true | _ => false end
  | None, None => true
  | _, _ => false
  end.
(** rollup.clj:40-68 [build]. *)
Definition rollup_build (inv : gmap string (list position)) (cur : string) : gmap string entry :=
  let items := item_units inv cur in
  let totals := total_units items in
  let depth := max_depth items in
  fold_left (λ r acc,
      <[acc := Entry
          ((λ u, (u, depth)) <$> items !! acc)
          (match totals !! acc with
           | Some u => if same_units (items !! acc) (Some u) then None else Some (u, account_depth acc)
           | None => None
           end)]> r)
    (((λ e, e.1) <$> ho (map_to_list items)) ++ ((λ e, e.1) <$> ho (map_to_list totals))) (∅ : gmap string entry).

(** rollup.clj:70-82: the cells of an entry; [None] is an empty cell. *)
Definition entry_cells (e : entry) : list (option dec) :=
  let tcells := match e_total e with Some (u, c) => replicate c None ++ [Some u] | None => [] end in
  let twidth := match e_total e with Some (_, c) => S c | None => 0 end in
  tcells ++ match e_item e with Some (u, c) => replicate (c - twidth) None ++ [Some u] | None => [] end.

(** [(apply max-key val m)]: throws for an empty map; of several greatest entries
    the last. *)
Definition max_key (l : list (string * nat)) : option (string * nat) :=
  match l with
  | [] => None
  | x :: l' => Some (fold_left (λ m e, if (m.2 <=? e.2)%nat then e else m) l' x)
  end.
(** limabean.clj:25-35 [rollup]. *)
Definition rollup (inv : gmap string (list position)) : option (gmap string entry) :=
  (λ e, rollup_build inv e.1) <$> max_key (hof (map_to_list (cur_freq inv))).
End Rollup.
