(** Model of the client: reading the server's answers ([adapter/pod.clj]), the
    registry, the filters and the functions of [limabean.clj]. *)
From Coq Require Import Ascii QArith.
From stdpp Require Import prelude gmap strings.
From Verif Require Import DecModel LedgerTypes IsoModel JsonModel WireModel CljModel InventoryModel.

(** * Reading answers *)

(** Clojure data; maps have keyword keys.  Sets are lists without regard to order.
    [VThrow] stands for a value which cannot be made: reading the answer
    throws. *)
Inductive cval :=
| VNil | VBool (b : bool) | VNum (n : cnum) | VStr (s : string) | VKw (s : string)
| VDate (d : date) | VThrow
| VVec (l : list cval) | VSet (l : list cval) | VMap (fs : list (string * cval)).

(** [(get m k)]; of repeated keys the last counts. *)
Definition vfield (k : string) (fs : list (string * cval)) : option cval := last (entries k fs).
Definition vget (k : string) (v : cval) : option cval :=
  match v with VMap fs => vfield k fs | _ => None end.
(** [update] of a key which is there. *)
Definition vupdate (k : string) (f : cval → cval) (fs : list (string * cval)) : list (string * cval) :=
  (λ kv, if String.eqb kv.1 k then (kv.1, f kv.2) else kv) <$> fs.

(** How cheshire reads a number when [*use-bigdecimals?*] is set: only those with a
    point become decimals. *)
Definition cn_of_dec (d : dec) : cnum :=
  match dec_scale d with
  | O => if fits_long (dec_mant d) then CLong (dec_mant d) else CBig (dec_mant d)
  | _ => CDec d
  end.

(** [jt/local-date] of a string.  Simplification: read as the server does. *)
Definition to_local_date (v : cval) : cval :=
  match v with VStr s => match parse_date s with Some d => VDate d | None => VThrow end | _ => v end.
(** [keyword]: of anything but strings, keywords and symbols it is nil. *)
Definition to_keyword (v : cval) : cval :=
  match v with VStr s => VKw s | VKw s => VKw s | VThrow => VThrow | _ => VNil end.
(** pod.clj:34-42: the function which [convert-values] applies to each map. *)
Definition convert_map (fs : list (string * cval)) : list (string * cval) :=
  vupdate "booking" to_keyword (vupdate "dct" to_keyword
    (match vfield "date" fs with Some (VStr _) => vupdate "date" to_local_date fs | _ => fs end)).

(** pod.clj:44-47 [coerce-arrays]. *)
Definition is_set_key (k : option string) : bool :=
  match k with
  | Some k => String.eqb k "currencies" || String.eqb k "tags" || String.eqb k "links"
  | None => false
  end.
(** pod.clj:49-56 [read-msg] on the tree which the text denotes; the conversion is
    bottom up, as in [walk/postwalk].  [key] is the field which holds the value. *)
Fixpoint decode (key : option string) (j : json) : cval :=
  match j with
  | JNull => VNil
  | JBool b => VBool b
  | JNum d => VNum (cn_of_dec d)
  | JStr s => VStr s
  | JArr l => if is_set_key key then VSet (map (decode None) l) else VVec (map (decode None) l)
  | JObj fs => VMap (convert_map (map (λ '(k, v), (k, decode (Some k) v)) fs))
  end.

(** * Directives as the core functions use them *)

(** The entries of a directive map which are looked at. *)
Record cdirective := CDirective {
  cd_dct : string; cd_date : option date; cd_acc : option string; cd_cur : option string;
  cd_payee : option string; cd_narration : option string; cd_booking : option booking;
  cd_postings : list cposting }.

(** Views of Clojure data; [None] if the data has another shape. *)
Definition view_str (v : cval) : option string := match v with VStr s => Some s | _ => None end.
Definition view_num (v : cval) : option cnum := match v with VNum n => Some n | _ => None end.
Definition view_date (v : cval) : option date := match v with VDate d => Some d | _ => None end.
Definition view_bool (v : cval) : option bool := match v with VBool b => Some b | _ => None end.
Definition view_kw (v : cval) : option string := match v with VKw s => Some s | _ => None end.
Definition view_booking (v : cval) : option booking :=
  match v with VKw s => get_booking (JStr s) | _ => None end.
Definition view_opt {A} (f : cval → option A) (k : string) (v : cval) : option (option A) :=
  match vget k v with Some x => Some <$> f x | None => Some None end.
Definition view_req {A} (f : cval → option A) (k : string) (v : cval) : option A :=
  match vget k v with Some x => f x | None => None end.
Definition view_list {A} (f : cval → option A) (v : cval) : option (list A) :=
  match v with VVec l => mapM f l | _ => None end.
Definition view_cost (v : cval) : option ccost :=
  d ← view_req view_date "date" v; c ← view_req view_str "cur" v;
  u ← view_req view_num "per-unit" v; t ← view_req view_num "total" v;
  l ← view_opt view_str "label" v; m ← view_opt view_bool "merge" v;
  Some (CCost d c u t l m).
Definition view_posting (v : cval) : option cposting :=
  f ← view_opt view_str "flag" v; a ← view_req view_str "acc" v;
  u ← view_req view_num "units" v; c ← view_req view_str "cur" v; k ← view_opt view_cost "cost" v;
  Some (CPosting None None None f a u c k).
Definition view_directive (v : cval) : option cdirective :=
  k ← view_req view_kw "dct" v; d ← view_opt view_date "date" v;
  a ← view_opt view_str "acc" v; c ← view_opt view_str "cur" v;
  p ← view_opt view_str "payee" v; n ← view_opt view_str "narration" v;
  b ← view_opt view_booking "booking" v; ps ← view_opt (view_list view_posting) "postings" v;
  Some (CDirective k d a c p n b (default [] ps)).

(** * Transducers: [core/xf.clj] *)

(** xf.clj:8-14 [postings]; a posting has no date, payee or narration of its own. *)
Definition xf_postings (ds : list cdirective) : list cposting :=
  d ← filter (λ d, cd_dct d = "txn") ds;
  (λ p, CPosting (cd_date d) (cd_payee d) (cd_narration d) (cp_flag p) (cp_acc p) (cp_units p) (cp_cur p) (cp_cost p))
    <$> cd_postings d.
(** xf.clj:3-6 [all-of]; filters are functions to truth values. *)
Definition xf_all_of {A} (filters : list (A → bool)) (l : list A) : list A :=
  filter (λ x, forallb (λ f, f x) filters = true) l.

(** * Filters: [core/filters.clj] *)

(** What a filter can see of a directive or posting. *)
Record citem := CItem {
  it_date : option date; it_acc : option string; it_cur : option string;
  it_payee : option string; it_narration : option string }.
Definition item_of_posting (p : cposting) : citem :=
  CItem (cp_date p) (Some (cp_acc p)) (Some (cp_cur p)) (cp_payee p) (cp_narration p).
Definition item_of_directive (d : cdirective) : citem :=
  CItem (cd_date d) (cd_acc d) (cd_cur d) (cd_payee d) (cd_narration d).

(** filters.clj:25-61, after the arguments are turned into a date, see [to_date]. *)
Definition on_date (test : comparison → bool) (bound : date) (x : citem) : bool :=
  match it_date x with Some d => test (date_compare d bound) | None => false end.
Definition date_lt := on_date (λ c, match c with Lt => true | _ => false end).
Definition date_le := on_date (λ c, match c with Gt => false | _ => true end).
Definition date_gt := on_date (λ c, match c with Gt => true | _ => false end).
Definition date_ge := on_date (λ c, match c with Lt => false | _ => true end).
(** filters.clj:63-66 [date-between]. *)
Definition date_between (begin_ end_ : date) (x : citem) : bool := date_ge begin_ x && date_lt end_ x.

(** filters.clj:13-23 [to-local-date]; [None] is the exception.  Simplification:
    strings are read as the server reads dates. *)
Inductive date_arg := AInt (n : Z) | AStr (s : string) | ADate (d : date).
Definition to_date (args : list date_arg) : option date :=
  let checked d := if valid_date d then Some d else None in
  match args with
  | [ADate d] => Some d
  | [AStr s] => parse_date s
  | [AInt y] => checked (Date y 1 1)
  | [AInt y; AInt m] => checked (Date y m 1)
  | [AInt y; AInt m; AInt d] => checked (Date y m d)
  | _ => None
  end.
Definition date_filter (f : date → citem → bool) (args : list date_arg) : option (citem → bool) :=
  f <$> to_date args.
(** filters.clj:68-77 [date>=<]. *)
Definition date_ge_lt (args : list date_arg) : option (citem → bool) :=
  match args with
  | [b1; e1] => b ← to_date [b1]; e ← to_date [e1]; Some (date_between b e)
  | [b1; b2; e1; e2] => b ← to_date [b1; b2]; e ← to_date [e1; e2]; Some (date_between b e)
  | [b1; b2; b3; e1; e2; e3] => b ← to_date [b1; b2; b3]; e ← to_date [e1; e2; e3]; Some (date_between b e)
  | _ => None
  end.

(** filters.clj:79-82 [acc]. *)
Definition f_acc (targets : list string) (x : citem) : bool :=
  match it_acc x with Some a => existsb (String.eqb a) targets | None => false end.
(** filters.clj:84-92 [sub-acc]; a target may be nil. *)
Definition f_sub_acc (targets : list (option string)) (x : citem) : bool :=
  match it_acc x with
  | Some a => existsb (λ t, match t with
                            | Some t => String.eqb a t || String.prefix (t +:+ ":") a
                            | None => String.prefix ":" a
                            end) targets
  | None => false
  end.
(** filters.clj:94-97 [cur]. *)
Definition f_cur (target : string) (x : citem) : bool :=
  match it_cur x with Some c => String.eqb c target | None => false end.
(** filters.clj:99-112: [finds] is whether the regular expression is found. *)
Definition f_payee (finds : string → bool) (x : citem) : bool :=
  match it_payee x with Some s => finds s | None => false end.
Definition f_narration (finds : string → bool) (x : citem) : bool :=
  match it_narration x with Some s => finds s | None => false end.
(** filters.clj:114-127. *)
Definition every_f {A} (fs : list (A → bool)) (x : A) : bool := forallb (λ f, f x) fs.
Definition some_f {A} (fs : list (A → bool)) (x : A) : bool := existsb (λ f, f x) fs.
Definition none_f {A} (fs : list (A → bool)) (x : A) : bool := negb (existsb (λ f, f x) fs).

(** * Registry: [core/registry.clj] *)

(** registry.clj:9: [(get options :booking :strict)]. *)
Definition default_booking (options : cval) : option booking :=
  match vget "booking" options with Some v => view_booking v | None => Some BStrict end.
(** registry.clj:10-36, the loop: booking methods and currency frequencies. *)
Definition registry_acc_booking (ds : list cdirective) : gmap string booking :=
  fold_left (λ m d, if String.eqb (cd_dct d) "open" then
                      match cd_booking d, cd_acc d with Some b, Some a => <[a := b]> m | _, _ => m end
                    else m) ds ∅.
Definition posting_curs (ds : list cdirective) : list string :=
  d ← filter (λ d, cd_dct d = "txn") ds; cp_cur <$> cd_postings d.
Definition registry_cur_freq (ds : list cdirective) : gmap string nat :=
  fold_left (λ m c, <[c := S (default 0 (m !! c))]> m) (posting_curs ds) ∅.
(** registry.clj:37; [ho] is the order in which the hash map lists its entries. *)
Definition nat_compare_desc (a b : string * nat) : comparison := Nat.compare b.2 a.2.
Definition registry_curs (ho : list (string * nat) → list (string * nat)) (ds : list cdirective) : list string :=
  (λ e, e.1) <$> sort_by nat_compare_desc (ho (map_to_list (registry_cur_freq ds))).
(** registry.clj:38-49 [accs], [acc-booking]; [None] only if the options contain
    nonsense. *)
Definition acc_booking (ds : list cdirective) (options : cval) (acc : string) : option booking :=
  match registry_acc_booking ds !! acc with Some b => Some b | None => default_booking options end.

(** * [limabean.clj] *)

(** Hash orders: of lots, and of currency frequencies. *)
Record client_orders := ClientOrders {
  co_lots : list (ckey * position) → list (ckey * position);
  co_freq : list (string * nat) → list (string * nat) }.
(** The parts of a loaded ledger which are used. *)
Record beans := Beans { be_directives : list cdirective; be_options : cval }.

Section Top.
Context (co : client_orders) (bs : beans).
(** limabean.clj:14-16 [postings]. *)
Definition selected (filters : list (citem → bool)) : list cposting :=
  filter (λ p, forallb (λ f, f (item_of_posting p)) filters = true) (xf_postings (be_directives bs)).
(** limabean.clj:18-23 [inventory]. *)
Definition inventory (filters : list (citem → bool)) : option (gmap string (list position)) :=
  match default_booking (be_options bs) with
  | Some dflt =>
      inventory_build (co_lots co) (selected filters)
        (λ a, default dflt (registry_acc_booking (be_directives bs) !! a))
  | None => None
  end.
(** limabean.clj:37-56 [balances], [income-statement]. *)
Definition option_name (k : string) : option string := vget k (be_options bs) ≫= view_str.
Definition balances (filters : list (citem → bool)) : option (gmap string (list position)) :=
  inventory (filters ++ [f_sub_acc [option_name "name-assets"; option_name "name-liabilities"]]).
Definition income_statement (filters : list (citem → bool)) : option (gmap string (list position)) :=
  inventory (filters ++ [f_sub_acc [option_name "name-income"; option_name "name-expenses"]]).
(** limabean.clj:58-63 [journal]. *)
Definition journal (filters : list (citem → bool)) : option (list (cposting * list position)) :=
  journal_build (co_lots co) (selected filters).
End Top.
