(** Reading a ledger, as Beancount's documentation says: one directive after the other,
    each with the indented lines below it.  This is specification: the parser of
    Beancount files is not part of the repository, and nothing in the code is modelled
    here.

    Only a part of the syntax is read: words are apart by blanks, numbers are not
    calculated, strings have no backslash, and there are no comments. *)
From Coq Require Import Ascii QArith.
From stdpp Require Import prelude gmap strings.
From Verif Require Import DecModel LedgerTypes IsoModel NumText.
Local Open Scope nat_scope.

(** * Words *)
Inductive tok := Indent | Eol | Mark (c : ascii) | Quoted (s : string) | Word (s : string).
(** At the beginning of a line, between words, within a word, and within quotes. *)
Inductive place := Begin | Between | InWord (w : string) | InQuotes (t : string).

Definition newline_char : ascii := "010".
Definition is_mark (c : ascii) : bool := existsb (Ascii.eqb c) ["{"; "}"; ","]%char.
Definition no_word (c : ascii) : bool := existsb (Ascii.eqb c) [newline_char; " "; """"; "{"; "}"; ","; ";"]%char.
Definition ended (p : place) : list tok := match p with InWord w => [Word w] | _ => [] end.
Fixpoint words (p : place) (s : string) : option (list tok) :=
  match s with
  | EmptyString => match p with InQuotes _ => None | _ => Some (ended p) end
  | String c s' =>
      match p with
      | InQuotes t =>
          if Ascii.eqb c """" then cons (Quoted t) <$> words Between s'
          else if Ascii.eqb c "\" then None
          else words (InQuotes (t +:+ String c "")) s'
      | _ =>
          if Ascii.eqb c newline_char then (λ r, ended p ++ Eol :: r) <$> words Begin s'
          else if Ascii.eqb c " " then
            (λ r, ended p ++ match p with Begin => [Indent] | _ => [] end ++ r) <$> words Between s'
          else if Ascii.eqb c """" then app (ended p) <$> words (InQuotes "") s'
          else if is_mark c then (λ r, ended p ++ Mark c :: r) <$> words Between s'
          else if Ascii.eqb c ";" then None
          else words (InWord (match p with InWord w => w +:+ String c "" | _ => String c "" end)) s'
      end
  end.
(** The lines, without their ends. *)
Fixpoint lines (ts : list tok) : list (list tok) :=
  match ts with
  | [] => [[]]
  | Eol :: ts => [] :: lines ts
  | t :: ts => match lines ts with l :: ls => (t :: l) :: ls | [] => [[t]] end
  end.

(** * Names *)
Fixpoint has_char (P : ascii → bool) (s : string) : bool :=
  match s with EmptyString => false | String c s' => P c || has_char P s' end.
Definition upper (c : ascii) : bool := let n := N_of_ascii c in ((65 <=? n) && (n <=? 90))%N.
Definition lower (c : ascii) : bool := let n := N_of_ascii c in ((97 <=? n) && (n <=? 122))%N.
Definition beyond_ascii (c : ascii) : bool := (128 <=? N_of_ascii c)%N.
Fixpoint ends_in_colon (s : string) : bool :=
  match s with EmptyString => false | String c EmptyString => Ascii.eqb c ":" | String _ s' => ends_in_colon s' end.
(** [Assets:Bank]. *)
Definition is_account (w : string) : bool :=
  match w with String c _ => upper c || beyond_ascii c | EmptyString => false end &&
  has_char (Ascii.eqb ":") w && negb (ends_in_colon w).
(** [NZD]. *)
Definition is_currency (w : string) : bool :=
  match w with String c _ => upper c || Ascii.eqb c "/" | EmptyString => false end &&
  negb (has_char (Ascii.eqb ":") w) && negb (existsb (String.eqb w) ["TRUE"; "FALSE"; "NULL"]).
(** [#trip] or [^invoice-7]. *)
Definition labelled (p : ascii) (w : string) : option string :=
  match w with String c (String x s) => if Ascii.eqb c p then Some (String x s) else None | _ => None end.
(** [name:]. *)
Definition chop (w : string) : string := String.substring 0 (String.length w - 1) w.
Definition read_key (w : string) : option string :=
  match w with String c (String _ _) => if lower c && ends_in_colon w then Some (chop w) else None | _ => None end.
(** [*], [!] and so on; [txn] is as good as [*]. *)
Definition is_flag (w : string) : bool :=
  existsb (String.eqb w) ["*"; "!"; "&"; "#"; "?"; "%"] ||
  match w with String "'" (String c EmptyString) => upper c | _ => false end.

(** * Values *)
Definition read_value (w : string) : option meta_value :=
  match parse_date w, read_number w, labelled "#" w, labelled "^" w with
  | Some d, _, _, _ => Some (MVDate d)
  | None, Some n, _, _ => Some (MVNumber n)
  | None, None, Some t, _ => Some (MVTag t)
  | None, None, None, Some t => Some (MVLink t)
  | None, None, None, None =>
      if String.eqb w "TRUE" then Some (MVBool true)
      else if String.eqb w "FALSE" then Some (MVBool false)
      else if String.eqb w "NULL" then Some MVNull
      else if is_account w then Some (MVAccount w)
      else if is_currency w then Some (MVCurrency w)
      else None
  end.
(** One value after the other; a number and a currency are an amount. *)
Fixpoint read_values (ts : list tok) : option (list meta_value) :=
  match ts with
  | [] => Some []
  | Quoted s :: ts => cons (MVString s) <$> read_values ts
  | Word w :: ts =>
      v ← read_value w;
      match v, ts with
      | MVNumber n, Word c :: ts' =>
          if is_currency c then cons (MVAmount n c) <$> read_values ts' else cons v <$> read_values ts
      | _, _ => cons v <$> read_values ts
      end
  | _ => None
  end.
Definition read_meta (ts : list tok) : option meta_value :=
  match ts with
  | [] => Some MVNull
  | _ => match read_values ts with Some [v] => Some v | _ => None end
  end.

(** What may be there: it, if it is, and the rest. *)
Definition maybe_number (ts : list tok) : option dec * list tok :=
  match ts with
  | Word w :: r => match read_number w with Some n => (Some n, r) | None => (None, ts) end
  | _ => (None, ts)
  end.
Definition maybe_currency (ts : list tok) : option string * list tok :=
  match ts with Word w :: r => if is_currency w then (Some w, r) else (None, ts) | _ => (None, ts) end.
(** The number after a [#]. *)
Definition maybe_total (ts : list tok) : option dec * list tok :=
  match ts with
  | Word h :: Word w :: r =>
      match read_number w with Some n => if String.eqb h "#" then (Some n, r) else (None, ts) | None => (None, ts) end
  | _ => (None, ts)
  end.

(** * Costs and prices *)
Fixpoint until_close (ts : list tok) : option (list tok * list tok) :=
  match ts with
  | [] => None
  | Mark "}" :: r => Some ([], r)
  | t :: ts => x ← until_close ts; Some (t :: x.1, x.2)
  end.
(** What is between commas. *)
Fixpoint commas (ts : list tok) : list (list tok) :=
  match ts with
  | [] => [[]]
  | Mark "," :: ts => [] :: commas ts
  | t :: ts => match commas ts with l :: ls => (t :: l) :: ls | [] => [[t]] end
  end.
Definition no_cost : cost_spec := CostSpec None None None None None false.
(** A part of a cost, none of which may be there twice. *)
Definition cost_part (c : cost_spec) (ts : list tok) : option cost_spec :=
  let 'CostSpec u t cur d l m := c in
  let amount :=
    let '(u', r) := maybe_number ts in
    let '(t', r) := maybe_total r in
    let '(cur', r) := maybe_currency r in
    match u, t, cur, r with
    | None, None, None, [] => Some (CostSpec u' t' cur' d l m)
    | _, _, _, _ => None
    end in
  match ts with
  | [] => None
  | [Quoted s] => match l with None => Some (CostSpec u t cur d (Some s) m) | Some _ => None end
  | [Word w] =>
      if String.eqb w "*" then if m then None else Some (CostSpec u t cur d l true)
      else match parse_date w with
           | Some x => match d with None => Some (CostSpec u t cur (Some x) l m) | Some _ => None end
           | None => amount
           end
  | _ => amount
  end.
Fixpoint cost_parts (c : cost_spec) (l : list (list tok)) : option cost_spec :=
  match l with [] => Some c | ts :: l => c' ← cost_part c ts; cost_parts c' l end.
(** [{10.00 NZD, 2024-02-29, "lot"}]. *)
Definition maybe_cost (ts : list tok) : option (option cost_spec * list tok) :=
  match ts with
  | Mark "{" :: r =>
      x ← until_close r;
      c ← match x.1 with [] => Some no_cost | _ => cost_parts no_cost (commas x.1) end;
      Some (Some c, x.2)
  | _ => Some (None, ts)
  end.

Section Read.
(** Whether two forms are read which only limabean writes: a price for all units as
    [@ # 12.00 NZD] instead of [@@ 12.00 NZD], and a tolerance as [10 NZD ~ 0.01]
    instead of [10 ~ 0.01 NZD]. *)
Context (own : bool).

Definition maybe_price (ts : list tok) : option (option price_spec * list tok) :=
  match ts with
  | Word h :: r =>
      let '(u, r) := maybe_number r in
      let '(t, r) := match u with None => if own then maybe_total r else (None, r) | Some _ => (None, r) end in
      let '(c, r) := maybe_currency r in
      if String.eqb h "@" then Some (Some (PriceSpec u t c), r)
      else if String.eqb h "@@" then
        match u with Some _ => Some (Some (PriceSpec None u c), r) | None => None end
      else Some (None, ts)
  | _ => Some (None, ts)
  end.

(** * Lines below a directive *)
Inductive part := PTag (s : string) | PLink (s : string) | PMeta (k : string) (v : meta_value) | PPosting (q : posting_spec).
Definition read_posting (ts : list tok) : option posting_spec :=
  let '(f, r) := match ts with Word f :: r => if is_flag f then (Some f, r) else (None, ts) | _ => (None, ts) end in
  match r with
  | Word a :: r =>
      if is_account a then
        let '(u, r) := maybe_number r in
        let '(c, r) := maybe_currency r in
        x ← maybe_cost r;
        y ← maybe_price x.2;
        match y.2 with [] => Some (PostingSpec None f a u c x.1 y.1 None None None) | _ => None end
      else None
  | _ => None
  end.
Definition read_part (ts : list tok) : option part :=
  match ts with
  | Word w :: r =>
      match read_key w, labelled "#" w, labelled "^" w, r with
      | Some k, _, _, _ => PMeta k <$> read_meta r
      | None, Some t, _, [] => Some (PTag t)
      | None, None, Some t, [] => Some (PLink t)
      | None, None, None, _ => PPosting <$> read_posting ts
      | _, _, _, _ => None
      end
  | _ => None
  end.
(** What comes before the first posting, and each posting with what comes after it. *)
Fixpoint grouped (l : list part) : list part * list (posting_spec * list part) :=
  match l with
  | [] => ([], [])
  | PPosting q :: l => let '(ps, gs) := grouped l in ([], (q, ps) :: gs)
  | p :: l => let '(ps, gs) := grouped l in (p :: ps, gs)
  end.
Definition tags_of (l : list part) : list string := l ≫= λ p, match p with PTag s => [s] | _ => [] end.
Definition links_of (l : list part) : list string := l ≫= λ p, match p with PLink s => [s] | _ => [] end.
Definition metas_of (l : list part) : list (string * meta_value) := l ≫= λ p, match p with PMeta k v => [(k, v)] | _ => [] end.
Definition label_set (l : list string) : option (gset string) := match l with [] => None | _ => Some (list_to_set l) end.
(** A key may not be there twice. *)
Definition meta_map (l : list (string * meta_value)) : option (option (gmap string meta_value)) :=
  match l with
  | [] => Some None
  | _ => if bool_decide (NoDup l.*1) then Some (Some (list_to_map l)) else None
  end.
Definition with_parts (x : posting_spec * list part) : option posting_spec :=
  let '(PostingSpec s f a u c co pr _ _ _, l) := x in
  m ← meta_map (metas_of l);
  Some (PostingSpec s f a u c co pr (label_set (tags_of l)) (label_set (links_of l)) m).

(** * Directives *)
Definition quoted2 (ts : list tok) : option (string * string * list tok) :=
  match ts with Quoted a :: Quoted b :: r => Some (a, b, r) | _ => None end.
Fixpoint more_currencies (ts : list tok) : list string * list tok :=
  match ts with
  | Mark "," :: Word c :: r => let '(l, r) := more_currencies r in (c :: l, r)
  | _ => ([], ts)
  end.
Definition maybe_currencies (ts : list tok) : option (list string) * list tok :=
  match ts with
  | Word c :: r => if is_currency c then let '(l, r) := more_currencies r in (Some (c :: l), r) else (None, ts)
  | _ => (None, ts)
  end.
Definition booking_of (s : string) : option booking :=
  match s with
  | "STRICT" => Some BStrict | "STRICT_WITH_SIZE" => Some BStrictWithSize | "NONE" => Some BNone
  | "AVERAGE" => Some BAverage | "FIFO" => Some BFifo | "LIFO" => Some BLifo | "HIFO" => Some BHifo
  | _ => None
  end.
(** What follows the date, and the rest; a transaction has no postings yet. *)
Definition read_variant (k : string) (ts : list tok) : option (directive_variant * list tok) :=
  match k, ts with
  | "price", Word c :: Word n :: Word c' :: r =>
      if is_currency c && is_currency c' then n ← read_number n; Some (DPrice (PriceDct c (Price n None c')), r) else None
  | "balance", Word a :: Word n :: r =>
      n ← read_number n;
      if is_account a then
        match r with
        | Word c :: r =>
            if is_currency c then
              match r with
              | Word h :: Word t :: r' =>
                  if String.eqb h "~" then if own then t ← read_number t; Some (DBalance (Balance a n c (Some t)), r') else None
                  else Some (DBalance (Balance a n c None), r)
              | _ => Some (DBalance (Balance a n c None), r)
              end
            else
              match r with
              | Word t :: Word c' :: r =>
                  t ← read_number t;
                  if String.eqb c "~" && is_currency c' then Some (DBalance (Balance a n c' (Some t)), r) else None
              | _ => None
              end
        | _ => None
        end
      else None
  | "open", Word a :: r =>
      let '(cs, r) := maybe_currencies r in
      let '(b, r) := match r with Quoted b :: r => (Some b, r) | _ => (None, r) end in
      b ← match b with Some b => Some <$> booking_of b | None => Some None end;
      if is_account a && forallb is_currency (default [] cs) then Some (DOpen (Open a (list_to_set <$> cs) b), r) else None
  | "close", Word a :: r => if is_account a then Some (DClose a, r) else None
  | "commodity", Word c :: r => if is_currency c then Some (DCommodity c, r) else None
  | "pad", Word a :: Word b :: r => if is_account a && is_account b then Some (DPad (Pad a b), r) else None
  | "document", Word a :: Quoted s :: r => if is_account a then Some (DDocument a s, r) else None
  | "note", Word a :: Quoted s :: r => if is_account a then Some (DNote a s, r) else None
  | "event", _ => x ← quoted2 ts; Some (DEvent x.1.1 x.1.2, x.2)
  | "query", _ => x ← quoted2 ts; Some (DQuery x.1.1 x.1.2, x.2)
  | "custom", Quoted s :: r => vs ← read_values r; Some (DCustom (Custom s vs), [])
  | _, _ =>
      if is_flag k || String.eqb k "txn" then
        let f := if String.eqb k "txn" then "*" else k in
        match ts with
        | Quoted p :: Quoted n :: r => Some (DTransaction (Transaction f (Some p) (Some n) []), r)
        | Quoted n :: r => Some (DTransaction (Transaction f None (Some n) []), r)
        | _ => Some (DTransaction (Transaction f None None []), ts)
        end
      else None
  end.
Fixpoint read_labels (ts : list tok) : option (list part) :=
  match ts with
  | [] => Some []
  | Word w :: ts =>
      p ← match labelled "#" w with Some t => Some (PTag t) | None => PLink <$> labelled "^" w end;
      cons p <$> read_labels ts
  | _ => None
  end.
(** A line with a date and the lines below it. *)
Definition read_block (b : list tok * list (list tok)) : option directive :=
  match b.1 with
  | Word d :: Word k :: ts =>
      d ← parse_date d;
      x ← read_variant k ts;
      ls ← read_labels x.2;
      ps ← mapM read_part b.2;
      let '(own_parts, gs) := grouped ps in
      m ← meta_map (metas_of own_parts);
      v ← match x.1, gs with
          | DTransaction t, _ => qs ← mapM with_parts gs; Some (DTransaction (Transaction (tx_flag t) (tx_payee t) (tx_narration t) qs))
          | v, [] => Some v
          | _, _ => None
          end;
      Some (Directive None d (label_set (tags_of (ls ++ own_parts))) (label_set (links_of (ls ++ own_parts))) m v)
  | _ => None
  end.
(** Lines below come right after; the first component is for the directive above. *)
Fixpoint blocks (ls : list (list tok)) : option (list (list tok) * list (list tok * list (list tok))) :=
  match ls with
  | [] => Some ([], [])
  | l :: ls =>
      x ← blocks ls;
      match l, x.1 with
      | [], [] => Some ([], x.2)
      | [], _ => None
      | Indent :: l, _ => Some (l :: x.1, x.2)
      | l, _ => Some ([], (l, x.1) :: x.2)
      end
  end.
Definition read_ledger (text : string) : option (list directive) :=
  ts ← words Begin text;
  match blocks (lines ts) with
  | Some ([], bs) => mapM read_block bs
  | _ => None
  end.
End Read.
