(** A concrete server: a library which reads exactly the lines listed in
    [sample_lines], and a source map which keeps names and contents. *)
From Coq Require Import Ascii QArith.
From stdpp Require Import prelude gmap strings.
From Verif Require Import DecModel LedgerTypes IsoModel JsonModel WireModel WireSpec WireFacts BookModel BookLib SampleLib SampleLedgers
  WireSamples ParserModel JsonText ServerModel ServerSpec ServerFacts.
Local Open Scope nat_scope.

Notation sample_sources := (list (string * string)).

Definition sample_source_lib : source_lib sample_sources := SourceLib _
  (λ s sp, (λ nc, SpannedSource (Some nc.1) (span_start sp) (span_end sp) nc.2) <$> s !! span_source sp)
  (λ s n c, (s ++ [(n, c)], Span (length s) 0 (String.length c)))
  (λ s w r, if decide (span_source (wr_span r) < length s)
            then Some ((if w : bool then "warning: " else "error: ") +:+ wr_message r +:+ line_end) else None).

Definition sample_request (i : list (string * json)) (m : string) (params : list (string * json)) : json :=
  JObj ([("jsonrpc", JStr "2.0")] ++ i ++ [("method", JStr m)] ++ params).
Definition sample_id (n : Z) : list (string * json) := [("id", JNum (Dec n 0))].

Definition no_metadata : pmetadata := PMetadata [] [] [].
Definition parsed_posting (n : nat) (acc : string) (u : dec) : pposting :=
  PPosting (Span 0 n (n + 5)) None acc (Some u) (Some "USD") None None no_metadata.
(** A ledger whose second transaction uses an account which is not open. *)
Definition sample_parsed (good : bool) : parsed :=
  Parsed
    [ PDirective (Span 0 0 10) (day 1) no_metadata (PVOpen "Assets:Bank" ["USD"] (Some BFifo));
      PDirective (Span 0 11 20) (day 1) no_metadata (PVOpen "Equity:Opening" [] None);
      PDirective (Span 0 21 60) (day 2) (PMetadata ["trip"; "trip"] [] [("note", PMSimple (SVString "x")); ("note", PMAmount (Dec 5 1) "USD")])
        (PVTransaction FAsterisk (Some "Shop") None
          [parsed_posting 30 "Assets:Bank" (Dec 100 0);
           parsed_posting 40 (if good then "Equity:Opening" else "Equity:Closed") (Dec (-100) 0)]) ]
    (POptions "Assets" "Liabilities" "Equity" "Income" "Expenses" (Some "Sample") None None None None None None None None
       [(Some "USD", Dec 5 3); (None, Dec 1 2); (Some "USD", Dec 5 2)] None (Some true) ["doc"] ["USD"; "EUR"] None None (Some PMRaw))
    [PPlugin "limabean.beancount.plugins.auto_accounts" None].
Definition sample_perror : perror :=
  PError "invalid directive" "found date but expected account" (Span 0 7 8) [] [("open", Span 0 0 5)].
Definition sample_broken : health := Healthy (inr [sample_perror]).

Definition sample_report : wire_report := WireReport "oops" "because" (Span 0 1 2) None None (Some "| table |").
Definition req_status : json := sample_request (sample_id 7) "status" [].
Definition req_plugins : json := sample_request (sample_id 8) "parser.plugins" [].
Definition req_directives : json := sample_request [("id", JStr "abc")] "parser.directives" [].
Definition req_options : json := sample_request [] "parser.options" [].
Definition req_big : json := sample_request (sample_id 4294967296) "status" [].
Definition req_format : json := sample_request (sample_id 9) "parser.format-errors" [("params", JArr [put_report sample_report; put_report sample_report])].
Definition req_resolve : json := sample_request (sample_id 10) "parser.resolve-spans" [("params", JArr [put_span (Span 0 1 2); put_span (Span 0 3 4)])].
Definition req_lost : json := sample_request (sample_id 10) "parser.resolve-spans" [("params", JArr [put_span (Span 7 1 2)])].
Definition req_create : json := sample_request (sample_id 11) "parser.create-synthetic-spans"
  [("params", JArr [JObj [("name", JStr "a"); ("content", JStr "first")]; JObj [("content", JStr "second"); ("name", JStr "b")]])].
Definition req_book : json := sample_request (sample_id 12) "book" [].
Definition req_book_these (good : bool) : json := sample_request (sample_id 13) "book"
  [("params", JArr ((λ d, put_directive plain_order (from_directive d)) <$> pa_directives (sample_parsed good)))].
Definition req_old : json := JObj [("jsonrpc", JStr "1.0"); ("id", JNum (Dec 3 0)); ("method", JStr "status")].
Definition req_unknown : json := sample_request (sample_id 14) "shutdown" [].

Definition sample_trees : list json :=
  [req_status; req_plugins; req_directives; req_options; req_big; req_format; req_resolve; req_lost; req_create; req_book;
   req_book_these true; req_book_these false; req_old; req_unknown].
Definition line_of (j : json) : string := print_json j +:+ line_end.
Definition sample_lines : list (string * json) := (λ j, (line_of j, j)) <$> sample_trees.

Definition sample_env : server_env holding sample_sources := ServerEnv holding _
  (λ _, sample_lib) sample_source_lib
  (λ line, x ← list_find (λ x, x.1 = line) sample_lines; Some x.2.2)
  (λ _, "expected value") no_strings
  (λ z, Dec (z * 10) 1) (λ _, "table") (λ s, negb (String.eqb s (String "255" line_end))).

Definition sample_orders : orders holding := Orders _ sample_ord plain_order map_to_list.

Definition sample_start : sample_sources := [("main.beancount", "...")].
Definition ask (hl : health) (j : json) : sample_sources * reply := dispatch sample_env hl sample_orders sample_start (line_of j).
Definition good_health : health := Healthy (inl (sample_parsed true)).
Definition bad_health : health := Healthy (inl (sample_parsed false)).

Lemma sample_is_request (j : json) rq :
  env_parse sample_env (line_of j) = Some j → get_request sample_env j = Some rq →
  is_request sample_env (line_of j) j rq.
Proof. intros H1 H2. split; [done|]. by apply get_request_iff. Qed.

Lemma sample_ok : Forall ok_directive (from_directive <$> pa_directives (sample_parsed true)).
Proof.
  apply Forall_cons_2; [|apply Forall_cons_2; [|apply Forall_cons_2; [|apply Forall_nil_2]]].
  - split; [done|]. split; [done|]. split; [done|]. split; [done|]. split; [done|].
    intros x.
    intros Hx%elem_of_list_to_set. by apply elem_of_list_singleton in Hx as ->.
  - done.
  - split; [done|]. split; [|split; [done|split]].
    + intros x Hx. apply (elem_of_list_to_set x ["trip"; "trip"]) in Hx.
      by apply elem_of_cons in Hx as [->|Hx%elem_of_list_singleton]; [|subst].
    + intros k v Hk. vm_compute in Hk.
      change (({["note" := MVAmount (Dec 5 1) "USD"]} : gmap string meta_value) !! k = Some v) in Hk.
      by apply lookup_singleton_Some in Hk as [<- <-].
    + intros x Hx. apply elem_of_cons in Hx as [->|Hx]; [by vm_compute|]. apply elem_of_list_singleton in Hx as ->. by vm_compute.
Qed.
