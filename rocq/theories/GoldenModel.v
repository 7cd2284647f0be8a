(** Golden tests: [clj-test/src/limabean/test.clj] and
    [clj-test/src/limabean/test/create_golden.clj], with which the authors of plugins
    write down what is made of a ledger and later find out whether it is still the same. *)
From Coq Require Import Ascii QArith.
From stdpp Require Import prelude gmap strings.
From Verif Require Import DecModel LedgerTypes IsoModel JsonModel CljModel InventoryModel ClientModel FormatModel PluginModel LoaderModel PrintModel EdnModel.
Local Open Scope nat_scope.

(** * Finding tests *)

(** test.clj:31-33: what is known of a test. *)
Record golden_test := GoldenTest { gt_name : string; gt_beanfile : string; gt_dir : string }.
(** [str/ends-with?], test.clj:22-24. *)
Fixpoint ends_with (suf s : string) : bool :=
  String.eqb s suf || match s with EmptyString => false | String _ s' => ends_with suf s' end.
(** test.clj:26-28: [(str/replace path #".beancount$" "")].  The dot of the pattern is any
    character; one which ends a line is left out. *)
Fixpoint strip_beancount (s : string) : string :=
  match s with
  | EmptyString => EmptyString
  | String c s' => if String.eqb s' "beancount" then EmptyString else String c (strip_beancount s')
  end.
(** The path of [io/file], which has no slash at its end unless it is the root.  Slashes
    elsewhere are as they are in the path which [file-seq] gives, of which no two come
    together. (test.clj:26.) *)
Fixpoint no_last_slash (s : string) : string :=
  match s with
  | EmptyString => EmptyString
  | String c s' => if Ascii.eqb c "/" && String.eqb s' "" then EmptyString else String c (no_last_slash s')
  end.
Definition io_file (s : string) : string := if String.eqb s "/" then s else no_last_slash s.
(** test.clj:21-24. *)
Definition is_beanfile (path : string) : bool :=
  ends_with ".beancount" (file_name path) && negb (ends_with ".fyi.beancount" (file_name path)).
(** test.clj:25-33. *)
Definition test_for (path : string) : golden_test :=
  let base := io_file (strip_beancount path) in GoldenTest (file_name base) path (base +:+ ".golden").
(** test.clj:16-35 [find-golden-tests]: [files] are the paths which [file-seq] gives. *)
Definition find_golden_tests (exists_ : string → bool) (ignore_golden_dirs : bool) (files : list string) : list golden_test :=
  filter (λ t, ignore_golden_dirs || exists_ (gt_dir t)) (test_for <$> filter is_beanfile files).

(** * Values *)

(** A value of [ClientModel.v] as EDN; the keys of maps are keywords. (create_golden.clj:18, 25.) *)
Fixpoint of_cval (v : cval) : edn :=
  match v with
  | VNil | VThrow => ENil | VBool b => EBool b | VNum n => ENum n | VStr s => EStr s | VKw s => EKw s | VDate d => EDate d
  | VVec l => EVec (of_cval <$> l) | VSet l => ESet (of_cval <$> l)
  | VMap fs => EMap ((λ kv, (EKw kv.1, of_cval kv.2)) <$> fs)
  end.
(** What the tests look at of what [load-beanfile] returns, test.clj:100 and
    create_golden.clj:18-30. *)
Record beans := Beans { be_raw_xf : option edn; be_booked_xf : option edn; be_directives : option edn; be_error : option edn }.
(** [err]: the error as a value. *)
Definition beans_of (err : load_error → edn) (m : loaded) : beans :=
  let ds l := (λ l, EVec (of_cval <$> l)) <$> l in
  Beans (ds (l_raw_xf m)) (ds (l_booked_xf m)) (ds (l_directives m)) (err <$> l_error m).
(** [(get actual key)]; of no beans it is [nil]. (test.clj:111.) *)
Definition get_key (b : option beans) (key : string) : edn :=
  default ENil (b ← b;
    if String.eqb key "raw-xf-directives" then be_raw_xf b
    else if String.eqb key "directives" then be_directives b
    else if String.eqb key "error" then be_error b else None).

(** The files there are, by their paths. *)
Notation files := (gmap string string).
(** [(io/file dir name)]. (test.clj:76, 101.) *)
Definition in_dir (dir name : string) : string := dir +:+ "/" +:+ name.

(** * Testing *)
Section Test.
(** [matcho/assert] of the pattern, every part of which is strict, and the value. *)
Context (strict_match : edn → edn → bool).
(** test.clj:101-111, for one key.  Text which is not EDN throws. *)
Definition api_check (fs : files) (t : golden_test) (b : option beans) (key : string) : bool :=
  match fs !! in_dir (gt_dir t) (key +:+ ".edn") with
  | None => true
  | Some text => match edn_read text with None => false | Some p => strict_match p (get_key b key) end
  end.
(** test.clj:88-111 [api-tests], for one test; [None] is a ledger of which there was an
    exception.  The ledger is loaded if there is anything to compare. *)
Definition api_test (fs : files) (t : golden_test) (b : option beans) : bool :=
  forallb (api_check fs t b) ["raw-xf-directives"; "directives"; "error"].
(** test.clj:88-111: all the tests below a directory. *)
Definition api_tests (fs : files) (ts : list golden_test) (load : string → option beans) : bool :=
  forallb (λ t, api_test fs t (load (gt_beanfile t))) ts.
End Test.

(** test.clj:77-79. *)
Definition query_expr (query : string) : string :=
  if String.eqb query "rollup" then "(show (rollup (inventory)))" else "(show (" +:+ query +:+ "))".
(** test.clj:70-86 [app-tests], for one test.  [run beanfile expr] is what [app/run]
    writes to the standard output; [None] if there is an exception, with which the program
    ends.  [diff] of two files finds nothing if they are the same. (test.clj:45-68.) *)
Definition app_test (fs : files) (t : golden_test) (run : string → string → option string) : bool :=
  forallb (λ q, match fs !! in_dir (gt_dir t) q with
                | None => true
                | Some text => match run (gt_beanfile t) (query_expr q) with None => false | Some s => String.eqb s text end
                end) ["inventory"; "rollup"; "journal"].

(** * Writing what is expected *)
Section Create.
(** [zprint] of a value; [print] of directives; what [show] prints of a query. *)
Context (zprint : edn → string) (print : edn → string) (shown : string → beans → string).
(** create_golden.clj:16-40 [OUTPUTS]: the name of the file, its text, the file for
    information with its text, and whether it is required if it is there or not. *)
Record output := Output {
  o_file : string; o_text : beans → string; o_fyi : option (string * (beans → string)); o_required : beans → bool → bool }.
Definition OUTPUTS : list output :=
  [Output "directives.edn" (λ b, zprint (default ENil (be_directives b)))
     (Some ("directives.fyi.beancount", λ b, print (default ENil (be_directives b))))
     (λ b there, bool_decide (is_Some (be_booked_xf b)) || there);
   Output "raw-xf-directives.edn" (λ b, zprint (default ENil (be_raw_xf b)))
     (Some ("raw-xf-directives.fyi.beancount", λ b, print (default ENil (be_raw_xf b))))
     (λ b there, bool_decide (is_Some (be_raw_xf b)) || there);
   Output "inventory" (shown "inventory") None (λ _ there, there);
   Output "rollup" (shown "rollup") None (λ _ there, there);
   Output "journal" (shown "journal") None (λ _ there, there)].
(** create_golden.clj:66-82, for one of the outputs. *)
Definition write_output (dir : string) (b : beans) (fs : files) (o : output) : files :=
  if o_required o b (bool_decide (is_Some (fs !! in_dir dir (o_file o)))) then
    let fs := <[in_dir dir (o_file o) := o_text o b]> fs in
    match o_fyi o with Some (name, f) => <[in_dir dir name := f b]> fs | None => fs end
  else fs.
(** create_golden.clj:62-88, for one test; making the directory is left out. *)
Definition update_test (fs : files) (t : golden_test) (b : beans) : files :=
  match be_error b with
  | None => foldl (write_output (gt_dir t) b) fs OUTPUTS
  | Some e => <[in_dir (gt_dir t) "error.edn" := zprint e]> fs
  end.
(** create_golden.clj:56-89 [update-all]: an exception of [load-beanfile] ends it, and then
    the second part is [false]. *)
Fixpoint update_all (fs : files) (ts : list golden_test) (load : string → option beans) : files * bool :=
  match ts with
  | [] => (fs, true)
  | t :: ts =>
      match load (gt_beanfile t) with
      | None => (fs, false)
      | Some b => update_all (update_test fs t b) ts load
      end
  end.
End Create.
