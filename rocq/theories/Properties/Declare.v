(** Properties C68-C70: names of types, declarations of test cases, filters that select one test. *)
From Coq Require Import Lia.
From Verif.Spec Require Import TextSpec FilterSpec Events VerdictSpec SessionSpec ProgramSpec CliSpec DeclareSpec.
From Verif.Model Require Import Base Vector StringUtil Filter Run Session Program Declare.
From Verif.Proofs Require Import DeclareProofs AloneProofs.
Local Open Scope string_scope.
Local Open Scope list_scope.
Local Open Scope nat_scope.

(** ** C68. Names of types *)

(** [type_name<T>] is the compiler's spelling of T, if and only if it does not contain the text that is taken to be the
    end of the type (["]"] with Clang, ["; "] with GCC, [">(void)"] with MSVC); otherwise it is what comes before it.
    Nothing wraps around. *)
Theorem C68_partial :
  forall (c : compiler) (type : text),
  (type_name c type = Ok type <-> ~ occurs (ender c) type) /\
  (forall a b, type = a ++ ender c ++ b -> first_at (ender c) a -> type_name c type = Ok a).
Proof. exact type_names. Qed.
Print Assumptions C68_partial.

(** So the full claim is false, for example for arrays with Clang, types local to function templates with GCC, and
    types of functions with MSVC. Different types may even get the same name. *)
Theorem C68_refuted :
  forall c, exists type type', type <> type' /\ type_name c type <> Ok type /\ type_name c type = type_name c type'.
Proof. exact type_names_refuted. Qed.
Print Assumptions C68_refuted.

Example C68_example :
  map (fun c => type_name c (quote "std::pair<int, char>")) [Clang; Gcc; Msvc] = repeat (Ok (quote "std::pair<int, char>")) 3 /\
  type_name Clang (quote "int[3]") = Ok (quote "int[3") /\
  type_name Gcc (quote "f() [with T = int; U = char]::local") = Ok (quote "f() [with T = int") /\
  type_name Msvc (quote "class vec<int>(void)") = Ok (quote "class vec<int").
Proof. repeat split; vm_compute; reflexivity. Qed.

(** ** C69. Declarations *)

(** The tests of a program are those declared ([instances]), in the order of the declarations and of the types, each with
    its name, tags, type, fixture, location and body. If there are too many, or the full name of one is empty or too
    long, the program stops at start. *)
Theorem C69_declarations :
  forall (c : compiler) (max_tests max_name : nat) (ds : list (declaration prog)), Forall (declarable c) ds ->
  let l := flat_map instances ds in
  let accepted := length l <= max_tests /\ Forall (fun i => 1 <= length (full_name_of (i_name i) (i_type i)) <= max_name) l in
  (accepted ->
   declare_all c max_tests max_name [] ds =
     Ok (map (fun i => mktest (mkid (i_name i) (i_tags i) (i_type i) (i_fixture i)) (i_line i) (i_body i)) l)) /\
  (~ accepted -> declare_all c max_tests max_name [] ds = Err Assert).
Proof. exact declared. Qed.
Print Assumptions C69_declarations.

Definition example_declarations : list (declaration prog) :=
  [TestCase (quote "a") (quote "[x]") 1 (Act 1 Nil);
   TemplateTestCase (quote "b") [] [quote "int"; quote "std::pair<int, char>"] 2 (fun t => Act (length t) Nil);
   TestCaseMethod (quote "fix") (quote "c") (quote "[.]") 3 Nil;
   TemplateListTestCaseMethod (quote "tfix") (quote "d") [] (quote "std::tuple") [quote "int"] 4 (fun t => Nil)].
Example C69_example :
  Forall (declarable Gcc) example_declarations /\
  declare_all Gcc 5 30 [] example_declarations =
    Ok [mktest (mkid (quote "a") (quote "[x]") [] []) 1 (Act 1 Nil); mktest (mkid (quote "b") [] (quote "int") []) 2 (Act 3 Nil);
        mktest (mkid (quote "b") [] (quote "std::pair<int, char>") []) 2 (Act 20 Nil);
        mktest (mkid (quote "c") (quote "[.]") [] (quote "fix")) 3 Nil; mktest (mkid (quote "d") [] (quote "int") (quote "tfix")) 4 Nil] /\
  declare_all Gcc 4 30 [] example_declarations = Err Assert /\ declare_all Gcc 5 20 [] example_declarations = Err Assert.
Proof.
  split; [|repeat split; vm_compute; reflexivity].
  assert (A : forall t, find t (ender Gcc) = None -> ~ occurs (ender Gcc) t) by exact (fun t => ReplaceProofs.find_none_occurs t _).
  repeat constructor; cbn in *; try congruence; intros; injection H as <-; repeat constructor; try discriminate; apply A; vm_compute; reflexivity.
Qed.

(** ** C70. Every test can be run alone *)

(** The full name of a test, with a backslash before each special character, is a filter that selects exactly the tests
    with this full name, hidden ones included. *)
Theorem C70_filter :
  forall (name s : text) (tags : list text), s <> [] -> (selected name tags [escaped s] <-> name = s).
Proof. exact (fun name s tags => escaped_selects name tags s). Qed.
Print Assumptions C70_filter.

(** On a command line it is a filter, not an option. *)
Theorem C70_argument :
  forall (s : text) (rest : list text), s <> [] -> read (escaped s :: rest) = Filtering (escaped s) :: read rest.
Proof. exact escaped_argument. Qed.
Print Assumptions C70_argument.

(** So a program with this as only filter runs these tests and no other. *)
Theorem C70_runs :
  forall (lm : Session.limits) (fuel : nat) (can_open : text -> bool) (r : registry) (path : text) (argv : list text) (out : list output) (code : nat)
    (s : text) (tagged_tests : list (test_case * list text)),
  length argv <= l_max_command_line_args lm -> acceptable argv -> asks_run (setting (read argv)) ->
  setting (read argv) (quote "--reporter") = None -> filters (read argv) = [escaped s] -> s <> [] ->
  vlevel High <= vlevel (asked_verbosity (setting (read argv) (quote "--verbosity")) (g_verbose r)) ->
  g_tests r = map fst tagged_tests ->
  Forall (fun x => id_tags (t_id (fst x)) = tag_string (snd x) /\ well_formed (l_max_tag_length lm) (snd x) /\
                   length (full_name_of (id_name (t_id (fst x))) (id_type (t_id (fst x)))) <= l_max_test_name_length lm) tagged_tests ->
  main lm fuel can_open r path argv = Ok (out, code) ->
  let run := filter (fun t => same_text (full_name_of (id_name (t_id t)) (id_type (t_id t))) s) (g_tests r) in
  started (events_of out) = map (fun t => (t_id t, t_line t)) run /\ map (fun x => fst (fst x)) (ended (events_of out)) = map t_id run.
Proof. exact runs_alone. Qed.
Print Assumptions C70_runs.

Definition example_limits : Session.limits := mklimits 5 5 40 60 20 40 8 32 3 12 false (lit "1.2").
Definition started_lines (tests : list test_case) (argv : list text) : res (list nat) :=
  do (out, _) <- main example_limits 5 (fun _ => true) (mkregistry tests [] Normal false None None false Vacant) (quote "p") argv ;;
  Ok (map snd (started (events_of out))).
Example C70_example :
  escaped (quote "a[0], ~b* <-\>") = quote "a\[0\]\, \~b\* <\-\\>" /\
  (do tests <- declare_all Gcc 5 30 [] example_declarations ;; started_lines tests [quote "-v"; quote "high"; escaped (quote "b <std::pair<int, char>>")]) = Ok [2] /\
  (do tests <- declare_all Gcc 5 30 [] example_declarations ;; started_lines tests [quote "-v"; quote "high"; quote "b <std::pair<int, char>>"]) = Ok [] /\
  (do tests <- declare_all Gcc 5 30 [] example_declarations ;; started_lines tests [escaped (quote "c"); quote "-v"; quote "high"]) = Ok [3].
Proof. repeat split; vm_compute; reflexivity. Qed.
