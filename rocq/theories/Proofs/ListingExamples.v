(** A program used in the examples of C109. *)
From Coq Require Import NArith Lia.
From Verif.Spec Require Import TextSpec FilterSpec PrintSpec EscapeSpec RunSpec TreeSpec Events NumberSpec SessionSpec ProgramSpec XmlSpec ServiceSpec CutSpec CutServiceSpec CutXmlSpec CliSpec ListingSpec.
From Verif.Model Require Import Base Vector StringUtil Integer Print Filter Run Cli File Session Reporters Program.
From Verif.Spec Require Import ProgramClaims LinkClaims ListingClaims.
From Verif.Proofs Require Import Lists CliProofs CliFacts ReportExamples ProgramFacts LinkProofs LinkExamples CutExamples CutReportExamples.
Local Open Scope string_scope.
Local Open Scope list_scope.
Local Open Scope nat_scope.

(** A test whose name is too long, a hidden one, and one without anything special. *)
Definition hidden_test : test_case := mktest (mkid (quote "h") (quote "[.][y]") (quote "int") (quote "F<G>")) 3 Nil.
Definition plain_test : test_case := mktest (mkid (quote "p") (quote "[y]") [] []) 5 Nil.
Definition three_tests : registry := with_order [odd_test; hidden_test; plain_test].
Definition three_others : registry :=
  with_order (map (fun t => mktest (t_id t) (t_line t) (Check 1 (IsTrue (fun _ => Message (quote "m")) (fun _ => false)) false Nil Nil)) (g_tests three_tests)).
Definition texts (l : list text) : text := flat_map (fun s => s ++ [ascii_of_nat 10]) l.
Definition listings : list (list string * text) :=
  let long := quote "  " ++ many "n" 30 ++ quote "&[nnnnnnnn" in
  [(["--list-tests"], texts [quote "Matching test cases:"; long; quote "  h <int>"; quote "      [.][y]"; quote "  p"; quote "      [y]"; quote "3 matching test cases"]);
   (["--list-tests"; "~[z]"], texts [quote "Matching test cases:"; long; quote "  p"; quote "      [y]"; quote "2 matching test cases"]);
   (["-l"; "--list-tests-with-tag"; "[y]"; "--list-tags"; "p"], texts [quote "Matching test cases:"; quote "  h <int>"; quote "      [.][y]"; quote "  p"; quote "      [y]"; quote "2 matching test cases"]);
   (["--list-tests"; "--reporter"; "teamcity"], texts [many "n" 30 ++ quote "&|[..."; quote "h <int>"; quote "p"]);
   (["--list-tests"; "--reporter"; "xml"; "[y]"; "-o"; "f"], texts
      [quote "<?xml version=""1.0"" encoding=""UTF-8""?>"; quote "<MatchingTests>";
       quote "  <TestCase>"; quote "    <Name>h &lt;int&gt;</Name>"; quote "    <ClassName>F&lt;G&gt;</ClassName>"; quote "    <Tags>[.][y]</Tags>";
       quote "    <SourceInfo>"; quote "      <File>f</File>"; quote "      <Line>3</Line>"; quote "    </SourceInfo>"; quote "  </TestCase>";
       quote "  <TestCase>"; quote "    <Name>p</Name>"; quote "    <ClassName/>"; quote "    <Tags>[y]</Tags>";
       quote "    <SourceInfo>"; quote "      <File>f</File>"; quote "      <Line>5</Line>"; quote "    </SourceInfo>"; quote "  </TestCase>";
       quote "</MatchingTests>"])].

Definition asks_for_list (argv : list string) : Prop := acceptable (map quote argv) /\ asks_list (setting (read (map quote argv))) /\ length (map quote argv) <= l_max_command_line_args small.

Ltac lists_tac := split; [split; [vm_compute; intuition discriminate|vm_compute; repeat constructor; cbn; intuition discriminate]|split; [|cbn; lia]];
  split; [vm_compute; reflexivity|].
Lemma listing_example :
  g_to_file three_tests = false /\ Forall (fun x => asks_for_list (fst x) /\ said_by three_tests (fst x) = Some (snd x)) listings /\
  console_asked small at_file untimed three_tests (map quote ["--list-tests"; "~[z]"]) /\
  reporter_asked (teamcity_reporter small at_file untimed) three_tests (map quote ["--list-tests"; "--reporter"; "teamcity"]) /\
  reporter_asked (xml_reporter small at_file untimed) three_tests (map quote ["--list-tests"; "--reporter"; "xml"; "[y]"; "-o"; "f"]).
Proof.
  split; [reflexivity|]. split; [|split; [|split]].
  - unfold listings. cbv zeta. assert (NO : forall argv, (forallb (fun n => match setting (read (map quote argv)) n with None => true | Some _ => false end) actions = true) ->
      forall n, In n actions -> setting (read (map quote argv)) n = None).
    { intros argv H n I. rewrite forallb_forall in H. specialize (H n I). now destruct (setting (read (map quote argv)) n). }
    repeat (apply Forall_cons || apply Forall_nil); (split; [|vm_compute; reflexivity]); cbn [fst].
    + lists_tac. right. split; [apply NO; vm_compute; reflexivity|vm_compute; discriminate].
    + lists_tac. right. split; [apply NO; vm_compute; reflexivity|vm_compute; discriminate].
    + lists_tac. left. vm_compute. discriminate.
    + lists_tac. right. split; [apply NO; vm_compute; reflexivity|vm_compute; discriminate].
    + lists_tac. right. split; [apply NO; vm_compute; reflexivity|vm_compute; discriminate].
  - left. split; vm_compute; reflexivity.
  - exists (quote "teamcity"), 2. split; [vm_compute; reflexivity|]. split; [left; reflexivity|]. apply first_of; [reflexivity|vm_compute; reflexivity].
  - exists (quote "xml"), 1. split; [vm_compute; reflexivity|]. split; [left; reflexivity|]. apply first_of; [reflexivity|vm_compute; reflexivity].
Qed.
Lemma bodies_example :
  same_but_bodies three_tests three_others /\ ~ asks_run (setting (read (map quote ["--list-tests"]))) /\
  said_by three_others ["--list-tests"] = said_by three_tests ["--list-tests"] /\ said_by three_others ["-v"; "quiet"] <> said_by three_tests ["-v"; "quiet"].
Proof.
  split; [split; [repeat split|reflexivity]|]. split; [|split].
  - intros H. specialize (H (quote "--list-tests") (or_introl eq_refl)). vm_compute in H. discriminate.
  - vm_compute. reflexivity.
  - intros H. apply (f_equal (option_map (@length _))) in H. vm_compute in H. discriminate.
Qed.

(** Sections nested deeper than the limit. *)
Fixpoint deep (n : nat) : prog := match n with 0 => Nil | S n => InSection (in_test n) (deep n) Nil end.
Definition too_deep : registry := with_order [mktest (t_id hidden_test) 3 (deep 9); mktest (t_id plain_test) 5 (deep 9)].
Lemma completes_example :
  g_tests too_deep = map fst [(mktest (t_id hidden_test) 3 (deep 9), [quote "."; quote "y"]); (mktest (t_id plain_test) 5 (deep 9), [quote "y"])] /\
  Forall (fun x => id_tags (t_id (fst x)) = tag_string (snd x) /\ well_formed (l_max_tag_length small) (snd x) /\
                   length (full_name_of (id_name (t_id (fst x))) (id_type (t_id (fst x)))) <= l_max_test_name_length small)
    [(mktest (t_id hidden_test) 3 (deep 9), [quote "."; quote "y"]); (mktest (t_id plain_test) 5 (deep 9), [quote "y"])] /\
  listable small (map quote ["-l"; "[y]"]) [(mktest (t_id hidden_test) 3 (deep 9), [quote "."; quote "y"]); (mktest (t_id plain_test) 5 (deep 9), [quote "y"])] /\
  ~ asks_run (setting (read (map quote ["-l"; "[y]"]))) /\
  said_by too_deep ["[y]"] = None /\
  said_by too_deep ["-l"; "[y]"] = Some (texts [quote "Matching test cases:"; quote "  h <int>"; quote "      [.][y]"; quote "  p"; quote "      [y]"; quote "2 matching test cases"]).
Proof.
  split; [reflexivity|]. split; [|split; [left; vm_compute; reflexivity|split; [|split; vm_compute; reflexivity]]].
  - repeat (apply Forall_cons || apply Forall_nil); (split; [reflexivity|split; [|vm_compute; repeat constructor]]);
      unfold well_formed; repeat (apply Forall_cons || apply Forall_nil); repeat split; cbn; try lia; try intuition discriminate.
  - intros H. specialize (H (quote "--list-tests") (or_introl eq_refl)). vm_compute in H. discriminate.
Qed.
