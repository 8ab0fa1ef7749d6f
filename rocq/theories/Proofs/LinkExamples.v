(** Programs used in the examples and counterexamples of C103. *)
From Coq Require Import Permutation Lia.
From Verif.Spec Require Import TextSpec FilterSpec PrintSpec CliSpec Events VerdictSpec TreeSpec SessionSpec ProgramSpec.
From Verif.Model Require Import Base Vector StringUtil Print Filter Run Cli File Session Reporters Program.
From Verif.Spec Require Import ProgramClaims LinkClaims.
From Verif.Proofs Require Import Lists ReportExamples ProgramFacts LinkProofs.
Local Open Scope string_scope.
Local Open Scope list_scope.
Local Open Scope nat_scope.

Definition with_order (tests : list test_case) : registry := with_tests tests library.
Definition backwards : registry := with_order (rev (g_tests library)).
Definition orders_tried : list (list string) := [["-v"; "high"]; ["--reporter"; "teamcity"]; ["--reporter"; "xml"; "-o"; "f"]].
Definition said_by (r : registry) (argv : list string) : option text :=
  match main_program small 5 at_file untimed (fun _ => true) r (quote "./demo") (map quote argv) with
  | Ok (out, _) => Some (console_text out ++ file_text out)
  | Err _ => None
  end.

Lemma reordered tests tests' : Permutation tests tests' -> relinked (with_order tests) (with_order tests').
Proof. intros P. split; [exact P|]. repeat split. Qed.

Lemma first_of i p : nth_error (g_reporters library) i = Some p -> forallb (fun q => negb (seqb (r_name q) (r_name p))) (firstn i (g_reporters library)) = true ->
  first_named (g_reporters library) i p.
Proof.
  intros N F. split; [exact N|]. intros j q L E. rewrite forallb_forall in F. specialize (F q).
  assert (I : In q (firstn i (g_reporters library))).
  { rewrite <- (firstn_skipn i (g_reporters library)) in E. rewrite nth_error_app1 in E; [now apply nth_error_In in E|]. rewrite firstn_length.
    assert (i < length (g_reporters library)) by (apply nth_error_Some; congruence). lia. }
  specialize (F I). intros K. rewrite K, (proj2 (seqb_eq _ _) eq_refl) in F. discriminate.
Qed.

Definition tagged (name tags : string) : test_case := mktest (mkid (quote name) (quote tags) [] []) 1 Nil.
Lemma tags_depend_on_order :
  exists (lm : Session.limits) (r r' : registry) (argv : list text), relinked r r' /\
  Forall (fun t => exists tags, id_tags (t_id t) = tag_string tags /\ well_formed (l_max_tag_length lm) tags) (g_tests r) /\
  forall fuel can_open, (exists out, main lm fuel can_open r (quote "demo") argv = Ok (out, 0)) /\ main lm fuel can_open r' (quote "demo") argv = Err UB.
Proof.
  exists small, (with_order [tagged "t" "[a][b]"; tagged "u" "[.b]"]), (with_order [tagged "u" "[.b]"; tagged "t" "[a][b]"]), [quote "--list-tags"].
  split; [apply reordered, perm_swap|]. split.
  - constructor; [|constructor; [|constructor]]; [exists [quote "a"; quote "b"]|exists [quote ".b"]]; (split; [reflexivity|]); unfold well_formed; repeat (apply Forall_cons || apply Forall_nil); repeat split; cbn; try lia; try intuition discriminate.
  - intros fuel can_open. split; [|vm_compute; reflexivity]. eexists. vm_compute. reflexivity.
Qed.

Lemma xml_depends_on_order :
  exists (lm : Session.limits) (fuel : nat) (file : event -> text) (duration : event -> option text) (can_open : text -> bool)
    (r r' : registry) (argv : list text) (out out' : list output) (code : nat),
  relinked r r' /\ reporter_asked (xml_reporter lm file duration) r argv /\
  main_program lm fuel file duration can_open r (quote "demo") argv = Ok (out, code) /\
  main_program lm fuel file duration can_open r' (quote "demo") argv = Ok (out', code) /\
  length (console_text out) <> length (console_text out').
Proof.
  set (a := [failing_test; test "m" 9 Nil]). set (b := [test "m" 9 Nil; failing_test]). set (argv := map quote ["--reporter"; "xml"]).
  set (go := fun l => main_program small 5 at_file untimed (fun _ => true) (with_order l) (quote "demo") argv).
  assert (K : match go a, go b with Ok (o, c), Ok (o', c') => c =? c' | _, _ => false end = true) by (vm_compute; reflexivity).
  assert (M : match go a, go b with Ok (o, c), Ok (o', c') => length (console_text o) =? length (console_text o') | _, _ => true end = false) by (vm_compute; reflexivity).
  exists small, 5, at_file, untimed, (fun _ => true), (with_order a), (with_order b), argv.
  destruct (go a) as [[o c]|] eqn:A; [|discriminate]. destruct (go b) as [[o' c']|] eqn:B; [|discriminate]. apply Nat.eqb_eq in K. apply Nat.eqb_neq in M. subst c'.
  exists o, o', c. split; [apply reordered, perm_swap|]. split; [|auto].
  exists (quote "xml"), 1. split; [vm_compute; reflexivity|]. split; [left; reflexivity|apply first_of; [reflexivity|vm_compute; reflexivity]].
Qed.

Lemma orders_example :
  relinked library backwards /\ Forall (ends_sections small 5) (g_tests library) /\
  Forall (fun t => exists tags, id_tags (t_id t) = tag_string tags /\ well_formed (l_max_tag_length small) tags) (g_tests library) /\
  Forall (fun argv => asks argv /\ length (map quote argv) <= l_max_command_line_args small) orders_tried /\
  console_asked small at_file untimed library (map quote ["-v"; "high"]) /\
  reporter_asked (teamcity_reporter small at_file untimed) library (map quote ["--reporter"; "teamcity"]) /\
  reporter_asked (xml_reporter small at_file untimed) library (map quote ["--reporter"; "xml"; "-o"; "f"]) /\
  Forall (fun argv => exists a b, said_by library argv = Some a /\ said_by backwards argv = Some b /\ a <> b /\ length a = length b /\ 100 <= length a) orders_tried /\
  said_by library ["--list-tags"] = said_by backwards ["--list-tags"] /\ said_by library ["--list-tags"] <> None.
Proof.
  split; [|split; [|split; [|split; [|split; [|split; [|split; [|split; [|split]]]]]]]].
  - split; [apply Permutation_rev|repeat split].
  - assert (X : forall t, match run (config_of small Full) 5 t [] with Ok s => starts_in (fun _ => true) (brackets (trace s)) =? ends_in (fun _ => true) (brackets (trace s)) | Err _ => true end = true -> ends_sections small 5 t).
    { intros t E st R. rewrite R in E. now apply Nat.eqb_eq. }
    repeat (apply Forall_cons || apply Forall_nil); apply X; vm_compute; reflexivity.
  - repeat (apply Forall_cons || apply Forall_nil); [exists []|exists [quote "x"]|exists []]; (split; [reflexivity|]); unfold well_formed; repeat (apply Forall_cons || apply Forall_nil); repeat split; cbn; try lia; try intuition discriminate.
  - repeat (apply Forall_cons || apply Forall_nil); (split; [asks_tac|cbn; lia]).
  - left. split; vm_compute; reflexivity.
  - exists (quote "teamcity"), 2. split; [vm_compute; reflexivity|]. split; [left; reflexivity|apply first_of; [reflexivity|vm_compute; reflexivity]].
  - exists (quote "xml"), 1. split; [vm_compute; reflexivity|]. split; [left; reflexivity|apply first_of; [reflexivity|vm_compute; reflexivity]].
  - assert (X : forall argv, match said_by library argv, said_by backwards argv with Some a, Some b => negb (seqb a b) && (length a =? length b) && (100 <=? length a) | _, _ => false end = true ->
      exists a b, said_by library argv = Some a /\ said_by backwards argv = Some b /\ a <> b /\ length a = length b /\ 100 <= length a).
    { intros argv H. destruct (said_by library argv) as [a|]; [|discriminate]. destruct (said_by backwards argv) as [b|]; [|discriminate].
      apply andb_true_iff in H as [H H3]. apply andb_true_iff in H as [H1 H2]. apply Nat.eqb_eq in H2. apply Nat.leb_le in H3. exists a, b. repeat split; auto.
      intros ->. rewrite (proj2 (seqb_eq b b) eq_refl) in H1. discriminate. }
    repeat (apply Forall_cons || apply Forall_nil); apply X; vm_compute; reflexivity.
  - vm_compute. reflexivity.
  - vm_compute. discriminate.
Qed.
