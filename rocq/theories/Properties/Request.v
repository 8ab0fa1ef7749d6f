(** Property C89: command lines that ask for the same thing. *)
From Coq Require Import Permutation.
From Verif.Spec Require Import TextSpec FilterSpec PrintSpec CliSpec Events SessionSpec ColourSpec HelpSpec ConsoleSpec RequestSpec.
From Verif.Model Require Import Base Vector StringUtil Print Filter Run Cli File Session Reporters Program.
From Verif.Proofs Require Import ReportExamples ProgramFacts CliProofs RequestProofs.
Local Open Scope string_scope.
Local Open Scope list_scope.
Local Open Scope nat_scope.

(** C89. What a program does depends only on the values of the options and on the filters: two command lines that ask for
    the same thing ([same_request], Spec/RequestSpec.v) print the same, and exit with the same status. *)
Theorem C89_same :
  forall (lm : Session.limits) (fuel : nat) (file : event -> text) (duration : event -> option text) (can_open : text -> bool)
    (r : registry) (path : text) (argv argv' : list text),
  length argv <= l_max_command_line_args lm -> length argv' <= l_max_command_line_args lm ->
  acceptable argv -> acceptable argv' -> same_request argv argv' -> unknown (read argv) = unknown (read argv') ->
  main_program lm fuel file duration can_open r path argv = main_program lm fuel file duration can_open r path argv'.
Proof. exact same_requests. Qed.
Print Assumptions C89_same.

(** Options that are not supported change nothing but the warnings at the start, one for each. *)
Theorem C89_unknown :
  forall (lm : Session.limits) (fuel : nat) (file : event -> text) (duration : event -> option text) (can_open : text -> bool)
    (r : registry) (path : text) (argv argv' : list text),
  length argv <= l_max_command_line_args lm -> length argv' <= l_max_command_line_args lm ->
  acceptable argv -> acceptable argv' -> same_request argv argv' ->
  exists messages messages' rest,
    let color := message_colours (setting (read argv)) (l_default_with_color lm) in
    let warns arg message := length (spoken (painted color) (UnknownOption arg)) <= l_max_message_length lm -> message = spoken (painted color) (UnknownOption arg) in
    Forall2 warns (unknown (read argv)) messages /\ Forall2 warns (unknown (read argv')) messages' /\
    (unknown (read argv) = unknown (read argv') -> messages = messages') /\
    main_program lm fuel file duration can_open r path argv =
      match rest with Ok (l, code) => Ok (map Printed messages ++ l, code) | Err e => Err e end /\
    main_program lm fuel file duration can_open r path argv' =
      match rest with Ok (l, code) => Ok (map Printed messages' ++ l, code) | Err e => Err e end.
Proof. exact requests. Qed.
Print Assumptions C89_unknown.

(** In particular the options may be given in any order, before, between or after the filters. *)
Theorem C89_order :
  forall argv argv' : list text,
  acceptable argv -> Permutation (read argv) (read argv') -> filters (read argv) = filters (read argv') ->
  acceptable argv' /\ same_request argv argv'.
Proof. exact reordered. Qed.
Print Assumptions C89_order.

(** Catch2's [--colour-mode] is [--color] with other words. *)
Theorem C89_colour_mode :
  forall (lm : Session.limits) (fuel : nat) (file : event -> text) (duration : event -> option text) (can_open : text -> bool)
    (r : registry) (path : text) (argv argv' : list text),
  length argv <= l_max_command_line_args lm -> length argv' <= l_max_command_line_args lm ->
  acceptable argv -> acceptable argv' -> translated argv argv' -> unknown (read argv) = unknown (read argv') ->
  main_program lm fuel file duration can_open r path argv = main_program lm fuel file duration can_open r path argv'.
Proof. exact translated_requests. Qed.
Print Assumptions C89_colour_mode.

Example C89_example :
  let read_all l := read (map quote l) in
  let does l := main_program small 50 at_file untimed (fun _ => true) library (quote "./demo") (map quote l) in
  (* Two orders and two spellings of the same request. *)
  same_request (map quote ["-v"; "high"; "*"; "--out"; "f"]) (map quote ["-o"; "f"; "--verbosity"; "high"; "*"]) /\
  acceptable (map quote ["-v"; "high"; "*"; "--out"; "f"]) /\
  Permutation (read_all ["-v"; "high"; "*"; "--out"; "f"]) (read_all ["-o"; "f"; "--verbosity"; "high"; "*"]) /\
  (exists out, does ["-v"; "high"; "*"; "--out"; "f"] = Ok (out, 1) /\ 9 <= length out) /\
  (* The words of Catch2. *)
  translated (map quote ["--color"; "always"; "*"]) (map quote ["*"; "--colour-mode"; "ansi"]) /\
  (* The order of the filters is part of the request: they are reported. *)
  ~ same_request (map quote ["*"; "*b"]) (map quote ["*b"; "*"]).
Proof.
  cbn zeta.
  assert (A : acceptable (map quote ["-v"; "high"; "*"; "--out"; "f"])) by (apply accepted_acceptable; vm_compute; reflexivity).
  assert (P : Permutation (read (map quote ["-v"; "high"; "*"; "--out"; "f"])) (read (map quote ["-o"; "f"; "--verbosity"; "high"; "*"]))).
  { match goal with |- Permutation ?a ?b => let x := eval vm_compute in a in let y := eval vm_compute in b in change (Permutation x y) end.
    eapply perm_trans; [apply perm_skip; apply perm_swap|]. eapply perm_trans; [apply perm_swap|]. apply Permutation_refl. }
  split; [apply (reordered _ _ A P); vm_compute; reflexivity|]. split; [exact A|]. split; [exact P|]. split.
  - eexists. split; [vm_compute; reflexivity|]. apply Nat.leb_le. vm_compute. reflexivity.
  - split.
    + split; [|split; [vm_compute; reflexivity|]].
      * intros long N1 N2.
        change (read (map quote ["--color"; "always"; "*"])) with [Given (quote "--color") (Some (quote "always", quote "always|default|never")); Filtering (quote "*")].
        change (read (map quote ["*"; "--colour-mode"; "ansi"])) with [Filtering (quote "*"); Given (quote "--colour-mode") (Some (quote "ansi", quote "ansi|default|none"))].
        cbn [setting]. unfold same_text. destruct (list_eq_dec ascii_dec long (quote "--color")); [contradiction|]. destruct (list_eq_dec ascii_dec long (quote "--colour-mode")); [contradiction|]. reflexivity.
      * exists (quote "always"), (quote "ansi"). split; [now left|]. repeat split; vm_compute; reflexivity.
    + intros [_ F]. vm_compute in F. discriminate.
Qed.
