(** Command lines that ask for something else than tests (C111). No reference to the model. *)
From Coq Require Import Ascii String List.
From Verif.Spec Require Import TextSpec FilterSpec Events SessionSpec CliSpec.
Import ListNotations.
Local Open Scope list_scope.

(** This option is the first of [actions] (Spec/SessionSpec.v: --help, --list-tests-with-tag, --list-tags, --list-reporters) that is
    given, in the order of that list. *)
Definition first_asked (setting_of : text -> option (option text)) (n : text) : Prop :=
  exists earlier later, actions = earlier ++ n :: later /\ setting_of n <> None /\ Forall (fun m => setting_of m = None) earlier.

(** The options about colours are given at most once each, with a value. (The rest of the command line may be wrong.) *)
Definition clear_colours (argv : list text) : Prop :=
  forall long, In long [quote "--color"; quote "--colour-mode"] ->
  ~ In (NoValue long) (read argv) /\ count_occ (list_eq_dec ascii_dec) (given (read argv)) long <= 1.
