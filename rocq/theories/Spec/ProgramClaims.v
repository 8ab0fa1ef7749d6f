(** Words used in the statements about whole programs (C61-C66). Unlike the other specifications these speak about the
    registry and the reporters of the model. *)
From Verif.Spec Require Import TextSpec FilterSpec Events VerdictSpec RunSpec TreeSpec SessionSpec ProgramSpec ColourSpec HelpSpec WarningSpec CliSpec.
From Verif.Model Require Import Base Vector StringUtil Filter Run Session Program.
Local Open Scope list_scope.

(** The reporter at this index in the list of registered reporters, and the first one with its name. *)
Definition first_named (l : list reporter) (i : nat) (p : reporter) : Prop :=
  nth_error l i = Some p /\ forall j q, j < i -> nth_error l j = Some q -> r_name q <> r_name p.

(** An output file is given. *)
Definition has_file (argv : list text) : bool := match setting (read argv) (quote "--out") with Some _ => true | None => false end.

(** No reporter is asked for, or one by its name alone, without options, which says nothing when it starts. *)
Definition silently_chosen (r : registry) (argv : list text) : Prop :=
  setting (read argv) (quote "--reporter") = None \/
  exists i p, setting (read argv) (quote "--reporter") = Some (Some (r_name p)) /\ first_named (g_reporters r) i p /\
    r_name p <> [] /\ hd_error (r_name p) <> Some ":"%char /\ ~ occurs (quote "::") (r_name p) /\
    forall m x, r_initialize p m = Ok x -> snd x = [].

(** The texts printed before the report: the warnings about the command line, then what there is to say about the choice
    of a reporter. *)
Definition warned (lm : limits) (r : registry) (argv : list text) (printed : list text) : Prop :=
  exists about_options about_reporter, printed = about_options ++ about_reporter /\
    shown_up_to (l_max_message_length lm)
      (option_warnings (setting (read argv)) (l_default_with_color lm) (unknown (read argv)) ++ value_warnings (setting (read argv)) (g_with_color r))
      about_options /\
    (silently_chosen r argv -> about_reporter = []).

(** Where the report of a run goes: after the warnings about the command line on the console, or alone in the file if
    there is an output file. *)
Definition report_goes (lm : limits) (r : registry) (argv : list text) (out : list output) (report : text) : Prop :=
  exists warnings, warned lm r argv warnings /\
    if has_file argv then console_text out = List.concat warnings /\ file_text out = report
    else console_text out = List.concat warnings ++ report /\ file_text out = [].

(** Only the console is written to: the warnings about the command line, and this text. *)
Definition only_prints (lm : limits) (r : registry) (argv : list text) (out : list output) (what : text) : Prop :=
  exists warnings, warned lm r argv warnings /\ console_text out = List.concat warnings ++ what /\ file_text out = [].

(** Without --reporter (and no other reporter chosen before), or with --reporter console. *)
Definition console_asked (lm : limits) (file : event -> text) (duration : event -> option text) (r : registry) (argv : list text) : Prop :=
  (setting (read argv) (quote "--reporter") = None /\ g_reporter r = None) \/
  (exists arg i, setting (read argv) (quote "--reporter") = Some (Some arg) /\ names arg (quote "console") /\
     first_named (g_reporters r) i (console_reporter lm file duration)).

(** The colours of a report made with the console reporter, unless it is given options: those that the command line asks for. *)
Definition report_colours (r : registry) (argv : list text) (colours : bool) : Prop :=
  setting (read argv) (quote "--reporter") = None \/ setting (read argv) (quote "--reporter") = Some (Some (quote "console")) ->
  colours = run_colours (setting (read argv)) (g_with_color r).

(** A reporter whose initialisation and configuration never fail; one whose reports never fail. *)
Definition starts (p : reporter) : Prop :=
  (forall m, exists x, r_initialize p m = Ok x) /\ (forall m memory k v, exists x, r_configure p m memory k v = Ok x).
Definition speaks (p : reporter) : Prop := forall m memory e, exists x, r_report p m memory e = Ok x.

(** A test (with its list of tags) that is well formed and within the limits; [fuel] bounds the number of passes that the
    model makes over its body. *)
Definition able (lm : limits) (fuel : nat) (x : test_case * list text) : Prop :=
  let t := fst x in let tags := snd x in
  id_tags (t_id t) = tag_string tags /\ well_formed (l_max_tag_length lm) tags /\ (exists may should, tagged tags may should) /\
  length (full_name_of (id_name (t_id t)) (id_type (t_id t))) <= l_max_test_name_length lm /\
  regular (t_body t) /\ nesting (t_body t) <= l_max_nested lm /\ scopes (t_body t) <= S (l_max_nested lm) /\ capturing (t_body t) <= l_max_captures lm /\ Nat.max 1 (leaves (t_body t)) <= fuel.

(** If the command line asks for the list of tags, there are not too many, and none is a hidden tag with a name. *)
Definition listable (lm : limits) (argv : list text) (tests : list (test_case * list text)) : Prop :=
  setting (read argv) (quote "--list-tags") = None \/
  Forall (fun x => Forall (fun t => dotted t = true -> t = quote ".") (snd x)) tests /\
  exists all, length all <= l_max_unique_tags lm /\ forall x t, In x tests -> In t (tags_of (snd x)) -> In t all.
