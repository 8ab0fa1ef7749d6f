(** Words used in the statements about programs that list their tests (C109). These speak about the registry of the model. *)
From Verif.Spec Require Import TextSpec FilterSpec CliSpec Events SessionSpec ProgramSpec ListingSpec.
From Verif.Model Require Import Base Vector StringUtil Filter Run Session Program.
From Verif.Spec Require Import ProgramClaims LinkClaims.
Local Open Scope list_scope.

(** The tests that this command line asks to list. Nothing is said of tests with ill-formed tags, nor of tests whose name is too
    long if the names matter. *)
Definition the_listed (lm : limits) (argv : list text) (is_listed : test_case -> bool) : Prop :=
  forall t tags, id_tags (t_id t) = tag_string tags -> well_formed (l_max_tag_length lm) tags ->
    (filters (read argv) <> [] -> length (full_name_of (id_name (t_id t)) (id_type (t_id t))) <= l_max_test_name_length lm) ->
    (is_listed t = true <-> in_list (setting (read argv)) (filters (read argv)) (full_name_of (id_name (t_id t)) (id_type (t_id t))) tags).

(** The program lists the tests asked for, in the order in which they are registered, and no others; the report of this list
    is [text_of]; and the program succeeds. *)
Definition lists_tests (text_of : list (test_id * nat) -> text) (lm : limits) (r : registry) (argv : list text) (out : list output) (code : nat) : Prop :=
  exists is_listed : test_case -> bool, the_listed lm argv is_listed /\
    report_goes lm r argv out (text_of (map (fun t => (t_id t, t_line t)) (filter is_listed (g_tests r)))) /\ code = 0.

(** Two programs that differ only in what their tests do. *)
Definition same_but_bodies (r r' : registry) : Prop :=
  same_but_tests r r' /\ map (fun t => (t_id t, t_line t)) (g_tests r) = map (fun t => (t_id t, t_line t)) (g_tests r').
