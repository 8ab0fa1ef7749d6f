(** Whole programs (C61-C64). *)
From Verif.Spec Require Import TextSpec FilterSpec PrintSpec CliSpec Events VerdictSpec SessionSpec ProgramSpec.
From Verif.Model Require Import Base Vector StringUtil Print Filter Run Cli File Session Reporters Program.
From Verif.Proofs Require Import Lists VectorProofs AppendProofs ReplaceProofs PrintProofs CliProofs CliFacts SessionProofs SessionFacts ConfigProofs ReporterProofs ProgramProofs.
From Coq Require Import Lia.
Local Open Scope list_scope.

Section EndToEnd.
Variable lm : limits.
Variable fuel : nat.
Variable file : event -> str.
Variable duration : event -> option str.
Notation report := (report lm file duration).
Notation perform := (perform lm file duration).
Notation run_program := (run_program lm fuel file duration).
Notation main_program := (main_program lm fuel file duration).

(** ** Printing *)
Definition put (r : registry) (s : str) : output := if g_to_file r then WroteFile s else Printed s.
Definition writable (r : registry) : Prop := g_to_file r = true -> g_file r <> None.

Lemma print_all_put r l : writable r -> print_all r l = Ok (map (put r) l).
Proof.
  intros W. induction l as [|s l IH]; [reflexivity|]. cbn [print_all map]. rewrite IH.
  assert (P : print_text r s = Ok [put r s]).
  { unfold print_text, put, writable in *. destruct (g_to_file r); [|reflexivity]. specialize (W eq_refl). destruct (g_file r); [reflexivity|contradiction]. }
  rewrite P. reflexivity.
Qed.
Lemma print_all_writable r l out : print_all r l = Ok out -> l <> [] -> writable r.
Proof.
  destruct l as [|s l]; [contradiction|]. cbn [print_all]. unfold print_text, writable. destruct (g_to_file r); [|discriminate].
  destruct (g_file r); [|discriminate]. discriminate.
Qed.

(** ** Reports *)
Fixpoint report_list (r : registry) (l : list event) : res (registry * list str) :=
  match l with
  | [] => Ok (r, [])
  | e :: l' => do (r1, t) <- report r e ;; do (r2, t') <- report_list r1 l' ;; Ok (r2, t ++ t')
  end.

Lemma report_storage r e r' t : report r e = Ok (r', t) -> exists x, r' = set_storage r x.
Proof.
  unfold Program.report. destruct (g_reporter r).
  - destruct (g_storage r) as [| |p memory]; try discriminate. destruct (r_report p _ _ e) as [[memory' o]|]; cbn [bind]; [|discriminate]. intros [= <- <-]. eauto.
  - destruct (console_report _ _ _ _ _ _ _ e) as [[c o]|]; cbn [bind]; [|discriminate]. intros [= <- <-]. eauto.
Qed.
Lemma set_storage_twice r x y : set_storage (set_storage r x) y = set_storage r y.
Proof. reflexivity. Qed.
Lemma report_list_storage l : forall r r' t, report_list r l = Ok (r', t) -> r' = r \/ exists x, r' = set_storage r x.
Proof.
  induction l as [|e l IH]; intros r r' t; cbn [report_list].
  - intros [= <- <-]. auto.
  - destruct (report r e) as [[r1 o]|] eqn:R; cbn [bind]; [|discriminate]. destruct (report_list r1 l) as [[r2 o2]|] eqn:L; cbn [bind]; [|discriminate].
    intros [= <- <-]. destruct (report_storage _ _ _ _ R) as (x & ->). right. apply IH in L as [->|(y & ->)]; [exists x; reflexivity|exists y; reflexivity].
Qed.

Lemma perform_reported w l rest : forall r, writable r ->
  perform r (map (Reported w) l ++ rest) =
    do (r1, t) <- report_list r l ;; do (r2, rest') <- perform r1 rest ;; Ok (r2, map (put r) t ++ rest').
Proof.
  induction l as [|e l IH]; intros r W; cbn [map app].
  - cbn [report_list bind map app]. destruct (perform r rest) as [[r2 o]|]; reflexivity.
  - cbn [Program.perform report_list]. destruct (report r e) as [[r1 t]|] eqn:R; cbn [bind]; [|reflexivity].
    destruct (report_storage _ _ _ _ R) as (x & ->). assert (W1 : writable (set_storage r x)) by exact W.
    rewrite print_all_put by exact W1. cbn [bind]. rewrite IH by exact W1.
    destruct (report_list (set_storage r x) l) as [[r2 t2]|]; cbn [bind]; [|reflexivity].
    destruct (perform r2 rest) as [[r3 o]|]; cbn [bind]; [|reflexivity].
    rewrite map_app, <- app_assoc. reflexivity.
Qed.
Lemma perform_printed l rest : forall r, perform r (map Printed l ++ rest) = do (r2, rest') <- perform r rest ;; Ok (r2, map Printed l ++ rest').
Proof.
  induction l as [|s l IH]; intros r; cbn [map app].
  - destruct (perform r rest) as [[r2 o]|]; reflexivity.
  - cbn [Program.perform]. rewrite IH. destruct (perform r rest) as [[r2 o]|]; reflexivity.
Qed.

(** Finishing. *)
Definition finished (r : registry) : registry := match g_file r with Some _ => set_file (finish r) None | None => finish r end.
Lemma finish_file r : g_file (finish r) = g_file r.
Proof. unfold finish. destruct (g_reporter r), (g_storage r); try reflexivity. destruct (r_typed p); reflexivity. Qed.
Lemma perform_closing r0 r : g_reporter r0 = g_reporter r -> g_file r0 = g_file r -> perform r (closing r0) = Ok (finished r, closing r).
Proof.
  intros E F. unfold closing, finished. rewrite E, F. destruct (g_file r); reflexivity.
Qed.

(** What a run amounts to: the texts printed by the actions, or the reports of events. *)
Inductive shape := Says (l : list str) | Reports (l : list event).
Lemma run_impl_shape r args out s : run_tests_impl lm fuel r args = Ok (out, s) ->
  (exists l, out = map Printed l /\ s = true) \/ (exists l, out = map (Reported (g_reporter r)) l).
Proof.
  unfold run_tests_impl. intros R.
  destruct (get_option args (lit "--help")); [|destruct (get_option args (lit "--list-tests-with-tag")) as [o2|];
    [|destruct (get_option args (lit "--list-tags")); [|destruct (get_option args (lit "--list-reporters"))]]].
  - destruct (print_help _ _ _); cbn [bind] in R; [|discriminate]. injection R as <- <-. eauto.
  - destruct (value_of o2); cbn [bind] in R; [|discriminate]. destruct (list_events _ _) eqn:E; cbn [bind] in R; [|discriminate]. injection R as <- <-. eauto.
  - destruct (list_all_tags _ _ _ _); cbn [bind] in R; [|discriminate]. injection R as <- <-. eauto.
  - destruct (prints _ _); cbn [bind] in R; [|discriminate]. injection R as <- <-. eauto.
  - destruct (get_positional_argument _ _).
    + destruct (for_each_positional_argument _ _); cbn [bind] in R; [|discriminate]. destruct (get_option _ _).
      * destruct (list_events _ _); cbn [bind] in R; [|discriminate]. injection R as <- <-. eauto.
      * destruct (run_selected_tests _ _ _ _ _ _ _) as [[ev su]|]; cbn [bind] in R; [|discriminate]. injection R as <- <-. eauto.
    + destruct (get_option _ _).
      * destruct (list_events _ _); cbn [bind] in R; [|discriminate]. injection R as <- <-. eauto.
      * destruct (run_default _ _ _ _ _) as [[ev su]|]; cbn [bind] in R; [|discriminate]. injection R as <- <-. eauto.
Qed.

Lemma run_impl_runs r args out s : run_tests_impl lm fuel r args = Ok (out, s) ->
  (forall n, In n actions -> get_option args n = None) -> get_option args (lit "--list-tests") = None ->
  exists filters predicate events, out = map (Reported (g_reporter r)) events /\
    run_selected_tests lm fuel (g_verbose r) (g_tests r) (executable args) filters predicate = Ok (events, s).
Proof.
  intros R N L. rewrite no_action, L in R by exact N. destruct (get_positional_argument args (lit "test regex")).
  - destruct (for_each_positional_argument _ _) as [fs|]; cbn [bind] in R; [|discriminate].
    destruct (run_selected_tests _ _ _ _ _ _ _) as [[ev su]|] eqn:E; cbn [bind] in R; [|discriminate]. injection R as <- <-. eauto 6.
  - unfold run_default in R. destruct (run_selected_tests _ _ _ _ _ _ _) as [[ev su]|] eqn:E; cbn [bind] in R; [|discriminate]. injection R as <- <-. eauto 6.
Qed.

(** ** The program *)
Lemma main_program_inv can_open r path argv out code : length argv <= l_max_command_line_args lm -> acceptable argv ->
  main_program can_open r path argv = Ok (out, code) ->
  exists printed args r1 out1 r2 out2 r3 out3 success,
    parse_arguments (cli_of lm) path argv = Ok (printed, Some args) /\
    configure lm can_open r args = Ok (r1, out1) /\ run_tests lm fuel r1 args = Ok (r2, out2, success) /\
    perform r1 out2 = Ok (r3, out3) /\ out = map Printed printed ++ out1 ++ out3 /\ code = (if success : bool then 0 else 1) /\
    main lm fuel can_open r path argv = Ok (map Printed printed ++ out1 ++ out2, code).
Proof.
  intros L ACC. unfold Program.main_program, main. destruct (parse_arguments_spec (cli_of lm) path argv L) as (printed & args & P & A & _). rewrite P. cbn [bind].
  destruct (A ACC) as (-> & _). match goal with |- context [configure lm can_open r ?a] => set (args := a) end.
  destruct (configure lm can_open r args) as [[r1 out1]|] eqn:C; cbn [bind]; [|discriminate].
  unfold Program.run_program. destruct (run_tests lm fuel r1 args) as [[[r2 out2] success]|] eqn:R; cbn [bind]; [|discriminate].
  destruct (perform r1 out2) as [[r3 out3]|] eqn:PF; cbn [bind]; [|discriminate]. intros [= <- <-].
  exists printed, args, r1, out1, r2, out2, r3, out3, success. repeat split; auto.
Qed.
End EndToEnd.
