(** Programs that use the registry more than once (C90). *)
From Verif.Spec Require Import TextSpec FilterSpec PrintSpec NumberSpec RunSpec TreeSpec Events VerdictSpec SessionSpec ProgramSpec CliSpec.
From Verif.Model Require Import Base Vector StringUtil Print Filter Run Cli File Session Reporters Program.
From Verif.Spec Require Import ProgramClaims HistoryClaims.
From Verif.Proofs Require Import Lists VectorProofs AppendProofs ReplaceProofs FilterProofs RunFacts PrintProofs CliProofs CliFacts SessionProofs SessionFacts FileProofs ConfigProofs ReporterProofs ProgramProofs EndToEndProofs ChoiceProofs XmlProofs ReportProofs ServiceProofs ConsoleProofs WholeProofs LifetimeProofs RequestProofs.
From Coq Require Import Lia.
Local Open Scope list_scope.

Section History.
Variable lm : limits.
Variable fuel : nat.
Variable file : event -> str.
Variable duration : event -> option str.
Notation run_program := (run_program lm fuel file duration).
Notation perform := (perform lm file duration).
Notation console_report := (console_report (mm lm) (mn lm) (l_version lm)).

(** ** The events of a run *)
Definition counted (e : event) : bool := match e with ListTestRunEnded => true | _ => false end.
Lemma inner_uncounted (l : list event) : Forall (fun e => inner e = true) l -> Forall (fun e => counted e = false) l.
Proof. apply Forall_impl. intros [] H; auto; discriminate. Qed.
Lemma run_uncounted v tests name filters predicate events success :
  run_selected_tests lm fuel v tests name filters predicate = Ok (events, success) -> Forall (fun e => counted e = false) events.
Proof.
  rewrite run_selected_verbosity. destruct (run_selected_tests lm fuel Full tests name filters predicate) as [[ev b]|] eqn:R; [|discriminate].
  intros [= <- <-]. apply Forall_filter. destruct (summary_kept _ _ _ _ _ _ _ _ R) as (keep & parts & _ & F & -> & _).
  cbn [app]. constructor; [reflexivity|]. apply Forall_app. split; [|constructor; [reflexivity|constructor]].
  clear R. induction F as [|t part tests' parts P _ IH]; [constructor|]. cbn [List.concat]. apply Forall_app. split; [|exact IH].
  destruct P as (st & body & c & s & _ & _ & -> & I). cbn [app]. constructor; [reflexivity|]. apply Forall_app. split; [now apply inner_uncounted|constructor; [reflexivity|constructor]].
Qed.

(** What a run says, or the events it reports: those of a listing, or none that tells a number of tests. *)
Definition self_contained (l : list event) : Prop := Forall (fun e => counted e = false) l \/ exists l', l = ListTestRunStarted :: l'.
Lemma impl_shape r args out s : run_tests_impl lm fuel r args = Ok (out, s) ->
  (exists l, out = map Printed l) \/ (exists l, out = map (Reported (g_reporter r)) l /\ self_contained l).
Proof.
  unfold run_tests_impl. intros R.
  assert (L : forall p l, list_events (g_tests r) p = Ok l -> self_contained l).
  { intros p l. unfold list_events. destruct (list_loop _ _); cbn [bind]; [|discriminate]. intros [= <-]. right. eauto. }
  destruct (get_option args (lit "--help")); [|destruct (get_option args (lit "--list-tests-with-tag")) as [o2|];
    [|destruct (get_option args (lit "--list-tags")); [|destruct (get_option args (lit "--list-reporters"))]]].
  - destruct (print_help _ _ _); cbn [bind] in R; [|discriminate]. injection R as <- <-. eauto.
  - destruct (value_of o2); cbn [bind] in R; [|discriminate]. destruct (list_events _ _) eqn:E; cbn [bind] in R; [|discriminate]. injection R as <- <-. eauto.
  - destruct (list_all_tags _ _ _ _); cbn [bind] in R; [|discriminate]. injection R as <- <-. eauto.
  - destruct (prints _ _); cbn [bind] in R; [|discriminate]. injection R as <- <-. eauto.
  - destruct (get_positional_argument _ _).
    + destruct (for_each_positional_argument _ _); cbn [bind] in R; [|discriminate]. destruct (get_option _ _).
      * destruct (list_events _ _) eqn:E; cbn [bind] in R; [|discriminate]. injection R as <- <-. eauto.
      * destruct (run_selected_tests _ _ _ _ _ _ _) as [[ev su]|] eqn:E; cbn [bind] in R; [|discriminate]. injection R as <- <-. right. exists ev. split; [reflexivity|left; eapply run_uncounted; eauto].
    + destruct (get_option _ _).
      * destruct (list_events _ _) eqn:E; cbn [bind] in R; [|discriminate]. injection R as <- <-. eauto.
      * unfold run_default in R. destruct (run_selected_tests _ _ _ _ _ _ _) as [[ev su]|] eqn:E; cbn [bind] in R; [|discriminate]. injection R as <- <-. right. exists ev. split; [reflexivity|left; eapply run_uncounted; eauto].
Qed.

(** ** The default reporter remembers nothing that matters *)
Lemma console_counter color c c' e : counted e = false ->
  match console_report color file duration c e, console_report color file duration c' e with
  | Ok (_, o), Ok (_, o') => o = o'
  | Err a, Err b => a = b
  | _, _ => False
  end.
Proof.
  intros H. unfold Reporters.console_report.
  assert (K : match console_calls (mm lm) (mn lm) (l_version lm) color file duration c e, console_calls (mm lm) (mn lm) (l_version lm) color file duration c' e with
              | Ok (_, o), Ok (_, o') => o = o' | Err a, Err b => a = b | _, _ => False end).
  { destruct e; try discriminate H; cbn [console_calls]; try reflexivity;
      repeat match goal with |- context [bind ?x _] => destruct x as [[]|] eqn:?; cbn [bind]; try reflexivity end. }
  destruct (console_calls _ _ _ _ _ _ c e) as [[n l]|a], (console_calls _ _ _ _ _ _ c' e) as [[n' l']|b]; cbn [bind]; try contradiction; [|exact K].
  subst l'. destruct (console_prints _ l) as [o|]; cbn [bind]; reflexivity.
Qed.
Lemma console_started color c c' : console_report color file duration c ListTestRunStarted = console_report color file duration c' ListTestRunStarted.
Proof. reflexivity. Qed.

Definition default_pair (r r' : registry) : Prop := g_reporter r = None /\ exists x, r' = set_storage r x.
Definition agree (a b : res (registry * list output)) : Prop :=
  match a, b with Ok (r, o), Ok (r', o') => o = o' /\ default_pair r r' | Err e, Err e' => e = e' | _, _ => False end.

Lemma print_all_storage r x l : print_all (set_storage r x) l = print_all r l.
Proof. induction l as [|s l IH]; [reflexivity|]. cbn [print_all]. rewrite IH. reflexivity. Qed.

Definition counter_of (x : storage) : nat := match x with Default n => n | _ => 0 end.
Lemma perform_default r w e l : g_reporter r = None -> perform r (Reported w e :: l) =
  do (c, t) <- console_report (g_with_color r) file duration (counter_of (g_storage r)) e ;;
  do p <- print_all r t ;;
  do (r2, rest) <- perform (set_storage r (Default c)) l ;;
  Ok (r2, p ++ rest).
Proof.
  intros N. cbn [Program.perform]. unfold Program.report. rewrite N. fold (counter_of (g_storage r)).
  destruct (console_report _ _ _ _ e) as [[c t]|]; cbn [bind]; [|reflexivity]. now rewrite print_all_storage.
Qed.
Lemma perform_keeps l : forall r r' o, perform r l = Ok (r', o) -> g_reporter r' = g_reporter r.
Proof.
  induction l as [|x l IH]; intros r r' o; cbn [Program.perform]; [intros [= <- <-]; reflexivity|].
  assert (FR : g_reporter (finish r) = g_reporter r) by (unfold finish; destruct (g_reporter r) eqn:N; [destruct (g_storage r) as [| |p m]; [..|destruct (r_typed p)]|]; cbn; auto).
  destruct x as [s|w e|i|i k v|i|s|s|];
    try (match goal with |- context [perform ?a l] => destruct (perform a l) as [[r2 o2]|] eqn:P end; cbn [bind]; [|discriminate]; intros [= <- <-]; apply IH in P; exact P || (rewrite P; exact FR)).
  destruct (Program.report lm file duration r e) as [[r1 t]|] eqn:E; cbn [bind]; [|discriminate]. destruct (print_all r1 t); cbn [bind]; [|discriminate].
  destruct (perform r1 l) as [[r2 o2]|] eqn:P; cbn [bind]; [|discriminate]. intros [= <- <-]. apply IH in P. rewrite P.
  apply report_storage in E as (x & ->). reflexivity.
Qed.

Lemma agree_reports l rest w : Forall (fun e => counted e = false) l -> (forall r r', default_pair r r' -> agree (perform r rest) (perform r' rest)) ->
  forall r r', default_pair r r' -> agree (perform r (map (Reported w) l ++ rest)) (perform r' (map (Reported w) l ++ rest)).
Proof.
  intros F R. induction F as [|e l C F IH]; intros r r' D; [exact (R r r' D)|]. destruct D as (N & x & ->). cbn [map app].
  rewrite (perform_default r), (perform_default (set_storage r x)) by exact N.
  change (g_with_color (set_storage r x)) with (g_with_color r). pose proof (console_counter (g_with_color r) (counter_of (g_storage r)) (counter_of (g_storage (set_storage r x))) e C) as K.
  destruct (console_report _ _ _ _ e) as [[n o]|a], (console_report _ _ _ (counter_of (g_storage (set_storage r x))) e) as [[n' o']|b]; cbn [bind agree]; try contradiction; [|exact K]. subst o'.
  rewrite !print_all_storage. change (set_storage (set_storage r x) (Default n')) with (set_storage r (Default n')).
  destruct (print_all r o) as [p|]; cbn [bind agree]; [|reflexivity].
  assert (D : default_pair (set_storage r (Default n)) (set_storage r (Default n'))) by (split; [exact N|now exists (Default n')]).
  specialize (IH _ _ D). unfold agree in *. destruct (perform (set_storage r (Default n)) _) as [[r1 o1]|], (perform (set_storage r (Default n')) _) as [[r2 o2]|]; cbn [bind]; try contradiction; [|exact IH].
  destruct IH as [-> IH]. auto.
Qed.

Lemma agree_run r r' args : default_pair r r' -> same_outcome (run_program r args) (run_program r' args) /\
  forall r2 out s, run_program r args = Ok (r2, out, s) -> exists r2', run_program r' args = Ok (r2', out, s) /\ default_pair r2 r2'.
Proof.
  intros D. assert (K : match run_program r args, run_program r' args with
     | Ok (a, o, s), Ok (a', o', s') => o = o' /\ s = s' /\ default_pair a a' | Err e, Err e' => e = e' | _, _ => False end).
  { unfold Program.run_program. destruct D as (N & x & ->).
    assert (E : run_tests lm fuel (set_storage r x) args = do (r1, out, s) <- run_tests lm fuel r args ;; Ok (set_storage r1 x, out, s)).
    { unfold run_tests. change (run_tests_impl lm fuel (set_storage r x) args) with (run_tests_impl lm fuel r args).
      destruct (run_tests_impl lm fuel r args) as [[o s]|]; reflexivity. }
    rewrite E. clear E. destruct (run_tests lm fuel r args) as [[[r1 out] s]|] eqn:R; cbn [bind]; [|reflexivity].
    destruct (run_tests_inv lm fuel _ _ _ _ _ R) as (o & RI & _ & -> & _). 
    set (rest := closing r).
    assert (A : agree (perform r (o ++ rest)) (perform (set_storage r x) (o ++ rest))).
    { assert (RR : forall a b, default_pair a b -> agree (perform a rest) (perform b rest)).
      { intros a b (Na & y & ->). unfold rest, closing. assert (FN : forall z, g_reporter z = None -> finish z = z) by (intros z Z; unfold finish; now rewrite Z).
        assert (FS : finish (set_storage a y) = set_storage a y) by (apply FN; exact Na).
        destruct (g_file r); cbn [app Program.perform]; rewrite ?(FN a Na), ?FS; cbn [bind agree].
        - split; [reflexivity|]. split; [exact Na|]. exists y. reflexivity.
        - split; [reflexivity|]. split; [exact Na|]. exists y. reflexivity. }
      assert (D : default_pair r (set_storage r x)) by (split; [exact N|now exists x]).
      destruct (impl_shape _ _ _ _ RI) as [(l & ->)|(l & -> & [F|(l' & ->)])].
      - rewrite !(perform_printed lm file duration). specialize (RR _ _ D). unfold agree in *.
        destruct (perform r rest) as [[a oa]|], (perform (set_storage r x) rest) as [[b ob]|]; cbn [bind]; try contradiction; [|exact RR]. destruct RR as [-> RR]. auto.
      - exact (agree_reports l rest _ F RR _ _ D).
      - cbn [map app]. rewrite (perform_default r), (perform_default (set_storage r x)) by exact N.
        change (g_with_color (set_storage r x)) with (g_with_color r). rewrite (console_started (g_with_color r) (counter_of (g_storage (set_storage r x))) (counter_of (g_storage r))).
        destruct (console_report _ _ _ _ _) as [[n t]|]; cbn [bind agree]; [|reflexivity]. rewrite !print_all_storage.
        change (set_storage (set_storage r x) (Default n)) with (set_storage r (Default n)).
        destruct (print_all r t) as [p|]; cbn [bind agree]; [|reflexivity].
        destruct (perform (set_storage r (Default n)) _) as [[a oa]|] eqn:PF; cbn [bind agree]; [|reflexivity]. split; [reflexivity|].
        apply perform_keeps in PF. split; [rewrite PF; exact N|]. exists (g_storage a). destruct a; reflexivity. }
    unfold agree in A. destruct (perform r _) as [[a oa]|], (perform (set_storage r x) _) as [[b ob]|]; cbn [bind]; try contradiction; [|exact A].
    destruct A as [-> A]. auto. }
  split.
  - unfold same_outcome. destruct (run_program r args) as [[[a o] s]|], (run_program r' args) as [[[a' o'] s']|]; try contradiction; tauto.
  - intros r2 out s E. rewrite E in K. destruct (run_program r' args) as [[[a' o'] s']|]; [|contradiction]. destruct K as (<- & <- & K). eauto.
Qed.

Lemma default_trans a b c : default_pair a b -> default_pair b c -> default_pair a c.
Proof. intros (N & x & ->) (_ & y & ->). split; [exact N|]. now exists y. Qed.
Lemma default_after r args r2 out s : fresh r -> run_program r args = Ok (r2, out, s) -> default_pair r r2.
Proof.
  intros (N & NF & NT). unfold Program.run_program. destruct (run_tests lm fuel r args) as [[[r1 o1] s1]|] eqn:R; cbn [bind]; [|discriminate].
  destruct (perform r o1) as [[r' o']|] eqn:P; cbn [bind]; [|discriminate]. intros [= <- _ _]. destruct (run_tests_inv lm fuel _ _ _ _ _ R) as (o & RI & _ & -> & _).
  assert (DR : default_pair r r) by (split; [exact N|exists (g_storage r); destruct r; reflexivity]).
  assert (FN : forall z, g_reporter z = None -> g_file z = None -> finished z = z) by (intros z Z1 Z2; unfold finished, finish; rewrite Z1, Z2; reflexivity).
  destruct (run_impl_shape lm fuel _ _ _ _ RI) as [(l & -> & _)|(l & ->)].
  - rewrite (perform_printed lm file duration), (perform_closing lm file duration r r) in P by reflexivity. cbn [bind] in P. injection P as <- _. rewrite FN by assumption. exact DR.
  - rewrite (perform_reported lm file duration) in P by (unfold writable; congruence). destruct (report_list lm file duration r l) as [[r3 t]|] eqn:RL; cbn [bind] in P; [|discriminate].
    apply report_list_storage in RL as [->|(x & ->)].
    + rewrite (perform_closing lm file duration r r) in P by reflexivity. cbn [bind] in P. injection P as <- _. rewrite FN by assumption. exact DR.
    + rewrite (perform_closing lm file duration r (set_storage r x)) in P by reflexivity. cbn [bind] in P. injection P as <- _. rewrite FN by assumption. split; [exact N|eauto].
Qed.
Lemma runs_default r r' : fresh r -> after_runs lm fuel file duration r r' -> default_pair r r'.
Proof.
  intros F H. induction H as [r|r r1 r2 args out s H IH R].
  - destruct F as (N & _). split; [exact N|exists (g_storage r); destruct r; reflexivity].
  - specialize (IH F). apply (default_trans _ r1); [exact IH|]. apply default_after in R; [exact R|]. destruct IH as (_ & x & ->). exact F.
Qed.
Theorem default_history r r' args : fresh r -> after_runs lm fuel file duration r r' -> same_outcome (run_program r args) (run_program r' args).
Proof. intros F H. apply agree_run. now apply runs_default. Qed.

(** ** What [configure] makes of the modes *)
Definition settles {A} (f : A -> A) : Prop := (exists k, forall x, f x = k) \/ forall x, f x = x.
Lemma settles_after {A} (f g : A -> A) : settles f -> settles g -> settles (fun x => g (f x)).
Proof. intros [(k & F)|F] [(j & G)|G]; [left; exists j|left; exists (g k)|left; exists j|right]; intros x; rewrite ?G, ?F; auto. Qed.
Lemma settles_id {A} : settles (fun x : A => x).
Proof. right. auto. Qed.
Lemma settles_const {A} (k : A) : settles (fun _ => k).
Proof. left. eauto. Qed.

Definition painter (yes no value : str) (c : bool) : bool := if seqb value yes then true else if seqb value no then false else c.
Definition overrides (yes no value : str) : bool := seqb value yes || seqb value no.
Lemma painter_settles yes no value : settles (painter yes no value).
Proof. unfold painter. destruct (seqb value yes); [left; eauto|]. destruct (seqb value no); [left; eauto|right; auto]. Qed.
Lemma directive_does yes no choices c value : exists said, color_directive lm yes no choices c value = Ok (painter yes no value c, overrides yes no value, said).
Proof.
  unfold color_directive, painter, overrides. destruct (seqb value yes); [eauto|]. destruct (seqb value no); [eauto|]. destruct (seqb value (lit "default")); [eauto|].
  match goal with |- context [cli_print ?m ?l] => destruct (cli_print_total m l) as (s & E & _) end. rewrite E. cbn [bind orb]. eauto.
Qed.

(** Reporters that choose the modes and their own data once and for all. *)
Definition calm (f : verbosity -> verbosity) : Prop := forall v, f v = v \/ f v = (if vlevel v <? vlevel High then High else v).
Definition steady (p : reporter) : Prop :=
  (exists memory raise, (raise = (fun v => v) \/ raise = (fun v => if vlevel v <? vlevel High then High else v)) /\
     forall m, exists said, r_initialize p m = Ok (memory, mkmodes (raise (m_verbose m)) (m_color m), said)) /\
  (forall k v, exists f, settles f /\ forall m memory, exists said known, r_configure p m memory k v = Ok (memory, mkmodes (m_verbose m) (f (m_color m)), said, known)).
Lemma library_steady p : of_library lm file duration p -> steady p.
Proof.
  intros [->|[->| ->]]; split.
  - exists 0, (fun v => v). split; [auto|]. intros []. cbn. eauto.
  - intros k v. cbn [r_configure console_reporter]. unfold console_configure.
    destruct (seqb k (lit "color")); [|destruct (seqb k (lit "colour-mode"))].
    + exists (painter (lit "always") (lit "never") v). split; [apply painter_settles|]. intros m c. unfold color_option_directive.
      destruct (directive_does (lit "always") (lit "never") (lit "always|default|never") (m_color m) v) as (said & ->). cbn [bind]. eauto.
    + exists (painter (lit "ansi") (lit "none") v). split; [apply painter_settles|]. intros m c. unfold colour_mode_directive.
      destruct (directive_does (lit "ansi") (lit "none") (lit "ansi|default|none") (m_color m) v) as (said & ->). cbn [bind]. eauto.
    + exists (fun c => c). split; [apply settles_id|]. intros [] c. eauto.
  - exists 0, (fun v => if vlevel v <? vlevel High then High else v). split; [auto|]. intros []. cbn [r_initialize xml_reporter]. eexists. reflexivity.
  - intros k v. exists (fun c => c). split; [apply settles_id|]. intros [] c. cbn [r_configure xml_reporter]. eauto.
  - exists tt, (fun v => if vlevel v <? vlevel High then High else v). split; [auto|]. intros []. cbn [r_initialize teamcity_reporter]. eexists. reflexivity.
  - intros k v. exists (fun c => c). split; [apply settles_id|]. intros [] c. cbn [r_configure teamcity_reporter]. eauto.
Qed.

Lemma option_loop_steady p i : steady p -> forall n options, length options < n -> 2 <= length options ->
  exists f, settles f /\ forall m memory, exists out, option_loop lm n i p m memory options = Ok (mkmodes (m_verbose m) (f (m_color m)), memory, out).
Proof.
  intros [_ SC]. induction n as [|n IH]; intros options LN L2; [lia|]. cbn [option_loop].
  set (op := find_from options (lit "::") 2). set (os := match op with Some pos => skipn pos options | None => options end).
  assert (OS : 2 <= length os) by (unfold os, op; destruct (find_from options (lit "::") 2) eqn:F; [apply skip_colons in F; lia|lia]).
  unfold substr_from. destruct (Nat.leb_spec 2 (length os)); [|lia]. cbn [bind].
  assert (A : exists f, settles f /\ forall m memory, exists rest, match op with Some _ => option_loop lm n i p m memory os | None => Ok (m, memory, []) end =
                 Ok (mkmodes (m_verbose m) (f (m_color m)), memory, rest)).
  { unfold os, op. destruct (find_from options (lit "::") 2) eqn:F.
    - apply skip_colons in F. destruct (IH (skipn n0 options)) as (f & S & E); [lia|lia|]. eauto.
    - exists (fun c => c). split; [apply settles_id|]. intros [] memory. eauto. }
  destruct A as (f & S & A).
  set (opt := match op with Some pos => _ | None => _ end). destruct (Base.find opt (lit "=")) as [[|q]|].
  - exists f. split; [exact S|]. intros m memory. match goal with |- context [cli_print ?m ?l] => destruct (cli_print_total m l) as (s & E & _) end. rewrite E. cbn [bind].
    destruct (A m memory) as (rest & ->). cbn [bind]. eauto.
  - destruct (SC (firstn (Datatypes.S q) opt) (skipn (Datatypes.S q + 1) opt)) as (g & G & C). exists (fun c => f (g c)). split; [now apply settles_after|]. intros m memory.
    destruct (C m memory) as (said & known & ->). cbn [bind].
    destruct (A (mkmodes (m_verbose m) (g (m_color m))) memory) as (rest & R). cbn [m_verbose m_color] in R.
    destruct known; cbn [bind m_color].
    + rewrite R. cbn [bind]. eauto.
    + match goal with |- context [cli_print ?m ?l] => destruct (cli_print_total m l) as (s & E & _) end. rewrite E. cbn [bind]. rewrite R. cbn [bind]. eauto.
  - exists f. split; [exact S|]. intros m memory. match goal with |- context [cli_print ?m ?l] => destruct (cli_print_total m l) as (s & E & _) end. rewrite E. cbn [bind].
    destruct (A m memory) as (rest & ->). cbn [bind]. eauto.
Qed.

(** What the configuration makes of a registry: functions of the modes, and perhaps a reporter with its data and a file. *)
Definition raises (f : verbosity -> verbosity) : Prop := f = (fun v => v) \/ f = (fun v => if vlevel v <? vlevel High then High else v).
Definition with_choice (new : option (nat * storage)) (fv : verbosity -> verbosity) (fc : bool -> bool) (r : registry) : registry :=
  mkregistry (g_tests r) (g_reporters r) (fv (g_verbose r)) (fc (g_with_color r))
    (match new with Some (i, _) => Some i | None => g_reporter r end) (g_file r) (g_to_file r) (match new with Some (_, x) => x | None => g_storage r end).
Lemma parse_reporter_steady reps arg : Forall steady reps -> exists new fv fc, raises fv /\ settles fc /\
  (forall i p, first_named reps i p -> valid_name (r_name p) -> ProgramSpec.names arg (r_name p) -> new <> None) /\
  forall r, g_reporters r = reps -> exists out, parse_reporter lm r arg = Ok (with_choice new fv fc r, out).
Proof.
  intros S. 
  assert (SAME : forall r, with_choice None (fun v => v) (fun c => c) r = r) by (intros []; reflexivity).
  assert (CH : forall i p, first_named reps i p -> valid_name (r_name p) -> ProgramSpec.names arg (r_name p) ->
            forall r out, g_reporters r = reps -> parse_reporter lm r arg = Ok (r, out) -> g_reporter r = None -> False).
  { intros i p F V NM r out <- E N. destruct (reporter_named lm r i p arg r out F V NM E) as (m & memory & X & _). apply (f_equal g_reporter) in X. cbn in X. congruence. }
  pose (r0 := mkregistry [] reps Quiet false None None false Vacant).
  unfold parse_reporter in *. destruct (match arg with [] => true | c :: _ => aeqb c ":"%char end).
  - exists None, (fun v => v), (fun c => c). split; [left; reflexivity|]. split; [apply settles_id|].
    assert (T : forall r, exists out, (do s <- cli_print (Session.mm lm) [warning_prefix (g_with_color r); Text (lit " invalid reporter '"); Text arg; Text (lit "', using default" ++ newline)];; Ok (r, [@Printed test_id s])) = Ok (r, out)).
    { intros r. match goal with |- context [cli_print ?m ?l] => destruct (cli_print_total m l) as (s & E & _) end. rewrite E. cbn [bind]. eauto. }
    split.
    + intros i p F V NM _. destruct (T r0) as (out & E). eapply (CH i p F V NM r0); eauto.
    + intros r _. rewrite SAME. apply T.
  - destruct (match Base.find arg (lit "::") with Some _ => _ | None => _ end) as [name options].
    destruct (find_reporter 0 reps name) as [[i p]|] eqn:FR.
    + pose proof (find_reporter_in _ _ _ _ _ FR) as (_ & IN & _). apply nth_error_In in IN. rewrite Forall_forall in S. specialize (S p IN).
      destruct (proj1 S) as (memory & raise & RA & INI).
      assert (A : exists f, settles f /\ forall m, exists out, match Base.find options (lit "::") with
                 | None => Ok (m, memory, []) | Some _ => option_loop lm (Datatypes.S (length options)) i p m memory options end = Ok (mkmodes (m_verbose m) (f (m_color m)), memory, out)).
      { destruct (Base.find options (lit "::")) as [n|] eqn:F.
        - destruct (option_loop_steady p i S (Datatypes.S (length options)) options) as (f & SF & E); [lia| |eauto].
          destruct (find_some _ _ _ F) as (a & b & -> & _). rewrite !app_length. cbn. lia.
        - exists (fun c => c). split; [apply settles_id|]. intros []. eauto. }
      destruct A as (f & SF & A). exists (Some (i, Holds p memory)), raise, f. split; [exact RA|]. split; [exact SF|]. split; [discriminate|].
      intros r G. rewrite G, FR. destruct (INI (modes_of r)) as (said & ->). cbn [bind]. destruct (A (mkmodes (raise (m_verbose (modes_of r))) (m_color (modes_of r)))) as (out & ->). cbn [bind m_verbose m_color modes_of].
      eexists. unfold with_choice, set_reporter. cbn [m_verbose m_color]. reflexivity.
    + exists None, (fun v => v), (fun c => c). split; [left; reflexivity|]. split; [apply settles_id|]. split.
      * intros i p F V NM _. destruct (CH i p F V NM r0 (match (do out <- prints (Session.mm lm)
          ([warning_prefix (g_with_color r0); Text (lit " unknown reporter '"); Text name; Text (lit "', using default" ++ newline)] ::
           [note_prefix (g_with_color r0); Text (lit " available reporters:" ++ newline)] ::
           map (fun p => [note_prefix (g_with_color r0); Text (lit "  "); Text (r_name p); Text newline]) (g_reporters r0)) ;; Ok (map Printed out)) with Ok o => o | Err _ => [] end)); [reflexivity| |reflexivity].
        change (g_reporters r0) with reps. rewrite FR. match goal with |- context [prints ?m ?l] => destruct (prints_total m l) as (o & E) end. rewrite E. reflexivity.
      * intros r G. rewrite G, FR, SAME. match goal with |- context [prints ?m ?l] => destruct (prints_total m l) as (o & E) end. rewrite E. cbn [bind]. eauto.
Qed.

Lemma configure_does can_open r args r1 b1 o1 r2 b2 o2 r3 o3 r4 o4 r5 o5 :
  colour_step (parse_colour_mode_option lm) (get_option args (lit "--colour-mode")) r false = Ok (r1, b1, o1) ->
  colour_step (parse_color_option lm) (get_option args (lit "--color")) r1 b1 = Ok (r2, b2, o2) ->
  verbosity_step lm (get_option args (lit "--verbosity")) r2 = Ok (r3, o3) ->
  file_step lm can_open (get_option args (lit "--out")) b2 r3 = Ok (r4, o4) ->
  reporter_step lm (get_option args (lit "--reporter")) r4 = Ok (r5, o5) ->
  configure lm can_open r args = Ok (r5, o1 ++ o2 ++ o3 ++ o4 ++ o5).
Proof.
  intros S1 S2 S3 S4 S5. unfold configure.
  assert (C1 : colour_step (parse_colour_mode_option lm) (get_option args (lit "--colour-mode")) r false =
    match get_option args (lit "--colour-mode") with Some opt => do v <- value_of opt ;; parse_colour_mode_option lm r v | None => Ok (r, false, []) end).
  { destruct (get_option _ _) as [o|]; [|reflexivity]. cbn [colour_step]. destruct (value_of o) as [w|]; cbn [bind]; [|reflexivity].
    destruct (parse_colour_mode_option lm r w) as [[[a b] c]|]; cbn [bind]; [|reflexivity]. now rewrite orb_false_r. }
  rewrite <- C1, S1. cbn [bind]. fold (colour_step (parse_color_option lm) (get_option args (lit "--color")) r1 b1). rewrite S2. cbn [bind].
  fold (verbosity_step lm (get_option args (lit "--verbosity")) r2). rewrite S3. cbn [bind].
  fold (file_step lm can_open (get_option args (lit "--out")) b2 r3). rewrite S4. cbn [bind].
  fold (reporter_step lm (get_option args (lit "--reporter")) r4). rewrite S5. reflexivity.
Qed.

Definition value_given (args : input) (name : str) : option (option str) := option_map a_value (get_option args name).

Lemma colour_step_does yes no choices o : (forall a, o = Some a -> a_value a <> None) -> exists f b, settles f /\
  (forall v, option_map a_value o = Some (Some v) -> overrides yes no v = true -> exists k, forall c, f c = k) /\
  forall r before, exists out, colour_step (parse_color (color_directive lm yes no choices)) o r before = Ok (set_with_color r (f (g_with_color r)), b || before, out).
Proof.
  intros H. destruct o as [a|]; cbn [colour_step].
  - specialize (H a eq_refl). unfold value_of. destruct (a_value a) as [v|] eqn:V; [|contradiction]. exists (painter yes no v), (overrides yes no v).
    split; [apply painter_settles|]. split.
    + intros w. cbn [option_map]. rewrite V. intros [= <-]. unfold overrides, painter. destruct (seqb v yes); [eauto|]. destruct (seqb v no); [eauto|discriminate].
    + intros r before. cbn [bind]. unfold parse_color. destruct (directive_does yes no choices (g_with_color r) v) as (said & ->). cbn [bind]. eauto.
  - exists (fun c => c), false. split; [apply settles_id|]. split; [discriminate|]. intros r before. exists []. destruct r; reflexivity.
Qed.
Lemma verbosity_step_does o : (forall a, o = Some a -> a_value a <> None) -> exists f, settles f /\
  (forall w v, option_map a_value o = Some (Some w) -> In (w, v) verbosity_levels -> exists k, forall c, f c = k) /\
  forall r, exists out, verbosity_step lm o r = Ok (set_verbose r (f (g_verbose r)), out).
Proof.
  intros H. destruct o as [a|]; cbn [verbosity_step].
  - specialize (H a eq_refl). unfold value_of. destruct (a_value a) as [v|] eqn:V; [|contradiction].
    exists (fun old => if seqb v (lit "quiet") then Quiet else if seqb v (lit "normal") then Normal else if seqb v (lit "high") then High else if seqb v (lit "full") then Full else old).
    split; [|split].
    + destruct (seqb v (lit "quiet")); [apply settles_const|]. destruct (seqb v (lit "normal")); [apply settles_const|].
      destruct (seqb v (lit "high")); [apply settles_const|]. destruct (seqb v (lit "full")); [apply settles_const|apply settles_id].
    + intros w x. cbn [option_map]. rewrite V. intros [= <-] [E|[E|[E|[E|[]]]]]; injection E as E1 E2; exists x; intros c; subst v x; reflexivity.
    + intros r. cbn [bind]. destruct (seqb v (lit "quiet")); [eauto|]. destruct (seqb v (lit "normal")); [eauto|].
      destruct (seqb v (lit "high")); [eauto|]. destruct (seqb v (lit "full")); [eauto|].
      match goal with |- context [cli_print ?m ?l] => destruct (cli_print_total m l) as (s & E & _) end. rewrite E. cbn [bind]. eexists. destruct r; reflexivity.
  - exists (fun v => v). split; [apply settles_id|]. split; [discriminate|]. intros r. exists []. destruct r; reflexivity.
Qed.

(** The registry after the configuration. *)
Definition outcome (new : option (nat * storage)) (path : option str) (fv : verbosity -> verbosity) (fc : bool -> bool) (r : registry) : registry :=
  mkregistry (g_tests r) (g_reporters r) (fv (g_verbose r)) (fc (g_with_color r))
    (match new with Some (i, _) => Some i | None => g_reporter r end)
    (match path with Some p => Some p | None => g_file r end) (match path with Some _ => true | None => g_to_file r end)
    (match new with Some (_, x) => x | None => g_storage r end).

Lemma configure_steady can_open reps args : Forall steady reps ->
  (exists r0 x, g_reporters r0 = reps /\ configure lm can_open r0 args = Ok x) ->
  exists new path fv0 fv1 fc, settles fv0 /\ raises fv1 /\ settles fc /\
    ((exists v, value_given args (lit "--color") = Some (Some v) /\ overrides (lit "always") (lit "never") v = true) \/
     (exists v, value_given args (lit "--colour-mode") = Some (Some v) /\ overrides (lit "ansi") (lit "none") v = true) -> exists k, forall c, fc c = k) /\
    (forall w v, value_given args (lit "--verbosity") = Some (Some w) -> In (w, v) verbosity_levels -> exists k, forall c, fv0 c = k) /\
    (path = None <-> value_given args (lit "--out") = None) /\
    (forall i p arg, value_given args (lit "--reporter") = Some (Some arg) -> first_named reps i p -> valid_name (r_name p) -> ProgramSpec.names arg (r_name p) -> new <> None) /\
    forall r, g_reporters r = reps -> exists out, configure lm can_open r args = Ok (outcome new path (fun v => fv1 (fv0 v)) fc r, out).
Proof.
  intros ST (r0 & [rx ox] & G0 & C0). apply configure_steps in C0 as (r1 & b1 & o1 & r2 & b2 & o2 & r3 & o3 & r4 & o4 & o5 & S1 & S2 & S3 & S4 & S5 & _).
  assert (V : forall (A : Type) (f : str -> res A) (d x : res A) o, match o with Some a => do v <- value_of a ;; f v | None => d end = x -> (exists y, x = Ok y) -> forall a, o = Some a -> a_value a <> None).
  { intros A f d x o E (y & ->) a ->. unfold value_of in E. destruct (a_value a); [discriminate|discriminate E]. }
  assert (V1 : forall a, get_option args (lit "--colour-mode") = Some a -> a_value a <> None) by (eapply V; [exact S1|eauto]).
  assert (V2 : forall a, get_option args (lit "--color") = Some a -> a_value a <> None) by (eapply V; [exact S2|eauto]).
  assert (V3 : forall a, get_option args (lit "--verbosity") = Some a -> a_value a <> None) by (eapply V; [exact S3|eauto]).
  assert (V5 : forall a, get_option args (lit "--reporter") = Some a -> a_value a <> None) by (eapply V; [exact S5|eauto]).
  destruct (colour_step_does (lit "ansi") (lit "none") (lit "ansi|default|none") _ V1) as (f1 & c1 & F1 & K1 & D1).
  destruct (colour_step_does (lit "always") (lit "never") (lit "always|default|never") _ V2) as (f2 & c2 & F2 & K2 & D2).
  destruct (verbosity_step_does _ V3) as (fv0 & F3 & K3 & D3).
  assert (D4 : exists path f4, settles f4 /\ (path = None <-> value_given args (lit "--out") = None) /\
            forall r, exists out, file_step lm can_open (get_option args (lit "--out")) (c2 || (c1 || false)) r = Ok (outcome None path (fun v => v) f4 r, out)).
  { clear - S4. unfold value_given. destruct (get_option args (lit "--out")) as [a|]; cbn [file_step] in *.
    - destruct (value_of a) as [w|]; cbn [bind] in *; [|discriminate]. destruct (open_file _ _ w) as [path|]; cbn [bind] in *; [|discriminate].
      exists (Some path), (if c2 || (c1 || false) then fun c => c else fun _ => false). split; [destruct (c2 || _); [apply settles_id|apply settles_const]|].
      split; [split; discriminate|]. intros r. eexists. destruct (c2 || _); reflexivity.
    - exists None, (fun c => c). split; [apply settles_id|]. split; [tauto|]. intros r. exists []. destruct r; reflexivity. }
  destruct D4 as (path & f4 & F4 & P4 & D4).
  assert (D5 : exists new fv1 f5, raises fv1 /\ settles f5 /\
     (forall i p arg, value_given args (lit "--reporter") = Some (Some arg) -> first_named reps i p -> valid_name (r_name p) -> ProgramSpec.names arg (r_name p) -> new <> None) /\
     forall r, g_reporters r = reps -> exists out, reporter_step lm (get_option args (lit "--reporter")) r = Ok (with_choice new fv1 f5 r, out)).
  { clear - ST V5. unfold value_given. destruct (get_option args (lit "--reporter")) as [a|]; cbn [reporter_step].
    - specialize (V5 a eq_refl). unfold value_of. destruct (a_value a) as [w|] eqn:W; [|contradiction]. cbn [bind].
      destruct (parse_reporter_steady reps w ST) as (new & fv & fc & A & B & C & D). exists new, fv, fc. split; [exact A|]. split; [exact B|]. split; [|exact D].
      intros i p arg. cbn [option_map]. rewrite W. intros [= <-]. apply C.
    - exists None, (fun v => v), (fun c => c). split; [left; reflexivity|]. split; [apply settles_id|]. split; [discriminate|]. intros r _. exists []. destruct r; reflexivity. }
  destruct D5 as (new & fv1 & f5 & F5v & F5 & P5 & D5).
  exists new, path, fv0, fv1, (fun c => f5 (f4 (f2 (f1 c)))). split; [exact F3|]. split; [exact F5v|]. split.
  { apply (settles_after (fun c => f4 (f2 (f1 c)))); [|exact F5]. apply (settles_after (fun c => f2 (f1 c))); [|exact F4]. now apply settles_after. }
  split; [|split; [|split; [exact P4|split; [exact P5|]]]].
  - assert (KK : forall k : bool -> bool, settles k -> forall g : bool -> bool, (exists j, forall c, g c = j) -> exists j, forall c, k (g c) = j).
    { intros k _ g (j & Hj). exists (k j). intros c. now rewrite Hj. }
    intros [(v & E & O)|(v & E & O)].
    + destruct (K2 v E O) as (k & Hk). exists (f5 (f4 k)). intros c. now rewrite Hk.
    + destruct (K1 v E O) as (k & Hk). exists (f5 (f4 (f2 k))). intros c. now rewrite Hk.
  - intros w v E I. exact (K3 w v E I).
  - intros r G. destruct (D1 r false) as (q1 & E1). destruct (D2 (set_with_color r (f1 (g_with_color r))) (c1 || false)) as (q2 & E2).
    destruct (D3 (set_with_color (set_with_color r (f1 (g_with_color r))) (f2 (g_with_color (set_with_color r (f1 (g_with_color r))))))) as (q3 & E3).
    match type of E3 with _ = Ok (?x, _) => destruct (D4 x) as (q4 & E4) end.
    match type of E4 with _ = Ok (?x, _) => destruct (D5 x) as (q5 & E5) end; [exact G|].
    eexists. exact (configure_does _ _ _ _ _ _ _ _ _ _ _ _ _ _ _ E1 E2 E3 E4 E5).
Qed.

(** ** The same arguments again *)
Lemma steady_twice f0 f1 (v : verbosity) : settles f0 -> raises f1 -> f1 (f0 (f1 (f0 v))) = f1 (f0 v).
Proof.
  intros [(k & F)|F] [->| ->]; rewrite ?F; auto. destruct (vlevel v <? vlevel High) eqn:E; [reflexivity|now rewrite E].
Qed.
Lemma settles_twice {A} (f : A -> A) x : settles f -> f (f x) = f x.
Proof. intros [(k & F)|F]; now rewrite !F. Qed.

(** After a run the file is closed, the reporter is the same one, and so is everything else but the data of the reporter. *)
Lemma after_run r args r2 out s : writable r -> run_program r args = Ok (r2, out, s) -> exists x,
  r2 = mkregistry (g_tests r) (g_reporters r) (g_verbose r) (g_with_color r) (g_reporter r) None (g_to_file r) x.
Proof.
  intros W. unfold Program.run_program. destruct (run_tests lm fuel r args) as [[[r1 o1] s1]|] eqn:R; cbn [bind]; [|discriminate].
  destruct (perform r o1) as [[r' o']|] eqn:P; cbn [bind]; [|discriminate]. intros [= <- _ _]. destruct (run_tests_inv lm fuel _ _ _ _ _ R) as (o & RI & _ & -> & _).
  assert (FN : forall z, exists x, finished z = mkregistry (g_tests z) (g_reporters z) (g_verbose z) (g_with_color z) (g_reporter z) None (g_to_file z) x).
  { intros z. unfold finished, finish. destruct z as [a b c d e f g h]. cbn [g_reporter g_storage g_file].
    destruct e as [e|]; destruct h as [|k|p m]; try destruct (r_typed p); destruct f; cbn; eexists; reflexivity. }
  destruct (run_impl_shape lm fuel _ _ _ _ RI) as [(l & -> & _)|(l & ->)].
  - rewrite (perform_printed lm file duration), (perform_closing lm file duration r r) in P by reflexivity. cbn [bind] in P. injection P as <- _. apply FN.
  - rewrite (perform_reported lm file duration) in P by exact W. destruct (report_list lm file duration r l) as [[r3 t]|] eqn:RL; cbn [bind] in P; [|discriminate].
    apply report_list_storage in RL as [->|(x & ->)].
    + rewrite (perform_closing lm file duration r r) in P by reflexivity. cbn [bind] in P. injection P as <- _. apply FN.
    + rewrite (perform_closing lm file duration r (set_storage r x)) in P by reflexivity. cbn [bind] in P. injection P as <- _. exact (FN (set_storage r x)).
Qed.

(** Registries that differ only in the data of a reporter, and in nothing if it is not the default one. *)
Definition interchangeable (r r' : registry) : Prop := r = r' \/ default_pair r r'.
Lemma same_outcome_refl a : same_outcome a a.
Proof. destruct a as [[[]]|]; cbn; auto. Qed.
Lemma interchangeable_run r r' args : interchangeable r r' -> same_outcome (run_program r args) (run_program r' args).
Proof. intros [->|D]; [apply same_outcome_refl|now apply agree_run]. Qed.

Theorem repeated_history can_open args r r' r1 said : fresh r -> Forall (of_library lm file duration) (g_reporters r) ->
  configure lm can_open r args = Ok (r1, said) -> after_repeats lm fuel file duration can_open args r r' ->
  exists r1' said', configure lm can_open r' args = Ok (r1', said') /\ same_outcome (run_program r1 args) (run_program r1' args).
Proof.
  intros (N & NF & NT) LIB C H. assert (ST : Forall steady (g_reporters r)) by (eapply Forall_impl; [|exact LIB]; exact library_steady).
  destruct (configure_steady can_open (g_reporters r) args ST (ex_intro _ r (ex_intro _ _ (conj eq_refl C)))) as (new & path & fv0 & fv1 & fc & F0 & F1 & FC & _ & _ & _ & _ & D).
  destruct (D r eq_refl) as (out1 & E1). assert (R1 : r1 = outcome new path (fun v => fv1 (fv0 v)) fc r) by congruence.
  assert (INV : forall q, g_reporters q = g_reporters r -> (q = r \/ exists w, q = mkregistry (g_tests r1) (g_reporters r1) (g_verbose r1) (g_with_color r1) (g_reporter r1) None (g_to_file r1) w) ->
             interchangeable r1 (outcome new path (fun v => fv1 (fv0 v)) fc q)).
  { intros q _ [->|(w & ->)]; [left; exact R1|]. subst r1. unfold outcome. cbn [g_tests g_reporters g_verbose g_with_color g_reporter g_file g_to_file g_storage].
    rewrite (steady_twice _ _ _ F0 F1), (settles_twice fc _ FC). destruct new as [[i x]|]; [left; destruct path; congruence|]. right. split; [exact N|].
    exists w. unfold set_storage. cbn. destruct path; congruence. }
  assert (AFTER : r' = r \/ exists w, r' = mkregistry (g_tests r1) (g_reporters r1) (g_verbose r1) (g_with_color r1) (g_reporter r1) None (g_to_file r1) w).
  { clear C. induction H as [r|r ra rb rc sa oa su H IH CB RB]; [left; reflexivity|]. right. specialize (IH N NF NT LIB ST D E1 R1 INV).
    assert (GA : g_reporters ra = g_reporters r) by (destruct IH as [->|(w & ->)]; [reflexivity|subst r1; reflexivity]).
    destruct (D ra GA) as (ob & EB). assert (RB' : rb = outcome new path (fun v => fv1 (fv0 v)) fc ra) by congruence.
    pose proof (INV ra GA IH) as I. rewrite <- RB' in I.
    assert (W : writable rb).
    { assert (W1 : writable r1) by (subst r1; unfold writable, outcome; cbn; destruct path; congruence).
      destruct I as [<-|(_ & x & ->)]; exact W1. }
    apply after_run in RB as (x & ->); [|exact W]. exists x. destruct I as [<-|(_ & y & ->)]; reflexivity. }
  assert (GR : g_reporters r' = g_reporters r) by (destruct AFTER as [->|(w & ->)]; [reflexivity|subst r1; reflexivity]).
  destruct (D r' GR) as (ob & EB). eexists _, _. split; [exact EB|]. apply interchangeable_run. now apply INV.
Qed.

(** ** Complete command lines *)
Definition same_parts (r r' : registry) : Prop := g_tests r' = g_tests r /\ g_reporters r' = g_reporters r.
Lemma same_parts_trans a b c : same_parts a b -> same_parts b c -> same_parts a c.
Proof. unfold same_parts. intuition congruence. Qed.
Lemma perform_parts l : forall r r' o, perform r l = Ok (r', o) -> same_parts r r'.
Proof.
  induction l as [|x l IH]; intros r r' o; cbn [Program.perform]; [intros [= <- <-]; split; reflexivity|].
  assert (FR : same_parts r (finish r)) by (unfold finish; destruct (g_reporter r); [destruct (g_storage r) as [| |p m]; [..|destruct (r_typed p)]|]; split; reflexivity).
  destruct x as [s|w e|i|i k v|i|s|s|];
    try (match goal with |- context [perform ?a l] => destruct (perform a l) as [[r2 o2]|] eqn:P end; cbn [bind]; [|discriminate]; intros [= <- <-]; apply IH in P; exact P || (eapply same_parts_trans; [exact FR|exact P])).
  destruct (Program.report lm file duration r e) as [[r1 t]|] eqn:E; cbn [bind]; [|discriminate]. destruct (print_all r1 t); cbn [bind]; [|discriminate].
  destruct (perform r1 l) as [[r2 o2]|] eqn:P; cbn [bind]; [|discriminate]. intros [= <- <-]. apply IH in P.
  apply report_storage in E as (x & ->). exact P.
Qed.
Lemma configure_parts can_open r args r' out : configure lm can_open r args = Ok (r', out) -> same_parts r r'.
Proof.
  intros H. apply configure_steps in H as (r1 & b1 & o1 & r2 & b2 & o2 & r3 & o3 & r4 & o4 & o5 & S1 & S2 & S3 & S4 & S5 & ->).
  apply colour_step_effect in S1 as (_ & c1 & -> & _). apply colour_step_effect in S2 as (_ & c2 & -> & _).
  apply verbosity_step_effect in S3 as (_ & v & ->). apply reporter_step_effect in S5 as (_ & R5).
  assert (P4 : same_parts r r4).
  { destruct (get_option args (lit "--out")) as [a|]; cbn [file_step] in S4; [|injection S4 as <- _; split; reflexivity].
    destruct (value_of a); cbn [bind] in S4; [|discriminate]. destruct (open_file _ _ _); cbn [bind] in S4; [|discriminate]. injection S4 as <- _. destruct b2; split; reflexivity. }
  destruct R5 as [->|(i & p & m & memory & _ & -> & _)]; exact P4.
Qed.
Lemma uses_parts r r' : after_uses lm fuel file duration r r' -> same_parts r r'.
Proof.
  induction 1 as [r|can_open r ra rb args said _ IH C|r ra rb args out su _ IH R]; [split; reflexivity|..]; eapply same_parts_trans; eauto using configure_parts.
  unfold Program.run_program in R. destruct (run_tests _ _ _ _) as [[[q o] s]|]; cbn [bind] in R; [|discriminate].
  destruct (perform ra o) as [[q' o']|] eqn:P; cbn [bind] in R; [|discriminate]. injection R as <- _ _. eapply perform_parts; eauto.
Qed.

Theorem complete_history can_open path argv printed args r r' r1 said : length argv <= l_max_command_line_args lm ->
  parse_arguments (cli_of lm) path argv = Ok (printed, Some args) ->
  Forall (of_library lm file duration) (g_reporters r) -> after_uses lm fuel file duration r r' -> complete r r' argv ->
  configure lm can_open r args = Ok (r1, said) ->
  exists r1' said', configure lm can_open r' args = Ok (r1', said') /\ same_outcome (run_program r1 args) (run_program r1' args).
Proof.
  intros L PA LIB U (CC & CV & CO & CR) C. destruct (uses_parts _ _ U) as [T G].
  assert (VAL : forall name, name <> [] -> value_given args name = setting (read argv) name) by (destruct (parsed_options (cli_of lm) path argv printed args L PA) as [P _]; exact P).
  assert (ST : Forall steady (g_reporters r)) by (eapply Forall_impl; [|exact LIB]; exact library_steady).
  destruct (configure_steady can_open (g_reporters r) args ST (ex_intro _ r (ex_intro _ _ (conj eq_refl C)))) as (new & file_path & fv0 & fv1 & fc & F0 & F1 & FC & KC & KV & KO & KR & D).
  destruct (D r eq_refl) as (out1 & E1). assert (R1 : r1 = outcome new file_path (fun v => fv1 (fv0 v)) fc r) by congruence.
  destruct (D r' G) as (out2 & E2). eexists _, _. split; [exact E2|]. apply interchangeable_run. left. subst r1.
  assert (CC' : exists k, forall c, fc c = k).
  { apply KC. destruct CC as [(w & E & I)|(w & E & I)]; [left|right]; exists w; rewrite VAL by discriminate; split; auto; destruct I as [<-|[<-|[]]]; reflexivity. }
  destruct CC' as (kc & KC'). destruct CV as (w & v & E & I). destruct (KV w v) as (kv & KV'); [rewrite VAL by discriminate; exact E|exact I|].
  assert (NN : new <> None).
  { destruct CR as (arg & i & p & ER & NM & FN). apply (KR i p arg); auto; [rewrite VAL by discriminate; exact ER|].
    assert (IP : In p (g_reporters r)) by (destruct FN as [FN _]; now apply nth_error_In in FN). rewrite Forall_forall in LIB.
    destruct (LIB p IP) as [->|[->| ->]]; [apply console_valid|apply xml_valid|apply teamcity_valid]. }
  unfold outcome. rewrite T, G, !KC', !KV'. destruct new as [[i x]|]; [|contradiction].
  assert (FO : (exists q, file_path = Some q) \/ (g_file r = g_file r' /\ g_to_file r = g_to_file r')).
  { destruct CO as [(q & EO)|(A1 & A2 & A3 & A4)]; [left|right; split; congruence]. destruct file_path as [x0|]; [eauto|]. destruct KO as [KO _]. specialize (KO eq_refl). rewrite VAL in KO by discriminate. change (quote "--out") with (lit "--out") in EO. congruence. }
  destruct FO as [(q & ->)|(A1 & A2)]; [reflexivity|]. rewrite A1, A2. reflexivity.
Qed.
End History.
