(** What the command line chooses: verbosity and reporter (C61). *)
From Verif.Spec Require Import TextSpec FilterSpec PrintSpec CliSpec Events VerdictSpec SessionSpec ProgramSpec.
From Verif.Model Require Import Base Vector StringUtil Print Filter Run Cli File Session Reporters Program.
From Verif.Spec Require Import ProgramClaims.
From Verif.Proofs Require Import Lists VectorProofs AppendProofs ReplaceProofs PrintProofs CliProofs CliFacts SessionProofs SessionFacts ConfigProofs ReporterProofs ProgramProofs EndToEndProofs.
From Coq Require Import Lia.
Local Open Scope list_scope.

Section Choice.
Variable lm : limits.

Lemma asked_spec v before : asked_verbosity (Some (Some v)) before =
  if seqb v (lit "quiet") then Quiet else if seqb v (lit "normal") then Normal else if seqb v (lit "high") then High else if seqb v (lit "full") then Full else before.
Proof.
  assert (D : forall w, (if list_eq_dec Ascii.ascii_dec w v then true else false) = seqb v w).
  { intros w. destruct (list_eq_dec Ascii.ascii_dec w v) as [->|N]; [symmetry; apply seqb_refl|]. destruct (seqb v w) eqn:E; [|reflexivity]. apply seqb_eq in E. congruence. }
  unfold asked_verbosity, verbosity_levels. cbn [List.find fst snd]. change quote with lit. rewrite !D.
  destruct (seqb v (lit "quiet")); [reflexivity|]. destruct (seqb v (lit "normal")); [reflexivity|]. destruct (seqb v (lit "high")); [reflexivity|]. destruct (seqb v (lit "full")); reflexivity.
Qed.
Lemma set_verbose_same r : set_verbose r (g_verbose r) = r.
Proof. destruct r; reflexivity. Qed.
Lemma verbosity_step_exact o r r' out : verbosity_step lm o r = Ok (r', out) -> r' = set_verbose r (asked_verbosity (option_map a_value o) (g_verbose r)).
Proof.
  destruct o as [a|]; cbn [verbosity_step option_map].
  - unfold value_of. destruct (a_value a) as [v|]; cbn [bind]; [|discriminate]. rewrite asked_spec.
    destruct (seqb v (lit "quiet")); [intros H; now apply (f_equal (fun x => match x with Ok (a, _) => a | Err _ => r end)) in H|].
    destruct (seqb v (lit "normal")); [intros H; now apply (f_equal (fun x => match x with Ok (a, _) => a | Err _ => r end)) in H|].
    destruct (seqb v (lit "high")); [intros H; now apply (f_equal (fun x => match x with Ok (a, _) => a | Err _ => r end)) in H|].
    destruct (seqb v (lit "full")); [intros H; now apply (f_equal (fun x => match x with Ok (a, _) => a | Err _ => r end)) in H|].
    destruct (cli_print _ _); cbn [bind]; [|discriminate]. intros [= <- <-]. symmetry. apply set_verbose_same.
  - intros [= <- <-]. symmetry. apply set_verbose_same.
Qed.

(** The registry just before the reporter is chosen. *)
Definition prepared (r r4 : registry) (v : verbosity) : Prop :=
  g_tests r4 = g_tests r /\ g_reporters r4 = g_reporters r /\ g_verbose r4 = v /\ g_reporter r4 = g_reporter r /\ g_storage r4 = g_storage r.
Lemma configure_prepared can_open r args r' out : configure lm can_open r args = Ok (r', out) ->
  exists r4 out4 out5, prepared r r4 (asked_verbosity (option_map a_value (get_option args (lit "--verbosity"))) (g_verbose r)) /\
    reporter_step lm (get_option args (lit "--reporter")) r4 = Ok (r', out5) /\ out = out4 ++ out5 /\
    g_file r' = g_file r4 /\ g_to_file r' = g_to_file r4.
Proof.
  intros H. apply configure_steps in H as (r1 & b1 & o1 & r2 & b2 & o2 & r3 & o3 & r4 & o4 & o5 & S1 & S2 & S3 & S4 & S5 & ->).
  apply colour_step_effect in S1 as (_ & c1 & -> & _). apply colour_step_effect in S2 as (_ & c2 & -> & _).
  apply verbosity_step_exact in S3. subst r3. exists r4, (o1 ++ o2 ++ o3 ++ o4), o5.
  assert (P : prepared r r4 (asked_verbosity (option_map a_value (get_option args (lit "--verbosity"))) (g_verbose r))).
  { destruct (get_option args (lit "--out")) as [a|]; cbn [ConfigProofs.file_step] in S4.
    - destruct (value_of a); cbn [bind] in S4; [|discriminate]. destruct (open_file _ _ _); cbn [bind] in S4; [|discriminate]. injection S4 as <- <-.
      destruct b2; repeat split; reflexivity.
    - injection S4 as <- <-. repeat split; reflexivity. }
  split; [exact P|]. split; [exact S5|]. split; [now rewrite <- !app_assoc|].
  apply reporter_step_effect in S5 as (_ & [->|(i & p & m & memory & _ & -> & _)]); split; reflexivity.
Qed.

(** The first reporter of its name. *)
Lemma reporter_named r i p arg r' out : first_named (g_reporters r) i p -> valid_name (r_name p) -> names arg (r_name p) ->
  parse_reporter lm r arg = Ok (r', out) ->
  exists m memory, r' = set_reporter r i m (Holds p memory) /\
    forall P : modes -> r_memory p -> Prop, (forall memory1 m1 said, r_initialize p (modes_of r) = Ok (memory1, m1, said) -> P m1 memory1) ->
      (forall m0 memory0 k v memory1 m1 said known, r_configure p m0 memory0 k v = Ok (memory1, m1, said, known) -> P m0 memory0 -> P m1 memory1) -> P m memory.
Proof.
  intros (N & F) V [->|(options & ->)].
  - rewrite (reporter_found_alone lm _ _ _ N F).
    + destruct (r_initialize p (modes_of r)) as [[[memory m] said]|] eqn:E; cbn [bind]; [|discriminate].
      intros H. exists m, memory. split; [now apply (f_equal (fun x => match x with Ok (a, _) => a | Err _ => r end)) in H|]. intros P P1 _. exact (P1 _ _ _ eq_refl).
    + destruct V as (V1 & V2 & V3). split; [exact V1|]. split; [exact V2|]. intros H. apply V3. now apply occurs_prefix.
  - change (quote "::") with (lit "::"). rewrite (reporter_found lm _ _ _ _ N F V).
    destruct (r_initialize p (modes_of r)) as [[[memory m] said]|] eqn:E; cbn [bind]; [|discriminate].
    destruct (option_loop lm _ i p m memory _) as [[[m' memory'] o]|] eqn:O; cbn [bind]; [|discriminate].
    intros H. exists m', memory'. split; [now apply (f_equal (fun x => match x with Ok (a, _) => a | Err _ => r end)) in H|]. intros P P1 P2.
    exact (option_loop_keeps lm p P _ _ P2 _ _ _ _ _ _ O (P1 _ _ _ eq_refl)).
Qed.

Section Library.
Variable file : event -> str.
Variable duration : event -> option str.
Notation console := (console_reporter lm file duration).
Notation teamcity := (teamcity_reporter lm file duration).
Notation xml := (xml_reporter lm file duration).

Lemma valid_check name : name <> [] -> hd_error name <> Some ":"%char -> Base.find (name ++ lit ":") (lit "::") = None -> valid_name name.
Proof. intros A B C. repeat split; auto. now apply find_none_occurs. Qed.
Lemma console_valid : valid_name (r_name console).
Proof. apply valid_check; [discriminate..|vm_compute; reflexivity]. Qed.
Lemma teamcity_valid : valid_name (r_name teamcity).
Proof. apply valid_check; [discriminate..|vm_compute; reflexivity]. Qed.
Lemma xml_valid : valid_name (r_name xml).
Proof. apply valid_check; [discriminate..|vm_compute; reflexivity]. Qed.

Lemma raise_at_least m : m_verbose (raise_verbosity m) = at_least High (m_verbose m).
Proof. reflexivity. Qed.

Lemma xml_chosen r i arg r' out : first_named (g_reporters r) i xml -> names arg (lit "xml") -> parse_reporter lm r arg = Ok (r', out) ->
  r' = set_reporter r i (raise_verbosity (modes_of r)) (Holds xml 0).
Proof.
  intros F N H. destruct (reporter_named r i xml arg r' out F xml_valid N H) as (m & memory & -> & K).
  specialize (K (fun m memory => m = raise_verbosity (modes_of r) /\ memory = 0)). cbn beta in K. destruct K as [-> ->]; [| |reflexivity].
  - cbn [r_initialize xml_reporter]. intros memory1 m1 said [= <- <- <-]. auto.
  - cbn [r_configure xml_reporter]. intros m0 memory0 k v memory1 m1 said known [= <- <- <- <-]. auto.
Qed.
Lemma teamcity_chosen r i arg r' out : first_named (g_reporters r) i teamcity -> names arg (lit "teamcity") -> parse_reporter lm r arg = Ok (r', out) ->
  r' = set_reporter r i (raise_verbosity (modes_of r)) (Holds teamcity tt).
Proof.
  intros F N H. destruct (reporter_named r i teamcity arg r' out F teamcity_valid N H) as (m & [] & -> & K).
  specialize (K (fun m memory => m = raise_verbosity (modes_of r))). cbn beta in K. rewrite K; [reflexivity| |].
  - cbn [r_initialize teamcity_reporter]. intros memory1 m1 said [= <- <- <-]. auto.
  - cbn [r_configure teamcity_reporter]. intros m0 memory0 k v memory1 m1 said known [= <- <- <- <-]. auto.
Qed.
Lemma console_chosen r i arg r' out : first_named (g_reporters r) i console -> names arg (lit "console") -> parse_reporter lm r arg = Ok (r', out) ->
  exists c, r' = set_reporter r i (mkmodes (g_verbose r) c) (Holds console 0).
Proof.
  intros F N H. destruct (reporter_named r i console arg r' out F console_valid N H) as (m & memory & -> & K).
  specialize (K (fun m memory => m_verbose m = g_verbose r /\ memory = 0)). cbn beta in K. destruct K as [E ->].
  - cbn [r_initialize console_reporter]. intros memory1 m1 said [= <- <- <-]. auto.
  - cbn [r_configure console_reporter]. unfold console_configure. intros m0 memory0 k v memory1 m1 said known.
    destruct (seqb k (lit "color")).
    + destruct (color_option_directive _ _ _) as [[[c b] o]|]; cbn [bind]; [|discriminate]. intros [= <- <- <- <-]. auto.
    + destruct (seqb k (lit "colour-mode")).
      * destruct (colour_mode_directive _ _ _) as [[[c b] o]|]; cbn [bind]; [|discriminate]. intros [= <- <- <- <-]. auto.
      * intros [= <- <- <- <-]. auto.
  - exists (m_color m). unfold set_reporter. now rewrite E.
Qed.

(** *** C61 *)
Theorem choice can_open r path argv printed args r' out :
  length argv <= l_max_command_line_args lm -> parse_arguments (cli_of lm) path argv = Ok (printed, Some args) ->
  configure lm can_open r args = Ok (r', out) ->
  let asked := asked_verbosity (setting (read argv) (quote "--verbosity")) (g_verbose r) in
  let unchanged := g_verbose r' = asked /\ g_reporter r' = g_reporter r /\ g_storage r' = g_storage r in
  g_tests r' = g_tests r /\ g_reporters r' = g_reporters r /\
  (setting (read argv) (quote "--reporter") = None -> unchanged) /\
  forall arg, setting (read argv) (quote "--reporter") = Some (Some arg) ->
    ((forall p, In p (g_reporters r) -> ~ names arg (r_name p)) -> unchanged) /\
    forall i p, first_named (g_reporters r) i p -> names arg (r_name p) ->
      (p = console -> g_verbose r' = asked /\ g_reporter r' = Some i) /\
      (p = xml \/ p = teamcity -> g_verbose r' = at_least High asked /\ g_reporter r' = Some i).
Proof.
  intros L P C. cbv zeta. destruct (parsed_options (cli_of lm) _ _ _ _ L P) as [G _].
  pose proof (G (quote "--verbosity") ltac:(discriminate)) as G1. pose proof (G (quote "--reporter") ltac:(discriminate)) as G2.
  rewrite <- G1, <- G2. clear G G1 G2. apply configure_prepared in C as (r4 & o4 & o5 & (P1 & P2 & P3 & P4 & P5) & S & -> & _). change quote with lit in *.
  set (asked := asked_verbosity _ _) in *. clearbody asked. destruct (get_option args (lit "--reporter")) as [a|]; cbn [reporter_step option_map] in *.
  - unfold value_of in S. destruct (a_value a) as [w|]; cbn [bind] in S; [|discriminate].
    pose proof (parse_reporter_quiet _ _ _ _ _ S) as (_ & E).
    split; [destruct E as [->|(i & p & m & memory & _ & -> & _)]; auto|].
    split; [destruct E as [->|(i & p & m & memory & _ & -> & _)]; auto|].
    split; [discriminate|]. intros arg [= <-]. split.
    + intros U. destruct (reporter_unknown lm r4 w) as (ws & E' & _).
      { intros p Hp options. rewrite P2 in Hp. split.
        - intros ->. apply (U p Hp). unfold names, reporter_argument. destruct options as [|o options]; [left; cbn; now rewrite app_nil_r|right].
          cbn [map List.concat]. rewrite <- !app_assoc. eauto.
        - intros (rest & ->). apply (U p Hp). right. now exists rest. }
      rewrite E' in S. injection S as <- <-. auto.
    + intros i p F N. rewrite <- P2 in F. split.
      * intros ->. destruct (console_chosen _ _ _ _ _ F N S) as (c & ->). auto.
      * intros [->| ->].
        -- rewrite (xml_chosen _ _ _ _ _ F N S). cbn [g_verbose g_reporter set_reporter]. rewrite raise_at_least. cbn [m_verbose modes_of]. rewrite P3. auto.
        -- rewrite (teamcity_chosen _ _ _ _ _ F N S). cbn [g_verbose g_reporter set_reporter]. rewrite raise_at_least. cbn [m_verbose modes_of]. rewrite P3. auto.
  - injection S as <- <-. repeat split; auto; discriminate.
Qed.
End Library.
End Choice.
