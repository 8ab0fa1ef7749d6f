(** The options of the reporters of the library (C34). *)
From Coq Require Import Lia.
From Verif.Spec Require Import TextSpec FilterSpec PrintSpec NumberSpec Events SessionSpec ProgramSpec CliSpec.
From Verif.Model Require Import Base Vector StringUtil Print Filter Run Cli File Session Reporters Program.
From Verif.Spec Require Import ProgramClaims.
From Verif.Proofs Require Import Lists AppendProofs ReplaceProofs FilterProofs PrintProofs ReporterProofs.

Lemma equal_text_seqb a b : equal_text a b = seqb a b.
Proof. unfold equal_text. destruct (list_eq_dec ascii_dec a b) as [->|N]; [symmetry; now apply seqb_eq|]. destruct (seqb a b) eqn:E; [apply seqb_eq in E; contradiction|reflexivity]. Qed.

Lemma no_colons name : (match Base.find (name ++ lit ":") (lit "::") with None => True | Some _ => False end) -> ~ occurs (lit "::") (name ++ lit ":").
Proof. intros H. apply find_none_occurs. now destruct (Base.find _ _). Qed.

Theorem console_options lm file duration r i k v :
  first_named (g_reporters r) i (console_reporter lm file duration) ->
  k <> [] -> ~ In "="%char k -> ~ occurs (quote "::") (k ++ quote "=" ++ v) ->
  exists r' warnings, parse_reporter lm r (quote "console::" ++ k ++ quote "=" ++ v) = Ok (r', [Initialized i; Configured i k v] ++ map Printed warnings) /\
    g_reporter r' = Some i /\ g_verbose r' = g_verbose r /\
    let warning p w := cli_print (l_max_message_length lm) (make_colored (quote "warning:") (g_with_color r) color_warning :: p) = Ok w in
    match console_option k v (g_with_color r) with
    | Colours b => g_with_color r' = b /\ warnings = []
    | UnknownValue choices => g_with_color r' = g_with_color r /\
        exists w, warning [Text (quote " unknown color directive; please use one of " ++ choices ++ [ascii_of_nat 10])] w /\ warnings = [w]
    | UnknownKey => g_with_color r' = g_with_color r /\
        exists w, warning [Text (quote " unknown reporter option '"); Text k; Text (quote "'" ++ [ascii_of_nat 10])] w /\ warnings = [w]
    end.
Proof.
  intros (N & F) NE NI NO. set (p := console_reporter lm file duration) in *.
  assert (V : valid_name (r_name p)) by (split; [discriminate|]; split; [discriminate|apply no_colons; exact I]).
  destruct (reporter_selected lm r i p 0 (modes_of r) [] N F V eq_refl) as [_ SEL].
  assert (AR : quote "console::" ++ k ++ quote "=" ++ v = reporter_argument (r_name p) [(k, v)])
    by (unfold reporter_argument; cbn [map concat fst snd]; rewrite app_nil_r; reflexivity).
  rewrite AR. unfold console_option, colour_words. rewrite !equal_text_seqb.
  assert (ALL : forall memory' m' said' known, r_configure p (modes_of r) 0 k v = Ok (memory', m', said', known) -> _)
    by (intros memory' m' said' known; exact (SEL k v memory' m' said' known NE NI NO)).
  assert (D : forall yes no choices c b s, color_directive lm yes no choices (g_with_color r) v = Ok (c, b, s) ->
    if seqb v yes then c = true /\ s = [] else if seqb v no then c = false /\ s = [] else if seqb v (quote "default") then c = g_with_color r /\ s = []
    else c = g_with_color r /\ exists w, cli_print (l_max_message_length lm) [make_colored (quote "warning:") (g_with_color r) color_warning;
      Text (quote " unknown color directive; please use one of " ++ choices ++ [ascii_of_nat 10])] = Ok w /\ s = [w]).
  { intros yes no choices c b s. unfold color_directive. destruct (seqb v yes); [intros [= <- <- <-]; auto|]. destruct (seqb v no); [intros [= <- <- <-]; auto|].
    change (lit "default") with (quote "default"). destruct (seqb v (quote "default")); [intros [= <- <- <-]; auto|].
    match goal with |- bind ?a _ = _ -> _ => destruct a as [w|] eqn:E; cbn [bind]; [|discriminate] end. intros [= <- <- <-]. split; [reflexivity|].
    exists w. split; [exact E|reflexivity]. }
  assert (DT : forall yes no choices, exists c b s, color_directive lm yes no choices (g_with_color r) v = Ok (c, b, s)).
  { intros yes no choices. unfold color_directive. repeat destruct (seqb _ _); eauto. match goal with |- context [cli_print ?m ?l] => destruct (cli_print_total m l) as (s & E & _) end.
    rewrite E. cbn [bind]. eauto. }
  assert (ONE : forall yes no choices, r_configure p (modes_of r) 0 k v =
      (do (c, _, said) <- color_directive lm yes no choices (g_with_color r) v ;; Ok (0, mkmodes (g_verbose r) c, said, true)) ->
      choices = yes ++ quote "|default|" ++ no ->
    exists r' warnings, parse_reporter lm r (reporter_argument (r_name p) [(k, v)]) = Ok (r', [Initialized i; Configured i k v] ++ map Printed warnings) /\
    g_reporter r' = Some i /\ g_verbose r' = g_verbose r /\
    let warning p w := cli_print (l_max_message_length lm) (make_colored (quote "warning:") (g_with_color r) color_warning :: p) = Ok w in
    match (if seqb v yes then Colours true else if seqb v no then Colours false else if seqb v (quote "default") then Colours (g_with_color r)
           else UnknownValue (yes ++ quote "|default|" ++ no)) with
    | Colours b => g_with_color r' = b /\ warnings = []
    | UnknownValue choices => g_with_color r' = g_with_color r /\
        exists w, warning [Text (quote " unknown color directive; please use one of " ++ choices ++ [ascii_of_nat 10])] w /\ warnings = [w]
    | UnknownKey => g_with_color r' = g_with_color r /\
        exists w, warning [Text (quote " unknown reporter option '"); Text k; Text (quote "'" ++ [ascii_of_nat 10])] w /\ warnings = [w]
    end).
  { intros yes no choices RC CH. destruct (DT yes no choices) as (c & b & s & E). rewrite E in RC. cbn [bind] in RC. destruct (ALL _ _ _ _ RC) as (w & PR & ->).
    rewrite app_nil_r in PR. eexists; exists s. split; [rewrite PR; reflexivity|]. split; [reflexivity|]. split; [reflexivity|]. cbn zeta.
    specialize (D yes no choices c b s E). subst choices. destruct (seqb v yes); [exact D|]. destruct (seqb v no); [exact D|]. destruct (seqb v (quote "default")); [exact D|]. exact D. }
  destruct (seqb k (quote "color")) eqn:K1.
  { rewrite !equal_text_seqb. apply (ONE _ _ (lit "always|default|never")); [|reflexivity]. cbn [r_configure p console_reporter]. unfold console_configure. change (lit "color") with (quote "color"). now rewrite K1. }
  destruct (seqb k (quote "colour-mode")) eqn:K2.
  { rewrite !equal_text_seqb. apply (ONE _ _ (lit "ansi|default|none")); [|reflexivity]. cbn [r_configure p console_reporter]. unfold console_configure. change (lit "color") with (quote "color"). rewrite K1.
    change (lit "colour-mode") with (quote "colour-mode"). now rewrite K2. }
  assert (RC : r_configure p (modes_of r) 0 k v = Ok (0, modes_of r, [], false)).
  { cbn [r_configure p console_reporter]. unfold console_configure. change (lit "color") with (quote "color"). rewrite K1. change (lit "colour-mode") with (quote "colour-mode"). now rewrite K2. }
  destruct (ALL _ _ _ _ RC) as (w & PR & s & E & ->). eexists; exists [s]. split; [rewrite PR; reflexivity|]. repeat split. exists s. split; [exact E|reflexivity].
Qed.

Theorem other_options lm file duration r i p k v :
  first_named (g_reporters r) i p -> p = xml_reporter lm file duration \/ p = teamcity_reporter lm file duration ->
  k <> [] -> ~ In "="%char k -> ~ occurs (quote "::") (k ++ quote "=" ++ v) ->
  exists r' w, parse_reporter lm r (r_name p ++ quote "::" ++ k ++ quote "=" ++ v) = Ok (r', [Initialized i; Configured i k v; Printed w]) /\
    g_reporter r' = Some i /\ g_verbose r' = at_least High (g_verbose r) /\ g_with_color r' = g_with_color r /\
    cli_print (l_max_message_length lm)
      [make_colored (quote "warning:") (g_with_color r) color_warning; Text (quote " unknown reporter option '"); Text k; Text (quote "'" ++ [ascii_of_nat 10])] = Ok w.
Proof.
  intros (N & F) P NE NI NO.
  assert (AR : r_name p ++ quote "::" ++ k ++ quote "=" ++ v = reporter_argument (r_name p) [(k, v)])
    by (unfold reporter_argument; cbn [map concat fst snd]; rewrite app_nil_r; reflexivity).
  rewrite AR. assert (V : valid_name (r_name p)) by (destruct P as [->| ->]; (split; [discriminate|]; split; [discriminate|apply no_colons; exact I])).
  assert (M : exists memory, r_initialize p (modes_of r) = Ok (memory, raise_verbosity (modes_of r), []) /\
    r_configure p (raise_verbosity (modes_of r)) memory k v = Ok (memory, raise_verbosity (modes_of r), [], false)) by (destruct P as [->| ->]; eexists; split; reflexivity).
  destruct M as (memory & INI & RC). destruct (reporter_selected lm r i p memory _ [] N F V INI) as [_ SEL].
  destruct (SEL k v _ _ _ _ NE NI NO RC) as (w & PR & s & E & ->). eexists; exists s. split; [rewrite PR; reflexivity|].
  split; [reflexivity|]. split; [reflexivity|]. split; [reflexivity|]. exact E.
Qed.
