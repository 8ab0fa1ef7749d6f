(** What is left of the output of a program that dies (C96). *)
From Verif.Spec Require Import TextSpec FilterSpec PrintSpec CliSpec Events VerdictSpec SessionSpec ProgramSpec ConsoleSpec StreamSpec.
From Verif.Model Require Import Base Vector StringUtil Print Filter Run Cli File Session Reporters Program Streams.
From Verif.Spec Require Import ProgramClaims.
From Verif.Proofs Require Import ReportExamples Lists PrintProofs CliProofs CliFacts SessionProofs SessionFacts ConfigProofs ReporterProofs ProgramProofs EndToEndProofs ConsoleProofs ChoiceProofs WholeProofs WarningProofs.
From Coq Require Import Lia.
Local Open Scope list_scope.

(** ** Streams *)
Lemma app_self {A} (a b : list A) : a ++ b = a -> b = [].
Proof. intros H. apply (app_inv_head a). now rewrite app_nil_r. Qed.

Lemma runs_app k a : forall b w w', runs k (a ++ b) w w' <-> exists w1, runs k a w w1 /\ runs k b w1 w'.
Proof.
  induction a as [|c a IH]; intros b w w'; cbn [app runs].
  - split; [intros H; eauto|intros (w1 & -> & H); exact H].
  - split.
    + intros (w1 & D & R). apply IH in R as (w2 & R1 & R2). eauto.
    + intros (w2 & (w1 & D & R1) & R2). exists w1. split; [exact D|]. apply IH. eauto.
Qed.
Lemma given_app p a b : given_to p (a ++ b) = given_to p a ++ given_to p b.
Proof. apply flat_map_app. Qed.
Lemma written_app p a b : written p (a ++ b) = written p a ++ written p b.
Proof. unfold written. now rewrite given_app, concat_app. Qed.
Lemma opened_app a b : opened (a ++ b) = opened a || opened b.
Proof. apply existsb_app. Qed.
Lemma codes_app a b : user_codes (a ++ b) = user_codes a ++ user_codes b.
Proof. apply flat_map_app. Qed.

Definition all_of (s : stream) : text := device s ++ waiting s.
Lemma moves_all s s' : moves true s s' -> all_of s' = all_of s.
Proof. intros ((lost & E & L) & _). rewrite (L eq_refl), app_nil_r in E. exact E. Qed.
Lemma moves_part k s s' : moves k s s' -> exists passed rest, device s' = device s ++ passed /\ waiting s = passed ++ rest.
Proof.
  intros ((lost & E & _) & passed & P). exists passed, (waiting s' ++ lost). split; [exact P|]. rewrite P, <- app_assoc in E. now apply app_inv_head in E.
Qed.

(** The console. *)
Lemma console_runs l : forall w w', runs true l w w' -> all_of (console w') = all_of (console w) ++ written Console l.
Proof.
  induction l as [|c l IH]; intros w w'; cbn [runs].
  - intros ->. unfold written. cbn. now rewrite app_nil_r.
  - intros (w1 & D & R). rewrite (IH _ _ R). change (c :: l) with ([c] ++ l). rewrite written_app, app_assoc. f_equal.
    assert (N : console w1 = console w -> written Console [c] = [] -> all_of (console w1) = all_of (console w) ++ written Console [c]).
    { intros -> ->. now rewrite app_nil_r. }
    destruct c as [[|] t|[|]| | |n]; cbn [does] in D.
    + destruct D as (M & _). rewrite (moves_all _ _ M). unfold all_of, given, written. cbn. now rewrite app_nil_r, app_assoc.
    + destruct D as (s & s' & _ & _ & _ & E). apply N; [exact E|reflexivity].
    + destruct D as (M & _). rewrite (moves_all _ _ M). unfold written. cbn. now rewrite app_nil_r.
    + destruct D as (s & s' & _ & _ & _ & _ & E). apply N; [exact E|reflexivity].
    + destruct D as (_ & _ & E). apply N; [exact E|reflexivity].
    + destruct D as (s & s' & _ & _ & _ & _ & E). apply N; [exact E|reflexivity].
    + subst w1. apply N; reflexivity.
Qed.
Lemma console_ran l w : runs true l start w -> device (console w) ++ waiting (console w) = written Console l.
Proof. intros R. exact (console_runs _ _ _ R). Qed.
Lemma console_died l w : dies true l w -> StreamSpec.begins (console_left w) (written Console l).
Proof.
  intros [R|(before & c & w1 & -> & R & D)].
  - exists (waiting (console w)). symmetry. apply console_ran, R.
  - rewrite written_app, <- (console_ran _ _ R). unfold console_left, StreamSpec.begins.
    assert (N : console w = console w1 -> exists rest, (device (console w1) ++ waiting (console w1)) ++ written Console [c] = device (console w) ++ rest).
    { intros ->. exists (waiting (console w1) ++ written Console [c]). now rewrite app_assoc. }
    destruct c as [[|] t|[|]| | |n]; cbn [does] in D.
    + destruct D as (M & _). destruct (moves_part _ _ _ M) as (p & rest & E & W). cbn [given device waiting] in E, W. exists rest.
      rewrite E. unfold written. cbn. rewrite app_nil_r, <- !app_assoc, W. reflexivity.
    + destruct D as (s & s' & _ & _ & _ & E). apply N, E.
    + destruct D as (M & _). destruct (moves_part _ _ _ M) as (p & rest & E & W). exists rest. rewrite E. unfold written. cbn. now rewrite app_nil_r, W, app_assoc.
    + destruct D as (s & s' & _ & _ & _ & _ & E). apply N, E.
    + destruct D as (_ & _ & E). apply N, E.
    + destruct D as (s & s' & _ & _ & _ & _ & E). apply N, E.
    + subst w. apply N. reflexivity.
Qed.

(** ** Programs that flush the file after each text *)
Inductive phase := PNone | POpen | PClosed.
Inductive paced : phase -> list step -> phase -> Prop :=
| p_nil p : paced p [] p
| p_console p q s l : paced p l q -> paced p (Write Console s :: l) q
| p_user p q n l : paced p l q -> paced p (UserCode n :: l) q
| p_open q l : paced POpen l q -> paced PNone (Open :: l) q
| p_write q s l : paced POpen l q -> paced POpen (Write OutputFile s :: Flush OutputFile :: l) q
| p_close q l : paced PClosed l q -> paced POpen (Close :: l) q.

Lemma paced_app p a m : paced p a m -> forall b q, paced m b q -> paced p (a ++ b) q.
Proof. induction 1; intros b' r H'; cbn [app]; auto using paced. Qed.
Lemma paced_split p a : forall b q, paced p (a ++ b) q ->
  (exists m, paced p a m /\ paced m b q) \/
  exists a' s b', a = a' ++ [Write OutputFile s] /\ b = Flush OutputFile :: b' /\ paced p a' POpen /\ paced POpen b' q.
Proof.
  remember (length a) as n eqn:N. assert (L : length a <= n) by lia. clear N. revert p a L. induction n as [|n IH]; intros p a L b q H.
  { destruct a; [|cbn in L; lia]. left. exists p. split; [constructor|exact H]. }
  destruct a as [|c a]; [left; exists p; split; [constructor|exact H]|]. cbn [app length] in *.
  assert (K : forall p' a0, length a0 <= n -> paced p' (a0 ++ b) q -> (forall m, paced p' a0 m -> paced p (c :: a) m) -> (exists pre, c :: a = pre ++ a0 /\ forall x, paced p' x POpen -> paced p (pre ++ x) POpen) ->
     (exists m, paced p (c :: a) m /\ paced m b q) \/
     exists a' s b', c :: a = a' ++ [Write OutputFile s] /\ b = Flush OutputFile :: b' /\ paced p a' POpen /\ paced POpen b' q).
  { intros p' a0 L0 H0 F (pre & E & G). destruct (IH p' a0 L0 b q H0) as [(m & A & B)|(a' & s & b' & A & B & C & D)]; [left; eauto|].
    right. exists (pre ++ a'), s, b'. split; [rewrite E, A, app_assoc; reflexivity|]. auto. }
  inversion H; subst.
  - eapply K; [|eassumption| |]; [lia|auto using paced|]. exists [Write Console s]. split; [reflexivity|]. cbn. auto using paced.
  - eapply K; [|eassumption| |]; [lia|auto using paced|]. exists [UserCode n0]. split; [reflexivity|]. cbn. auto using paced.
  - eapply K; [|eassumption| |]; [lia|auto using paced|]. exists [Open]. split; [reflexivity|]. cbn. auto using paced.
  - destruct a as [|c a]; cbn [app] in *.
    + right. exists [], s, l. split; [reflexivity|]. split; [congruence|]. split; [constructor|assumption].
    + match goal with E : Flush OutputFile :: l = c :: a ++ b |- _ => injection E as <- -> end. cbn [length] in L.
      eapply K; [|eassumption| |]; [lia|auto using paced|]. exists [Write OutputFile s; Flush OutputFile]. split; [reflexivity|]. cbn. auto using paced.
  - eapply K; [|eassumption| |]; [lia|auto using paced|]. exists [Close]. split; [reflexivity|]. cbn. auto using paced.
Qed.

Definition at_phase (p : phase) (w : world) (t : text) : Prop :=
  match p with
  | PNone => the_file w = NoFile /\ t = []
  | POpen => the_file w = IsOpen (mkstream t [])
  | PClosed => the_file w = IsClosed t
  end.
Lemma write_flush w s w1 w2 t k : the_file w = IsOpen (mkstream t []) -> does true (Write OutputFile s) w w1 -> does k (Flush OutputFile) w1 w2 ->
  exists part rest, the_file w2 = IsOpen (mkstream (t ++ part) []) /\ s = part ++ rest /\ (k = true -> rest = []).
Proof.
  intros O (a & a1 & E1 & E2 & M1 & _) (b & b1 & F1 & F2 & M2 & W & _). rewrite O in E1. injection E1 as <-. rewrite E2 in F1. injection F1 as <-.
  pose proof (moves_all _ _ M1) as A. destruct (moves_part _ _ _ M1) as (p1 & r1 & P1 & Q1). destruct (moves_part _ _ _ M2) as (p2 & r2 & P2 & Q2).
  unfold all_of, given in *. cbn [device waiting app] in *. rewrite P1 in A. rewrite <- app_assoc in A. apply app_inv_head in A. 
  exists (p1 ++ p2), r2. split; [rewrite F2; f_equal; destruct b1 as [d1 v1]; cbn [device waiting] in *; now rewrite W, P2, P1, app_assoc|].
  split; [rewrite <- A, Q2, app_assoc; reflexivity|]. intros ->. pose proof (moves_all _ _ M2) as B. unfold all_of in B. rewrite P2, W, Q2, app_nil_r in B.
  apply app_inv_head in B. symmetry in B. now apply app_self in B.
Qed.
Lemma paced_runs p l q : paced p l q -> forall w t w', at_phase p w t -> runs true l w w' -> at_phase q w' (t ++ written OutputFile l).
Proof.
  induction 1 as [p|p q s l H IH|p q n l H IH|q l H IH|q s l H IH|q l H IH]; intros w t w' A R.
  - cbn [runs] in R. subst w'. unfold written. cbn. now rewrite app_nil_r.
  - destruct R as (w1 & (M & E) & R). apply (IH w1 t w'); [|exact R]. destruct p; cbn [at_phase] in *; rewrite E; exact A.
  - destruct R as (w1 & -> & R). apply (IH w t w'); [exact A|exact R].
  - destruct R as (w1 & (E1 & E2 & _) & R). destruct A as (_ & ->). apply (IH w1 [] w'); [exact E2|exact R].
  - destruct R as (w1 & D1 & w2 & D2 & R). destruct (write_flush w s w1 w2 t true A D1 D2) as (part & rest & O & S & Z). rewrite (Z eq_refl), app_nil_r in S. subst part.
    apply (IH w2 (t ++ s) w') in R; [|exact O]. revert R. unfold written. cbn. now rewrite <- app_assoc.
  - destruct R as (w1 & (s & s' & E1 & E2 & M & W & _) & R). cbn [at_phase] in A. rewrite A in E1. injection E1 as <-. apply (IH w1 t w'); [|exact R]. cbn [at_phase]. rewrite E2. f_equal.
    pose proof (moves_all _ _ M) as B. unfold all_of in B. cbn [device waiting] in B. now rewrite W, !app_nil_r in B.
Qed.
Lemma paced_opened p l q : paced p l q -> p = PNone -> opened l = match q with PNone => false | _ => true end.
Proof.
  assert (B : forall p l q, paced p l q -> p <> PNone -> q <> PNone) by (induction 1; intros; try assumption; apply IHpaced; try assumption; discriminate).
  induction 1; intros E; cbn [opened existsb orb]; try discriminate; auto.
  - subst. reflexivity.
  - apply B in H; [|discriminate]. destruct q; [contradiction|reflexivity|reflexivity].
Qed.
Lemma phase_left p w t : at_phase p w t -> file_left w = match p with PNone => None | _ => Some t end.
Proof. unfold file_left. destruct p; cbn [at_phase]; [intros (-> & _)|intros ->|intros ->]; reflexivity. Qed.
Lemma paced_left l q w : paced PNone l q -> runs true l start w -> file_left w = if opened l then Some (written OutputFile l) else None.
Proof.
  intros P R. assert (A : at_phase PNone start []) by (split; reflexivity). pose proof (paced_runs _ _ _ P start [] w A R) as B. cbn [app] in B.
  rewrite (phase_left _ _ _ B), (paced_opened _ _ _ P eq_refl). destruct q; reflexivity.
Qed.

Lemma paced_before_user a n b q : paced PNone (a ++ UserCode n :: b) q -> exists m, paced PNone a m.
Proof. intros P. destruct (paced_split _ _ _ _ P) as [(m & H & _)|(a' & s & b' & _ & H & _)]; [eauto|discriminate]. Qed.

(** Whatever the moment of the death, only the last text can be incomplete. *)
Definition complete_but_last (l : list step) (w : world) : Prop :=
  (opened l = false -> file_left w = None) /\
  (opened l = true -> exists earlier part, file_left w = Some (List.concat earlier ++ part) /\
     (given_to OutputFile l = earlier /\ part = [] \/ exists last, given_to OutputFile l = earlier ++ [last] /\ StreamSpec.begins part last)).

Lemma complete_exact l w : file_left w = (if opened l then Some (written OutputFile l) else None) -> complete_but_last l w.
Proof.
  intros E. split; intros O; rewrite O in E; [exact E|]. exists (given_to OutputFile l), []. rewrite app_nil_r. split; [exact E|]. left. auto.
Qed.
Lemma complete_last l a s w part : l = a ++ [Write OutputFile s] \/ l = a ++ [Write OutputFile s; Flush OutputFile] -> opened a = true ->
  file_left w = Some (written OutputFile a ++ part) -> StreamSpec.begins part s -> complete_but_last l w.
Proof.
  intros E O F B. assert (G : given_to OutputFile l = given_to OutputFile a ++ [s]) by (destruct E as [->| ->]; rewrite given_app; reflexivity).
  assert (O2 : opened l = true) by (destruct E as [->| ->]; rewrite opened_app, O; reflexivity).
  split; intros O3; [congruence|]. exists (given_to OutputFile a), part. split; [exact F|]. right. exists s. auto.
Qed.
Lemma open_opened l : paced PNone l POpen -> opened l = true.
Proof. intros P. now rewrite (paced_opened _ _ _ P eq_refl). Qed.
Lemma start_phase : at_phase PNone start [].
Proof. split; reflexivity. Qed.
Lemma paced_ran l q w : paced PNone l q -> runs true l start w -> at_phase q w (written OutputFile l).
Proof. intros P R. exact (paced_runs _ _ _ P start [] w start_phase R). Qed.

Lemma paced_died l q rest w : paced PNone (l ++ rest) q -> dies true l w -> complete_but_last l w.
Proof.
  intros P D. destruct D as [R|(before & c & w1 & -> & R & D)].
  - destruct (paced_split _ _ _ _ P) as [(m & H & _)|(a & s & b & -> & _ & H & _)]; [apply complete_exact, (paced_left _ _ _ H R)|].
    apply runs_app in R as (w1 & R & w2 & (x & y & E1 & E2 & M & _) & Z). cbn [runs] in Z. subst w2. pose proof (paced_ran _ _ _ H R) as A. cbn [at_phase] in A. rewrite A in E1. injection E1 as <-.
    destruct (moves_part _ _ _ M) as (p & r & P1 & Q1). cbn [given device waiting app] in P1, Q1.
    eapply complete_last; [left; reflexivity|apply open_opened, H| |]; [unfold file_left; rewrite E2, P1; reflexivity|exists r; exact Q1].
  - rewrite <- app_assoc in P. cbn [app] in P. destruct (paced_split _ _ _ _ P) as [(m & H & H2)|(a & s & b & -> & F & H & _)].
    + pose proof (paced_ran _ _ _ H R) as A. 
      assert (EX : opened [c] = false -> given_to OutputFile [c] = [] -> file_left w = file_left w1 -> complete_but_last (before ++ [c]) w).
      { intros O G F. apply complete_exact. rewrite F, opened_app, O, orb_false_r, written_app. unfold written at 2. rewrite G. cbn [List.concat]. rewrite app_nil_r. apply (paced_left _ _ _ H R). }
      inversion H2; subst; cbn [does] in D.
      * destruct D as (_ & E). apply EX; [reflexivity|reflexivity|]. unfold file_left. now rewrite E.
      * subst w. apply EX; reflexivity.
      * destruct D as (_ & E & _). apply complete_exact. rewrite opened_app. cbn [opened existsb orb]. rewrite orb_true_r, written_app. unfold written at 2. cbn [given_to flat_map List.concat app].
        destruct A as (_ & A). rewrite A. unfold file_left. rewrite E. reflexivity.
      * destruct D as (x & y & E1 & E2 & M & _). cbn [at_phase] in A. rewrite A in E1. injection E1 as <-. destruct (moves_part _ _ _ M) as (p & r & P1 & Q1). cbn [given device waiting app] in P1, Q1.
        eapply complete_last; [left; reflexivity|apply open_opened, H| |]; [unfold file_left; rewrite E2, P1; reflexivity|exists r; exact Q1].
      * destruct D as (x & y & E1 & E2 & M & W & _). cbn [at_phase] in A. rewrite A in E1. injection E1 as <-. destruct (moves_part _ _ _ M) as (p & r & P1 & Q1). cbn [device waiting] in P1, Q1.
        apply EX; [reflexivity|reflexivity|]. unfold file_left. rewrite E2, A, P1. symmetry in Q1. apply app_eq_nil in Q1 as (-> & _). rewrite app_nil_r. reflexivity.
    + injection F as -> _. apply runs_app in R as (w0 & R & w2 & D1 & Z). cbn [runs] in Z. subst w2. pose proof (paced_ran _ _ _ H R) as A. cbn [at_phase] in A.
      destruct (write_flush _ _ _ _ _ _ A D1 D) as (part & r & O & S & _).
      eapply (complete_last _ a s w part); [right; rewrite <- app_assoc; reflexivity|apply open_opened, H| |exists r; exact S]. unfold file_left. rewrite O. reflexivity.
Qed.

(** ** Executions exist; the console and a full disk may get nothing *)
Lemma keeps_nothing k s t : moves k (given s t) (given s t).
Proof. split; [exists []; rewrite app_nil_r; auto|]. exists []. now rewrite app_nil_r. Qed.
Lemma passes_all s : moves true s (mkstream (device s ++ waiting s) []).
Proof. split; [exists []; cbn; rewrite app_nil_r; auto|]. exists (waiting s). reflexivity. Qed.
Lemma paced_possible p l q : paced p l q -> forall w t, at_phase p w t -> exists w', runs true l w w' /\ device (console w') = device (console w).
Proof.
  induction 1 as [p|p q s l H IH|p q n l H IH|q l H IH|q s l H IH|q l H IH]; intros w t A.
  - exists w. split; reflexivity.
  - destruct (IH (mkworld (given (console w) s) (the_file w)) t) as (w' & R & E); [destruct p; exact A|].
    exists w'. split; [|exact E]. eexists. split; [|exact R]. split; [apply keeps_nothing|reflexivity].
  - destruct (IH w t A) as (w' & R & E). exists w'. split; [|exact E]. exists w. split; [reflexivity|exact R].
  - destruct (IH (mkworld (console w) (IsOpen (mkstream [] []))) []) as (w' & R & E); [reflexivity|]. exists w'. split; [|exact E].
    eexists. split; [|exact R]. destruct A as (A & _). repeat split; auto.
  - destruct (IH (mkworld (console w) (IsOpen (mkstream (t ++ s) []))) (t ++ s)) as (w' & R & E); [reflexivity|]. exists w'. split; [|exact E].
    exists (mkworld (console w) (IsOpen (mkstream t s))). split; [|eexists; split; [|exact R]].
    + exists (mkstream t []), (mkstream t s). repeat split; auto; [|exists []; cbn; now rewrite app_nil_r]. exists []. cbn. rewrite app_nil_r. auto.
    + exists (mkstream t s), (mkstream (t ++ s) []). cbn [the_file console waiting]. repeat split; auto; [exists []; cbn; rewrite app_nil_r; auto|exists s; reflexivity].
  - destruct (IH (mkworld (console w) (IsClosed t)) t) as (w' & R & E); [reflexivity|]. exists w'. split; [|exact E].
    eexists. split; [|exact R]. exists (mkstream t []), (mkstream t []). cbn [the_file console waiting device]. repeat split; auto; [exists []; cbn; rewrite app_nil_r; auto|exists []; cbn; now rewrite app_nil_r].
Qed.
Lemma paced_prefix_possible l rest q : paced PNone (l ++ rest) q -> exists w, runs true l start w /\ console_left w = [].
Proof.
  intros P. destruct (paced_split _ _ _ _ P) as [(m & H & _)|(a & s & b & -> & _ & H & _)].
  - exact (paced_possible _ _ _ H start [] start_phase).
  - destruct (paced_possible _ _ _ H start [] start_phase) as (w & R & E). pose proof (paced_ran _ _ _ H R) as A. cbn [at_phase] in A.
    exists (mkworld (console w) (IsOpen (mkstream (written OutputFile a) s))). split; [|exact E]. apply runs_app. exists w. split; [exact R|].
    eexists. split; [|reflexivity]. exists (mkstream (written OutputFile a) []), (mkstream (written OutputFile a) s). cbn [the_file console].
    repeat split; auto; [|exists []; cbn; now rewrite app_nil_r]. exists []. cbn. rewrite app_nil_r. auto.
Qed.
Lemma console_may_wait l : (forall c, In c l -> exists s, c = Write Console s) -> forall w, exists w', runs true l w w' /\ device (console w') = device (console w).
Proof.
  induction l as [|c l IH]; intros F w; [exists w; split; reflexivity|]. destruct (F c) as (s & ->); [now left|].
  destruct (IH (fun c H => F c (or_intror H)) (mkworld (given (console w) s) (the_file w))) as (w' & R & E). exists w'. split; [|exact E].
  eexists. split; [|exact R]. split; [apply keeps_nothing|reflexivity].
Qed.
Lemma loses_all t : moves false (mkstream [] t) (mkstream [] []).
Proof. split; [exists t; cbn; split; [reflexivity|discriminate]|]. exists []. reflexivity. Qed.
Lemma paced_full p l q : paced p l q -> forall w, at_phase p w [] -> exists w', runs false l w w' /\ at_phase q w' [].
Proof.
  induction 1 as [p|p q s l H IH|p q n l H IH|q l H IH|q s l H IH|q l H IH]; intros w A.
  - exists w. split; [reflexivity|exact A].
  - destruct (IH (mkworld (given (console w) s) (the_file w))) as (w' & R & E); [destruct p; exact A|].
    exists w'. split; [|exact E]. eexists. split; [|exact R]. split; [apply keeps_nothing|reflexivity].
  - destruct (IH w A) as (w' & R & E). exists w'. split; [|exact E]. exists w. split; [reflexivity|exact R].
  - destruct (IH (mkworld (console w) (IsOpen (mkstream [] [])))) as (w' & R & E); [reflexivity|]. exists w'. split; [|exact E].
    eexists. split; [|exact R]. destruct A as (A & _). repeat split; auto.
  - destruct (IH w A) as (w' & R & E). exists w'. split; [|exact E].
    exists w. split; [|exists w; split; [|exact R]]; exists (mkstream [] []), (mkstream [] []); repeat split; auto; solve [exists s; cbn; split; [reflexivity|discriminate]|exists []; cbn; auto].
  - destruct (IH (mkworld (console w) (IsClosed []))) as (w' & R & E); [reflexivity|]. exists w'. split; [|exact E].
    eexists. split; [|exact R]. exists (mkstream [] []), (mkstream [] []). cbn [the_file console waiting device]. repeat split; auto; exists []; auto.
Qed.

(** ** Programs *)
Lemma steps_console l : written Console (flat_map steps_of l) = console_text l.
Proof.
  induction l as [|o l IH]; [reflexivity|]. cbn [flat_map]. rewrite written_app, IH. unfold console_text. cbn [flat_map]. f_equal.
  destruct o as [s|w e|i|i k v|i|p|s|]; unfold written; cbn; try reflexivity; [now rewrite app_nil_r|]. destruct e; reflexivity.
Qed.
Lemma steps_file l : written OutputFile (flat_map steps_of l) = file_text l.
Proof.
  induction l as [|o l IH]; [reflexivity|]. cbn [flat_map]. rewrite written_app, IH. unfold file_text. cbn [flat_map]. f_equal.
  destruct o as [s|w e|i|i k v|i|p|s|]; unfold written; cbn; try reflexivity; [|now rewrite app_nil_r]. destruct e; reflexivity.
Qed.
Lemma steps_codes l : user_codes (flat_map steps_of l) = codes_in (events_of l).
Proof.
  induction l as [|o l IH]; [reflexivity|]. cbn [flat_map]. rewrite codes_app, IH. change (o :: l) with ([o] ++ l). rewrite events_of_app. unfold codes_in. rewrite flat_map_app. f_equal.
  destruct o as [s|w e|i|i k v|i|p|s|]; cbn; try reflexivity. destruct e; reflexivity.
Qed.
Lemma no_codes r l out : print_all r l = Ok out -> user_codes (flat_map steps_of out) = [].
Proof.
  revert out. induction l as [|s l IH]; intros out; cbn [print_all]; [intros [= <-]; reflexivity|]. unfold print_text. 
  destruct (g_to_file r); [destruct (g_file r); [|discriminate]|]; cbn [bind]; (destruct (print_all r l) as [b|]; cbn [bind]; [|discriminate]); intros [= <-]; cbn; auto.
Qed.

Section Programs.
Variable lm : limits.
Variable fuel : nat.
Variable file : event -> str.
Variable duration : event -> option str.
Notation main_program := (main_program lm fuel file duration).
Notation main_steps := (main_steps lm fuel file duration).
Notation perform_steps := (perform_steps lm file duration).
Notation perform := (perform lm file duration).
Notation report := (report lm file duration).
Notation report_list := (report_list lm file duration).

Definition alike_run (a : res (registry * list output)) (b : res (registry * list step)) : Prop :=
  match a, b with
  | Ok (r, out), Ok (r', steps) => r = r' /\ written Console steps = console_text out /\ written OutputFile steps = file_text out
  | Err e, Err e' => e = e'
  | _, _ => False
  end.
Lemma perform_alike l : forall r, alike_run (perform r l) (perform_steps r l).
Proof.
  induction l as [|o l IH]; intros r; [repeat split|].
  assert (K : forall r1, (forall w e, o <> Reported w e) ->
    alike_run (do (r2, rest) <- perform r1 l ;; Ok (r2, o :: rest)) (do (r2, rest) <- perform_steps r1 l ;; Ok (r2, steps_of o ++ rest))).
  { intros r1 NR. specialize (IH r1). destruct (perform r1 l) as [[r2 out]|], (perform_steps r1 l) as [[r2' steps]|]; cbn [bind alike_run] in *; try contradiction; auto.
    destruct IH as (-> & A & B). rewrite !written_app, A, B. split; [reflexivity|]. change (o :: out) with ([o] ++ out). rewrite console_text_app, file_text_app.
    split; f_equal; [rewrite <- (steps_console [o])|rewrite <- (steps_file [o])]; cbn [flat_map]; now rewrite app_nil_r. }
  destruct o as [s|w e|i|i k v|i|p|s|]; cbn [Program.perform Streams.perform_steps]; try (apply K; discriminate).
  destruct (report r e) as [[r1 texts]|]; cbn [bind]; [|reflexivity]. destruct (print_all r1 texts) as [printed|]; cbn [bind]; [|reflexivity].
  specialize (IH r1). destruct (perform r1 l) as [[r2 out]|], (perform_steps r1 l) as [[r2' steps]|]; cbn [bind alike_run] in *; try contradiction; auto.
  destruct IH as (-> & A & B). rewrite !written_app, A, B, steps_console, steps_file, console_text_app, file_text_app. split; [reflexivity|].
  split; (replace (written _ (steps_of (Reported w e))) with (@nil ascii) by (destruct e; reflexivity)); reflexivity.
Qed.
Theorem same_program can_open r path argv :
  match main_program can_open r path argv, main_steps can_open r path argv with
  | Ok (out, code), Ok (steps, code') => code' = code /\ written Console steps = console_text out /\ written OutputFile steps = file_text out
  | Err e, Err e' => e' = e
  | _, _ => False
  end.
Proof.
  unfold Program.main_program, Streams.main_steps. destruct (parse_arguments _ path argv) as [[printed [args|]]|]; cbn [bind]; [| |reflexivity].
  - destruct (configure lm can_open r args) as [[r1 out1]|]; cbn [bind]; [|reflexivity]. unfold run_program.
    destruct (run_tests lm fuel r1 args) as [[[r2 out2] success]|]; cbn [bind]; [|reflexivity].
    pose proof (perform_alike out2 r1) as A. destruct (perform r1 out2) as [[r3 out3]|], (perform_steps r1 out2) as [[r3' steps]|]; cbn [bind alike_run] in *; try contradiction; auto.
    destruct A as (_ & A & B). split; [reflexivity|]. rewrite app_assoc, !written_app, console_text_app, file_text_app, A, B, steps_console, steps_file. auto.
  - split; [reflexivity|]. now rewrite steps_console, steps_file.
Qed.

Lemma perform_codes l : forall r r' steps, perform_steps r l = Ok (r', steps) -> user_codes steps = codes_in (events_of l).
Proof.
  induction l as [|o l IH]; intros r r' steps; [intros [= <- <-]; reflexivity|].
  assert (K : forall r1, (do (r2, rest) <- perform_steps r1 l ;; Ok (r2, steps_of o ++ rest)) = Ok (r', steps) -> user_codes steps = codes_in (events_of (o :: l))).
  { intros r1. destruct (perform_steps r1 l) as [[r2 rest]|] eqn:P; cbn [bind]; [|discriminate]. intros [= <- <-]. rewrite codes_app, (IH _ _ _ P).
    change (o :: l) with ([o] ++ l). rewrite events_of_app. unfold codes_in. rewrite flat_map_app. f_equal. rewrite <- (app_nil_r (steps_of o)). exact (steps_codes [o]). }
  destruct o as [s|w e|i|i k v|i|p|s|]; cbn [Streams.perform_steps]; try apply K.
  destruct (report r e) as [[r1 texts]|]; cbn [bind]; [|discriminate]. destruct (print_all r1 texts) as [printed|] eqn:PA; cbn [bind]; [|discriminate].
  destruct (perform_steps r1 l) as [[r2 rest]|] eqn:P; cbn [bind]; [|discriminate]. intros [= <- <-]. rewrite !codes_app, (IH _ _ _ P), (no_codes _ _ _ PA).
  change (Reported w e :: l) with ([Reported w e] ++ l). rewrite events_of_app. unfold codes_in. rewrite flat_map_app. f_equal. destruct e; reflexivity.
Qed.
Theorem same_acts can_open r path argv out code steps code' :
  main lm fuel can_open r path argv = Ok (out, code) -> main_steps can_open r path argv = Ok (steps, code') -> user_codes steps = codes_in (events_of out).
Proof.
  unfold main, Streams.main_steps. destruct (parse_arguments _ path argv) as [[printed [args|]]|]; cbn [bind]; [| |discriminate].
  - destruct (configure lm can_open r args) as [[r1 out1]|]; cbn [bind]; [|discriminate]. 
    destruct (run_tests lm fuel r1 args) as [[[r2 out2] success]|]; cbn [bind]; [|discriminate].
    destruct (perform_steps r1 out2) as [[r3 st]|] eqn:P; cbn [bind]; [|discriminate]. intros [= <- <-] [= <- <-].
    rewrite codes_app, (perform_codes _ _ _ _ P), steps_codes, app_assoc, (events_of_app (map Printed printed ++ out1)). unfold codes_in. now rewrite flat_map_app.
  - intros [= <- <-] [= <- <-]. apply steps_codes.
Qed.

(** *** The steps of programs flush the file *)
Definition phase_of (r : registry) : phase := match g_file r with Some _ => POpen | None => PNone end.
Lemma paced_outputs p l : Forall (fun o => match o with OpenedFile _ | ClosedFile => False | WroteFile _ => p = POpen | _ => True end) l -> paced p (flat_map steps_of l) p.
Proof.
  induction 1 as [|o l H _ IH]; [constructor|]. cbn [flat_map]. destruct o as [s|w e|i|i k v|i|q|s|]; cbn [steps_of app]; try contradiction; auto using paced.
  - destruct e; cbn [app]; auto using paced.
  - subst p. auto using paced.
Qed.
Lemma quiet_paced p l : quiet_out l -> paced p (flat_map steps_of l) p.
Proof. intros Q. apply paced_outputs. eapply Forall_impl; [|exact Q]. intros []; tauto. Qed.
Lemma print_all_paced r l out : writable r -> print_all r l = Ok out -> paced (phase_of r) (flat_map steps_of out) (phase_of r).
Proof.
  intros W P. rewrite print_all_put in P by exact W. injection P as <-. apply paced_outputs, Forall_map, Forall_forall. intros s _. unfold put, writable, phase_of in *.
  destruct (g_to_file r); [|exact I]. specialize (W eq_refl). destruct (g_file r); [reflexivity|contradiction].
Qed.
Lemma steps_reported w a b rest r r2 steps : writable r -> perform_steps r (map (Reported w) (a ++ b) ++ rest) = Ok (r2, steps) ->
  exists r1 texts first last, report_list r a = Ok (r1, texts) /\
    perform_steps r1 (map (Reported w) b ++ rest) = Ok (r2, last) /\ steps = first ++ last /\ paced (phase_of r) first (phase_of r) /\
    written OutputFile first = (if g_to_file r then List.concat texts else []) /\ user_codes first = codes_in a.
Proof.
  revert r r2 steps. induction a as [|e a IH]; intros r r2 steps W; cbn [map app].
  - intros H. exists r, [], [], steps. cbn [EndToEndProofs.report_list]. repeat split; auto; [constructor|destruct (g_to_file r); reflexivity].
  - cbn [Streams.perform_steps EndToEndProofs.report_list]. destruct (report r e) as [[r1 t]|] eqn:R; cbn [bind]; [|discriminate].
    destruct (report_storage _ _ _ _ _ _ _ R) as (x & ->). assert (W1 : writable (set_storage r x)) by exact W.
    destruct (print_all (set_storage r x) t) as [printed|] eqn:PA; cbn [bind]; [|discriminate].
    destruct (perform_steps (set_storage r x) (map (Reported w) (a ++ b) ++ rest)) as [[r3 st]|] eqn:P; cbn [bind]; [|discriminate]. intros [= -> <-].
    destruct (IH _ _ _ W1 P) as (r1 & texts & first & last & RL & P2 & -> & PC & WR & UC).
    exists r1, (t ++ texts), (steps_of (Reported w e) ++ flat_map steps_of printed ++ first), last. rewrite RL. cbn [bind].
    split; [reflexivity|]. split; [exact P2|]. split; [now rewrite <- !app_assoc|]. split.
    { eapply paced_app; [|eapply paced_app; [exact (print_all_paced _ _ _ W1 PA)|exact PC]]. pose proof (paced_outputs (phase_of r) [Reported w e]) as Q. cbn [flat_map] in Q.
      rewrite app_nil_r in Q. apply Q. constructor; [exact I|constructor]. }
    split.
    + rewrite !written_app, WR, steps_file. replace (written OutputFile (steps_of (Reported w e))) with (@nil ascii) by (destruct e; reflexivity). cbn [app].
      rewrite print_all_put in PA by exact W1. injection PA as <-. rewrite file_text_put. cbn [set_storage g_to_file]. destruct (g_to_file r); [now rewrite concat_app|reflexivity].
    + rewrite !codes_app, UC, (no_codes _ _ _ PA). unfold codes_in. cbn [flat_map app]. f_equal. destruct e; reflexivity.
Qed.
Lemma closing_paced r r0 r2 steps : g_file r = g_file r0 -> perform_steps r (closing r0) = Ok (r2, steps) -> exists q, paced (phase_of r) steps q /\ q <> POpen.
Proof.
  intros E. unfold closing, phase_of. rewrite E. destruct (g_file r0); cbn; intros [= <- <-]; eexists; (split; [eauto using paced|discriminate]).
Qed.
Lemma steps_printed l rest r r2 steps : perform_steps r (map Printed l ++ rest) = Ok (r2, steps) ->
  exists last, perform_steps r rest = Ok (r2, last) /\ steps = flat_map steps_of (map Printed l) ++ last.
Proof.
  revert steps. induction l as [|s l IH]; intros steps; cbn [map app flat_map]; [eauto|]. cbn [Streams.perform_steps].
  destruct (perform_steps r (map Printed l ++ rest)) as [[r3 st]|] eqn:P; cbn [bind]; [|discriminate]. intros [= -> <-]. destruct (IH _ eq_refl) as (last & -> & ->). eauto.
Qed.
Lemma run_paced r args r2 out2 success r3 steps : writable r -> run_tests lm fuel r args = Ok (r2, out2, success) -> perform_steps r out2 = Ok (r3, steps) ->
  exists q, paced (phase_of r) steps q /\ q <> POpen.
Proof.
  intros W R P. destruct (run_tests_inv lm fuel _ _ _ _ _ R) as (o & RI & _ & -> & _). destruct (run_impl_shape lm fuel _ _ _ _ RI) as [(l & -> & _)|(l & ->)].
  - destruct (steps_printed _ _ _ _ _ P) as (last & PL & ->). destruct (closing_paced _ _ _ _ eq_refl PL) as (q & Q & NQ). exists q. split; [|exact NQ].
    eapply paced_app; [apply quiet_paced, quiet_printed|exact Q].
  - rewrite <- (app_nil_r l) in P. destruct (steps_reported _ _ _ _ _ _ _ W P) as (r1 & texts & first & last & RL & PL & -> & PC & _). cbn [map app] in PL.
    destruct (closing_paced r1 r r3 last) as (q & Q & NQ); [|exact PL|].
    { destruct (report_list_storage _ _ _ _ _ _ _ RL) as [->|(x & ->)]; reflexivity. }
    exists q. split; [|exact NQ]. eapply paced_app; [exact PC|]. destruct (report_list_storage _ _ _ _ _ _ _ RL) as [->|(x & ->)]; exact Q.
Qed.
Lemma configure_writable can_open r args r1 out1 : g_to_file r = false -> configure lm can_open r args = Ok (r1, out1) -> writable r1.
Proof.
  intros TF C. apply configure_effect in C. unfold writable. destruct (get_option args (lit "--out")).
  - destruct C as (b & f & p' & v & _ & _ & _ & _ & _ & F & T). rewrite F. discriminate.
  - destruct C as (_ & _ & T). congruence.
Qed.
Lemma configure_paced can_open r args r1 out1 : g_file r = None -> configure lm can_open r args = Ok (r1, out1) -> paced PNone (flat_map steps_of out1) (phase_of r1).
Proof.
  intros GF C. apply configure_effect in C. unfold phase_of. destruct (get_option args (lit "--out")).
  - destruct C as (b & f & p' & v & _ & _ & -> & Q1 & Q2 & F & T). rewrite F, GF. cbn [app]. rewrite flat_map_app. cbn [flat_map steps_of app].
    eapply paced_app; [apply quiet_paced, Q1|]. constructor. apply quiet_paced, Q2.
  - destruct C as (Q & F & T). rewrite F, GF. apply quiet_paced, Q.
Qed.
Theorem steps_paced can_open r path argv steps code : g_file r = None -> g_to_file r = false -> main_steps can_open r path argv = Ok (steps, code) ->
  exists q, paced PNone steps q /\ q <> POpen.
Proof.
  intros GF TF. unfold Streams.main_steps. destruct (parse_arguments _ path argv) as [[printed [args|]]|]; cbn [bind]; [| |discriminate].
  - destruct (configure lm can_open r args) as [[r1 out1]|] eqn:C; cbn [bind]; [|discriminate]. 
    destruct (run_tests lm fuel r1 args) as [[[r2 out2] success]|] eqn:R; cbn [bind]; [|discriminate].
    destruct (perform_steps r1 out2) as [[r3 st]|] eqn:P; cbn [bind]; [|discriminate]. intros [= <- <-].
    destruct (run_paced _ _ _ _ _ _ _ (configure_writable _ _ _ _ _ TF C) R P) as (q & Q & NQ). exists q. split; [|exact NQ]. rewrite flat_map_app, <- app_assoc.
    eapply paced_app; [apply quiet_paced, quiet_printed|]. eapply paced_app; [exact (configure_paced _ _ _ _ _ GF C)|exact Q].
  - intros [= <- <-]. exists PNone. split; [apply quiet_paced, quiet_printed|discriminate].
Qed.

(** *** C96 *)
Theorem survives can_open r path argv steps code done n rest w : g_file r = None -> g_to_file r = false ->
  main_steps can_open r path argv = Ok (steps, code) -> steps = done ++ UserCode n :: rest -> runs true done start w ->
  file_left w = if opened done then Some (written OutputFile done) else None.
Proof.
  intros GF TF M -> R. destruct (steps_paced _ _ _ _ _ _ GF TF M) as (q & Q & NQ). destruct (paced_before_user _ _ _ _ Q) as (m & P). exact (paced_left _ _ _ P R).
Qed.
Theorem survives_anywhere can_open r path argv steps code done rest w : g_file r = None -> g_to_file r = false ->
  main_steps can_open r path argv = Ok (steps, code) -> steps = done ++ rest -> dies true done w -> complete_but_last done w.
Proof. intros GF TF M -> D. destruct (steps_paced _ _ _ _ _ _ GF TF M) as (q & Q & NQ). exact (paced_died _ _ _ _ Q D). Qed.
Theorem nothing_on_console can_open r path argv steps code done rest message : g_file r = None -> g_to_file r = false ->
  main_steps can_open r path argv = Ok (steps, code) -> steps = done ++ rest ->
  exists w, runs true (done ++ terminate_steps message) start w /\ console_left w = [].
Proof.
  intros GF TF M -> . destruct (steps_paced _ _ _ _ _ _ GF TF M) as (q & Q & NQ). destruct (paced_prefix_possible _ _ _ Q) as (w & R & E).
  destruct (console_may_wait (terminate_steps message)) with (w := w) as (w' & R' & E').
  { intros c [<-|[<-|[<-|[]]]]; eauto. }
  exists w'. split; [apply runs_app; eauto|]. unfold console_left in *. congruence.
Qed.
Theorem ends_well can_open r path argv steps code w w' : g_file r = None -> g_to_file r = false ->
  main_steps can_open r path argv = Ok (steps, code) -> runs true steps start w -> ends true w w' ->
  console_left w' = written Console steps /\ file_left w' = (if opened steps then Some (written OutputFile steps) else None) /\
  the_file w' = (if opened steps then IsClosed (written OutputFile steps) else NoFile).
Proof.
  intros GF TF M R (MV & W & F). destruct (steps_paced _ _ _ _ _ _ GF TF M) as (q & Q & NQ). split; [|split].
  - pose proof (moves_all _ _ MV) as A. unfold all_of in A. rewrite W, app_nil_r, (console_ran _ _ R) in A. exact A.
  - unfold file_left. rewrite F. exact (paced_left _ _ _ Q R).
  - rewrite F, (paced_opened _ _ _ Q eq_refl). pose proof (paced_ran _ _ _ Q R) as A. destruct q; [exact (proj1 A)|now contradiction NQ|exact A].
Qed.
Theorem full_disk can_open r path argv steps code : g_file r = None -> g_to_file r = false ->
  main_steps can_open r path argv = Ok (steps, code) -> opened steps = true ->
  exists w w', runs false steps start w /\ ends false w w' /\ file_left w' = Some [].
Proof.
  intros GF TF M O. destruct (steps_paced _ _ _ _ _ _ GF TF M) as (q & Q & NQ). destruct (paced_full _ _ _ Q start start_phase) as (w & R & A).
  exists w, (mkworld (mkstream (device (console w) ++ waiting (console w)) []) (the_file w)). split; [exact R|]. split.
  - split; [|split; reflexivity]. destruct (passes_all (console w)) as ((lost & E & L) & P). split; [exists lost; split; [exact E|auto]|exact P].
  - rewrite (paced_opened _ _ _ Q eq_refl) in O. unfold file_left. cbn [the_file]. fold (file_left w). rewrite (phase_left _ _ _ A). destruct q; [discriminate|reflexivity|reflexivity].
Qed.

(** *** With the console reporter *)
Notation id_full := (fun id => full_name_of (id_name id) (id_type id)).
Notation event_shown := (event_text id_name id_type id_full id_tags file duration decimal (l_version lm)).
Notation event_fits := (displayable id_name id_type id_full duration decimal (l_version lm)).
Lemma console_registry can_open r path argv printed args r1 out1 : length argv <= l_max_command_line_args lm -> console_asked lm file duration r argv ->
  parse_arguments (cli_of lm) path argv = Ok (printed, Some args) -> configure lm can_open r args = Ok (r1, out1) ->
  forall l r' texts, report_list r1 l = Ok (r', texts) -> exists c c', console_reports (mm lm) (mn lm) (l_version lm) (g_with_color r1) file duration c l = Ok (c', texts).
Proof.
  intros L CA P C l r' texts RL. destruct (choice lm file duration can_open r path argv printed args r1 out1 L P C) as (_ & _ & CH1 & CH2). cbv zeta in CH1, CH2.
  destruct CA as [(N & GR)|(arg & i & SR & N & F)].
  - destruct (CH1 N) as (V & R1 & S1). rewrite GR in R1. destruct (default_reports lm file duration _ _ _ _ R1 RL) as (c & c' & E & _). eauto.
  - destruct (CH2 arg SR) as (_ & K). destruct (K i _ F N) as (K1 & _). destruct (K1 eq_refl) as (V & R1).
    apply configure_prepared in C as (r4 & o4 & o5 & (_ & P2 & _) & S & _).
    destruct (parsed_options (cli_of lm) _ _ _ _ L P) as [GO _]. specialize (GO (quote "--reporter") ltac:(discriminate)). rewrite SR in GO. change quote with lit in *.
    destruct (get_option args (lit "--reporter")) as [a|]; [|discriminate]. cbn [option_map reporter_step] in *. unfold value_of in S. destruct (a_value a) as [w|]; [|discriminate].
    injection GO as ->. cbn [bind] in S. rewrite <- P2 in F. destruct (console_chosen lm file duration _ _ _ _ _ F N S) as (col & ->).
    edestruct (console_selected_reports lm file duration l) as (c' & E); [| |exact RL|]; [reflexivity|reflexivity|]. eauto.
Qed.
Theorem texts_survive can_open r path argv steps code out' code' :
  length argv <= l_max_command_line_args lm -> acceptable argv -> asks_run (setting (read argv)) -> g_file r = None -> g_to_file r = false -> has_file argv = true ->
  main_steps can_open r path argv = Ok (steps, code) -> main lm fuel can_open r path argv = Ok (out', code') ->
  exists printed args r1 out1 fs predicate success, parse_arguments (cli_of lm) path argv = Ok (printed, Some args) /\ configure lm can_open r args = Ok (r1, out1) /\
    run_selected_tests lm fuel (g_verbose r1) (g_tests r1) (executable args) fs predicate = Ok (events_of out', success) /\
  forall before n after, events_of out' = before ++ User n :: after ->
    exists done rest r5 texts, steps = done ++ UserCode n :: rest /\ user_codes done = codes_in before /\ report_list r1 before = Ok (r5, texts) /\
      forall w, runs true done start w -> file_left w = Some (List.concat texts).
Proof.
  intros L ACC AR GF TF HF M M'. pose proof (same_program can_open r path argv) as SP. rewrite M in SP. destruct (main_program can_open r path argv) as [[out cd]|] eqn:MP; [|contradiction].
  destruct (main_runs lm fuel file duration can_open r path argv out cd L ACC AR TF MP) as (printed & args & r1 & out1 & fs & pr & events & success & r3 & texts & P & C & RS & RL & _ & MM & _ & _).
  pose proof M' as MX. rewrite MM in MX. injection MX as EO _. subst out'. rewrite (main_events lm printed out1 r1 events _ _ _ C).
  unfold main in MM. unfold Streams.main_steps in M. rewrite P in MM, M. cbn [bind] in MM, M. rewrite C in MM, M. cbn [bind] in MM, M.
  destruct (run_tests lm fuel r1 args) as [[[r2 out2] s2]|]; cbn [bind] in MM, M; [|discriminate].
  assert (E2 : out2 = map (Reported (g_reporter r1)) events ++ closing r1) by (apply (app_inv_head (map Printed printed ++ out1)); rewrite <- !app_assoc; congruence). subst out2. clear MM.
  destruct (perform_steps r1 _) as [[r4 st]|] eqn:PS; cbn [bind] in M; [|discriminate]. assert (ES : steps = flat_map steps_of (map Printed printed ++ out1) ++ st) by congruence. clear M. subst steps.
  exists printed, args, r1, out1, fs, pr, success. split; [exact P|]. split; [exact C|]. split; [exact RS|]. intros before n after EV. subst events.
  assert (FO : g_file r1 <> None /\ g_to_file r1 = true).
  { destruct (parsed_options (cli_of lm) _ _ _ _ L P) as [GO _]. specialize (GO (quote "--out") ltac:(discriminate)). unfold has_file in HF. apply configure_effect in C.
    change (quote "--out") with (lit "--out") in *. destruct (get_option args (lit "--out")).
    - destruct C as (b & f & p' & v & _ & _ & _ & _ & _ & F & T). rewrite F. split; [discriminate|exact T].
    - rewrite <- GO in HF. discriminate. }
  pose proof (configure_writable _ _ _ _ _ TF C) as W.
  destruct (steps_reported _ _ _ _ _ _ _ W PS) as (r5 & t5 & first & last & RL5 & PL & -> & PC & WR & UC).
  assert (LS : exists rest, last = UserCode n :: rest).
  { cbn [map app Streams.perform_steps] in PL. destruct (report r5 (User n)) as [[r6 t6]|]; cbn [bind] in PL; [|discriminate]. destruct (print_all r6 t6); cbn [bind] in PL; [|discriminate].
    destruct (perform_steps r6 _) as [[r7 rest]|]; cbn [bind] in PL; [|discriminate]. injection PL as _ <-. cbn [steps_of app]. eauto. }
  destruct LS as (rest & ->). exists (flat_map steps_of (map Printed printed ++ out1) ++ first), rest, r5, t5. split; [now rewrite <- app_assoc|]. split.
  { rewrite codes_app, UC, steps_codes, events_of_app, events_of_printed, (configure_events _ _ _ _ _ _ C). reflexivity. }
  split; [exact RL5|].
  intros w R. 
  assert (PP : paced PNone (flat_map steps_of (map Printed printed ++ out1) ++ first) (phase_of r1)).
  { rewrite flat_map_app, <- app_assoc. eapply paced_app; [apply quiet_paced, quiet_printed|]. eapply paced_app; [exact (configure_paced _ _ _ _ _ GF C)|exact PC]. }
  rewrite (paced_left _ _ _ PP R), (paced_opened _ _ _ PP eq_refl). unfold phase_of. destruct FO as (FO & TT). destruct (g_file r1); [|contradiction]. f_equal.
  rewrite written_app, steps_file, file_text_app, file_text_printed, (configure_file_text _ _ _ _ _ _ C), WR, TT. cbn [app]. reflexivity.
Qed.
Theorem report_survives can_open r path argv steps code out' code' :
  length argv <= l_max_command_line_args lm -> acceptable argv -> asks_run (setting (read argv)) -> g_file r = None -> g_to_file r = false ->
  console_asked lm file duration r argv -> 32 <= mm lm -> has_file argv = true ->
  main_steps can_open r path argv = Ok (steps, code) -> main lm fuel can_open r path argv = Ok (out', code') ->
  exists colours : bool, report_colours r argv colours /\ forall before n after, events_of out' = before ++ User n :: after ->
    Forall (event_fits (painted colours) (mm lm) (mn lm)) before ->
    exists done rest, steps = done ++ UserCode n :: rest /\ user_codes done = codes_in before /\
      forall w, runs true done start w -> file_left w = Some (flat_map (event_shown (painted colours)) before).
Proof.
  intros L ACC AR GF TF CA H HF M M'. destruct (texts_survive _ _ _ _ _ _ _ _ L ACC AR GF TF HF M M') as (printed & args & r1 & out1 & fs & pr & su & P & C & _ & K).
  exists (g_with_color r1). split; [exact (colours_chosen lm file duration can_open r path argv printed args r1 out1 L P C CA)|]. intros before n after EV FT. destruct (K _ _ _ EV) as (done & rest & r5 & texts & ES & UC & RL & F). exists done, rest. split; [exact ES|]. split; [exact UC|].
  intros w R. rewrite (F w R). f_equal.
  destruct (console_registry _ _ _ _ _ _ _ _ L CA P C _ _ _ RL) as (c & c' & E). exact (proj1 (console_said lm file duration _ _ _ _ _ [] (User 0) H E) FT).
Qed.
End Programs.

Theorem report_survives_shown :
  exists shown : nat -> text, (forall n, (N.of_nat n < 2 ^ 64)%N -> NumberSpec.writes 10 (shown n) (N.of_nat n)) /\
  forall (lm : Session.limits) (fuel : nat) (file : event -> text) (duration : event -> option text) (can_open : text -> bool)
    (r : registry) (path : text) (argv : list text) (steps : list step) (code : nat) (out' : list output) (code' : nat),
  let full_name := fun id => full_name_of (id_name id) (id_type id) in
  let fits := fun colours => displayable id_name id_type full_name duration shown (l_version lm) (painted colours) (l_max_message_length lm) (l_max_test_name_length lm) in
  length argv <= l_max_command_line_args lm -> acceptable argv -> asks_run (setting (read argv)) -> g_file r = None -> g_to_file r = false ->
  console_asked lm file duration r argv -> 32 <= l_max_message_length lm -> has_file argv = true ->
  main_steps lm fuel file duration can_open r path argv = Ok (steps, code) -> main lm fuel can_open r path argv = Ok (out', code') ->
  exists colours : bool, report_colours r argv colours /\ forall (before : list event) (n : nat) (after : list event), events_of out' = before ++ User n :: after ->
    Forall (fits colours) before ->
    exists done rest, steps = done ++ UserCode n :: rest /\ user_codes done = codes_in before /\
      forall w, runs true done start w ->
        file_left w = Some (flat_map (event_text id_name id_type full_name id_tags file duration shown (l_version lm) (painted colours)) before).
Proof. exists decimal. split; [exact decimal_reads|]. intros. eapply report_survives; eassumption. Qed.
