(** Checks of all kinds in destructors (C80). *)
From Verif.Spec Require Import TextSpec FilterSpec Events RunSpec VerdictSpec UnwindingSpec AttemptSpec.
From Verif.Model Require Import Base Vector StringUtil Filter Run Unwinding.
From Verif.Proofs Require Import Lists AppendProofs RunProofs InvariantProofs ScopeProofs RunFacts UnwindingProofs UnwindingFacts UnwindingLife.
From Coq Require Import Lia.
Local Open Scope list_scope.

Section Attempts.
Variable cf : config.
Hypothesis verbose : cf_verbosity cf = Full.
Variable id : test_id.
Variable marks : list nat.

(** ** Steps that report no assertion *)
Definition neutral (st st' : state) : Prop :=
  exists ev, trace st' = trace st ++ ev /\ filter (concerns marks) ev = [] /\ filter is_assertion ev = [] /\ status st' = status st.
Lemma neutral_same st st' : trace st' = trace st -> status st' = status st -> neutral st st'.
Proof. intros E S. exists []. rewrite app_nil_r. auto. Qed.
Lemma neutral_trans a b c : neutral a b -> neutral b c -> neutral a c.
Proof. intros (x & X1 & X2 & X3 & X4) (y & Y1 & Y2 & Y3 & Y4). exists (x ++ y). rewrite Y1, X1, <- app_assoc, !filter_app, X2, Y2, X3, Y3, Y4, X4. auto. Qed.
Lemma neutral_close l n : forall st, neutral st (close_sections cf l n st).
Proof.
  induction l as [|s l IH]; intros st; cbn [close_sections]; [now apply neutral_same|]. destruct (_ <? _); [|now apply neutral_same].
  eapply neutral_trans; [|apply IH]. unfold report_section_ended, report. destruct (_ <=? _); [|now apply neutral_same]. eexists. cbn [trace status]. repeat split.
Qed.
Lemma neutral_notify st : neutral st (notify_exception_handled cf st).
Proof. unfold notify_exception_handled. destruct (held st); [|now apply neutral_same]. eapply neutral_trans; [apply neutral_close|]. now apply neutral_same. Qed.
Lemma neutral_begin u line st st' : unwinding_check_begin u cf line st = Ok st' -> neutral st st'.
Proof.
  unfold unwinding_check_begin, push_location. intros H. destruct (push_back _ _ _) as [ls|]; [|discriminate]. cbn [bind] in H. injection H as <-.
  apply (neutral_trans _ (notify_unless u cf st)); [|now apply neutral_same]. unfold notify_unless. destruct u; [now apply neutral_same|apply neutral_notify].
Qed.
Lemma neutral_end u st st' : check_end u st = Ok st' -> neutral st st'.
Proof.
  unfold check_end, pop_location. intros H. destruct (pop_back _) as [ls|]; [|discriminate]. cbn [bind] in H. injection H as <-. apply neutral_same; unfold hold; destruct (held _); try destruct u; reflexivity.
Qed.

(** ** Reports *)
Definition told (st st' : state) (s : option (bool * payload)) : Prop :=
  exists ev, trace st' = trace st ++ ev /\ filter (concerns marks) ev = [] /\ is_skipped (status st') = is_skipped (status st) /\
    map said (filter is_assertion ev) = if is_skipped (status st) then [] else [s].
Lemma told_report u ok data st st' : unwinding_report u cf id ok data st = Ok st' -> told st st' (Some (ok, data)).
Proof using verbose.
  unfold unwinding_report, told. destruct (is_skipped (status st)) eqn:K.
  { intros [= <-]. exists []. rewrite app_nil_r. auto. }
  cbv zeta. intros H. destruct (back _) as [l|] in H; [|discriminate]. cbn [bind] in H. pose proof (register_fields ok st) as (T & _ & _ & _ & _ & _ & S).
  assert (K' : is_skipped (status (register_assertion ok st)) = false).
  { rewrite S. destruct ok; [exact K|]. cbv zeta.
    destruct (may_fail st || should_fail st); destruct (irank (status st) <? _); (exact K || reflexivity). }
  injection H as <-. destruct ok; unfold report; rewrite verbose; cbn [vlevel Nat.leb trace status]; rewrite T; eexists; repeat split; auto.
Qed.
Lemma report2_eq u ok a b st : unwinding_report2 u cf id ok a b st = unwinding_report u cf id ok (Message (fit (cf_max_message_length cf) (a ++ b))) st.
Proof.
  pose proof (report_assertion2_eq cf id st ok a b) as E. unfold unwinding_report2, report_assertion2 in *. destruct (is_skipped (status st)) eqn:K; [unfold unwinding_report; now rewrite K|].
  destruct (append_or_truncate_spec (new_string (cf_max_message_length cf)) [a; b] (wf_new _)) as (m & E1 & _ & _ & C).
  rewrite E1. cbn [bind]. rewrite C, vcontent_new, vcap_new. cbn [List.concat app]. rewrite app_nil_r. reflexivity.
Qed.
Lemma told_notify st st1 s : told st st1 s -> told st (notify_exception_handled cf st1) s.
Proof.
  intros (ev & E1 & E2 & E3 & E4). destruct (neutral_notify st1) as (ev' & N1 & N2 & N3 & N4). exists (ev ++ ev').
  rewrite !filter_app, N3, app_nil_r, N4. split; [now rewrite N1, E1, <- app_assoc|]. split; [now rewrite E2, N2|]. auto.
Qed.
Lemma told_conclude u pass w (x : option exn) st st' y : (match w, x with IsTrue _ _, Some _ => False | _, _ => True end) ->
  unwinding_conclude u cf id pass w false x st = Ok (st', y) ->
  y = None /\ told st st' (conclusion (cf_max_message_length cf) pass w (match x with None => RunSpec.Finished | Some e => Threw e (mkctx [] [] (mkloc 0 Exact)) [] end)).
Proof using verbose.
  intros C H. unfold unwinding_conclude, maybe_abort in H.
  assert (G : forall ok data k r, (do st1 <- unwinding_report u cf id ok data st ;; Ok (k st1, (None : option exn))) = Ok r ->
    (forall z, told st z (Some (ok, data)) -> told st (k z) (Some (ok, data))) -> snd r = None /\ told st (fst r) (Some (ok, data))).
  { intros ok data k r R K. destruct (unwinding_report u cf id ok data st) as [st1|] eqn:E; [|discriminate]. injection R as <-. split; [reflexivity|]. apply K. eapply told_report, E. }
  destruct w as [what outcome|type accepts|type accepts matches describe|source]; destruct x as [e|]; try contradiction; cbn [conclusion] in *.
  - destruct (unwinding_report u cf id (outcome pass) (what pass) st) as [st1|] eqn:E; [|discriminate]. cbn [bind] in H. injection H as <- <-. split; [now destruct (outcome pass)|]. eapply told_report, E.
  - destruct (accepts e); [exact (G _ _ (notify_exception_handled cf) _ H (fun z => told_notify st z _))|]. destruct e; rewrite ?report2_eq in H; exact (G _ _ (notify_exception_handled cf) _ H (fun z => told_notify st z _)).
  - exact (G _ _ (fun z => z) _ H (fun z Z => Z)).
  - destruct (accepts e); [destruct (matches e)|destruct e]; rewrite ?report2_eq in H; exact (G _ _ (notify_exception_handled cf) _ H (fun z => told_notify st z _)).
  - exact (G _ _ (fun z => z) _ H (fun z Z => Z)).
  - destruct e; rewrite ?report2_eq in H; exact (G _ _ (notify_exception_handled cf) _ H (fun z => told_notify st z _)).
  - exact (G _ _ (fun z => z) _ H (fun z Z => Z)).
Qed.

Lemma attempts_told u pass k l : Forall catches l -> forall st r, unwinding_exec u cf id pass (attempts l k) st = Ok r ->
  exists st1 ev, unwinding_exec u cf id pass k st1 = Ok r /\ trace st1 = trace st ++ ev /\ filter (concerns marks) ev = [] /\
    is_skipped (status st1) = is_skipped (status st) /\
    map said (filter is_assertion ev) = if is_skipped (status st) then [] else map (due (cf_max_message_length cf) pass) l.
Proof using verbose.
  induction l as [|[[line w] x] l IH]; intros F st r H.
  { exists st, []. rewrite app_nil_r. cbn. destruct (is_skipped _); auto. }
  inversion F as [|? ? C F']; subst. cbn [attempts unwinding_exec] in H.
  destruct (unwinding_check_begin u cf line st) as [st1|] eqn:B; cbn [bind] in H; [|discriminate].
  assert (X : unwinding_exec u cf id pass (match x with None => GNil | Some e => GThrow (fun _ => true) e GNil end) st1 = Ok (st1, x)) by (destruct x; reflexivity).
  rewrite X in H. cbn [bind] in H. destruct (unwinding_conclude u cf id pass w false x st1) as [[st3 y]|] eqn:E; cbn [bind] in H; [|discriminate].
  apply told_conclude in E; [|destruct w, x; exact C]. destruct E as (-> & ev2 & T1 & T2 & T3 & T4). cbn [is_some] in H.
  destruct (check_end _ st3) as [st4|] eqn:E; cbn [bind] in H; [|discriminate]. apply neutral_end in E as (ev3 & U1 & U2 & U3 & U4).
  apply neutral_begin in B as (ev1 & B1 & B2 & B3 & B4). destruct (IH F' _ _ H) as (st5 & ev4 & V0 & V1 & V2 & V3 & V4).
  exists st5, (ev1 ++ ev2 ++ ev3 ++ ev4). split; [exact V0|]. split; [now rewrite V1, U1, T1, B1, <- !app_assoc|].
  split; [now rewrite !filter_app, B2, T2, U2, V2|]. assert (K4 : is_skipped (status st4) = is_skipped (status st)) by (rewrite U4, T3, B4; reflexivity).
  split; [congruence|]. rewrite !filter_app, B3, U3, !map_app, V4, T4, K4, B4. cbn [filter map app]. destruct (is_skipped (status st)); reflexivity.
Qed.

(** ** The block *)
Definition calmly (st st' : state) : Prop :=
  exists ev, trace st' = trace st ++ ev /\ filter (concerns marks) ev = [] /\ (is_skipped (status st') = true -> is_skipped (status st) = true \/ skips ev).
Lemma calmly_quiet st st' : quiet marks st st' -> (is_skipped (status st') = true -> is_skipped (status st) = true) -> calmly st st'.
Proof. intros (ev & E1 & E2) S. exists ev. auto. Qed.
Lemma calmly_trans a b c : calmly a b -> calmly b c -> calmly a c.
Proof.
  intros (x & X1 & X2 & X3) (y & Y1 & Y2 & Y3). exists (x ++ y). rewrite Y1, X1, <- app_assoc, filter_app, X2, Y2. split; [reflexivity|]. split; [reflexivity|].
  intros K. unfold skips in *. rewrite Exists_app. destruct (Y3 K) as [K'|K']; [destruct (X3 K')|]; auto.
Qed.
Lemma calmly_report v st e : concerns marks e = false -> calmly st (report cf v st e).
Proof. intros E. apply calmly_quiet; [now apply quiet_report|]. unfold report. now destruct (_ <=? _). Qed.
Lemma calmly_exec u pass p st r : without marks p -> unwinding_exec u cf id pass p st = Ok r -> calmly st (fst r).
Proof.
  intros W H. refine (rel_exec cf id marks calmly _ _ _ _ _ _ _ _ pass p W u st r H).
  - intros. apply calmly_quiet; [now apply quiet_same|auto].
  - exact calmly_trans.
  - intros a b T _ S _ _. apply calmly_quiet; [now apply quiet_same|congruence].
  - intros a n N. apply calmly_report. cbn. apply not_true_is_false. intros E. apply existsb_exists in E. destruct E as (x & I & E).
    apply Nat.eqb_eq in E. subst x. contradiction.
  - intros a ok data b E. apply calmly_quiet; [eapply quiet_assertion, E|]. unfold report_assertion in E. destruct (is_skipped (status a)) eqn:K; [auto|].
    cbv zeta in E. destruct (back _) as [l|] in E; [|discriminate]. cbn [bind] in E. pose proof (register_fields ok a) as (_ & _ & _ & _ & _ & _ & S).
    assert (K' : is_skipped (status (register_assertion ok a)) = false).
    { rewrite S. destruct ok; [exact K|]. cbv zeta. destruct (may_fail a || should_fail a); destruct (irank (status a) <? _); (exact K || reflexivity). }
    injection E as <-. destruct ok; unfold report; destruct (_ <=? _); cbn [status]; rewrite K'; discriminate.
  - intros a message b E. unfold report_skipped in E. cbv zeta in E. destruct (back _) as [l|] in E; [|discriminate]. cbn [bind] in E. injection E as <-. unfold report. cbn [vlevel Nat.leb].
    eexists [_]. cbn [trace]. split; [unfold raise_state; destruct (_ <? _); reflexivity|]. split; [reflexivity|]. intros _. right. constructor. reflexivity.
  - intros. now apply calmly_report.
  - intros. now apply calmly_report.
Qed.
End Attempts.

(** ** Test cases *)
Lemma split_at {A} (x : A) a : forall b earlier later, a ++ x :: b = earlier ++ x :: later -> ~ In x a ->
  (earlier = a /\ later = b) \/ exists e, earlier = a ++ x :: e /\ b = e ++ x :: later.
Proof.
  induction a as [|y a IH]; intros b earlier later H N.
  - destruct earlier as [|z e]; [injection H as H; left; auto|]. injection H as E H. subst z. right. exists e. auto.
  - destruct earlier as [|z e]; injection H as E H; [subst y; exfalso; apply N; now left|]. subst z.
    destruct (IH _ _ _ H) as [[-> ->]|(e' & -> & ->)]; [intros I; apply N; now right|left; auto|right; now exists e'].
Qed.
Lemma split_after {A} (x : A) a : forall b earlier later, a ++ b = earlier ++ x :: later -> ~ In x a -> exists e, earlier = a ++ e /\ b = e ++ x :: later.
Proof.
  induction a as [|y a IH]; intros b earlier later H N; [now exists earlier|].
  destruct earlier as [|z e]; injection H as E H; [subst y; exfalso; apply N; now left|]. subst z.
  destruct (IH _ _ _ H) as (e' & -> & ->); [intros I; apply N; now right|now exists e'].
Qed.
Lemma split_before {A} (x : A) a b earlier : forall later, a ++ b = earlier ++ x :: later -> ~ In x b -> exists l, later = l ++ b /\ a = earlier ++ x :: l.
Proof.
  revert a. induction earlier as [|y e IH]; intros a later H N.
  - destruct a as [|z a]; cbn in H; [subst b; exfalso; apply N; now left|]. injection H as -> <-. now exists a.
  - destruct a as [|z a]; cbn in H; [subst b; exfalso; apply N; right; apply in_or_app; right; now left|]. injection H as -> H.
    destruct (IH _ _ H N) as (l & -> & ->). now exists l.
Qed.
Lemma unconcerned {ID} marks (ev : list (Events.event ID)) n : filter (concerns marks) ev = [] -> In n marks -> ~ In (User n) ev.
Proof.
  intros F I J. assert (K : In (User n) (filter (concerns marks) ev)) by (apply filter_In; split; [exact J|]; cbn; apply existsb_exists; exists n; split; [exact I|apply Nat.eqb_refl]).
  rewrite F in K. destruct K.
Qed.
Lemma unconcerned1 {ID} m m' (ev : list (Events.event ID)) : filter (concerns [m; m']) ev = [] -> filter (concerns [m]) ev = [].
Proof.
  induction ev as [|e ev IH]; [reflexivity|]. cbn [filter]. destruct (concerns [m; m'] e) eqn:C; [discriminate|]. intros F.
  replace (concerns [m] e) with false; [auto|]. destruct e; try reflexivity. cbn in *. destruct (_ =? _); [discriminate|reflexivity].
Qed.

Section Cases.
Variables (cf : config) (id : test_id) (m m' : nat) (l : list (nat * expectation * option exn)) (p : gprog).
Hypothesis verbose : cf_verbosity cf = Full.
Hypothesis W : without [m; m'] p.
Hypothesis D : m <> m'.
Hypothesis F : Forall catches l.
Let body : gprog := GScope (GAct m (attempts l (GAct m' GNil))) p GNil.

Definition judged (pass : nat) (ev : list event) : Prop :=
  forall earlier later, ev = earlier ++ User m :: later ->
  exists inside rest, later = inside ++ User m' :: rest /\
    (skips earlier /\ filter is_assertion inside = [] \/
     map said (filter is_assertion inside) = map (due (cf_max_message_length cf) (pass + length (filter (concerns [m]) earlier))) l).

Lemma one_pass pass st st' x : is_skipped (status st) = false -> unwinding_exec false cf id pass body st = Ok (st', x) ->
  exists ev1 ev2, trace st' = trace st ++ ev1 ++ User m :: ev2 ++ [User m'] /\
    filter (concerns [m; m']) ev1 = [] /\ filter (concerns [m; m']) ev2 = [] /\
    (skips ev1 /\ filter is_assertion ev2 = [] \/ map said (filter is_assertion ev2) = map (due (cf_max_message_length cf) pass) l).
Proof.
  intros K H. unfold body in H. cbn [unwinding_exec] in H. destruct (unwinding_exec false cf id pass p st) as [[st1 y]|] eqn:E; cbn [bind] in H; [|discriminate].
  apply (calmly_exec cf id [m; m']) in E; [|exact W]. destruct E as (ev1 & E1 & E2 & E3). cbn [fst] in *.
  destruct (unwinding_exec (false || is_some y) cf id pass (attempts l (GAct m' GNil)) (report cf Quiet st1 (User m))) as [[st2 z]|] eqn:E; cbn [bind] in H; [|discriminate].
  apply (attempts_told cf verbose id [m; m']) in E; [|exact F]. destruct E as (st3 & ev2 & R & T1 & T2 & T3 & T4).
  cbn [unwinding_exec] in R. injection R as <- <-. exists ev1, ev2. split.
  - assert (S : trace st' = trace (report cf Quiet st3 (User m'))) by (destruct y; congruence).
    rewrite S, user_reported, T1, user_reported, E1, <- !app_assoc. reflexivity.
  - split; [exact E2|]. split; [exact T2|]. assert (S : status (report cf Quiet st1 (User m)) = status st1) by (unfold report; now destruct (_ <=? _)). rewrite S in *.
    destruct (is_skipped (status st1)) eqn:K1; [|right; exact T4]. left. destruct (E3 eq_refl) as [K2|K2]; [congruence|]. split; [exact K2|]. now apply map_eq_nil in T4.
Qed.

Lemma judged_passes : forall fuel pass st st' x, is_skipped (status st) = false -> unwinding_passes cf id body fuel pass st = Ok (st', x) ->
  exists ev, trace st' = trace st ++ ev /\ judged pass ev /\ In (User m) ev.
Proof.
  induction fuel as [|fuel IH]; intros pass st st' x K H; cbn [unwinding_passes] in H; [discriminate|].
  match type of H with bind ?b _ = _ => destruct b as [[st2 y]|] eqn:E; [|discriminate] end. cbn [bind] in H.
  apply one_pass in E; [|exact K]. destruct E as (ev1 & ev2 & T & E1 & E2 & J). cbn [trace set_inf] in T.
  assert (N1 : ~ In (User m) ev1) by (apply (unconcerned _ _ _ E1); now left). assert (N2 : ~ In (User m) (ev2 ++ [User m'])).
  { intros I. apply in_app_or in I as [I|[I|[]]]; [revert I; apply (unconcerned _ _ _ E2); now left|congruence]. }
  assert (A : forall ev3, judged (S pass) ev3 -> judged pass (ev1 ++ User m :: (ev2 ++ [User m']) ++ ev3)).
  { intros ev3 J3 earlier later S. symmetry in S. symmetry in S. apply split_at in S; [|exact N1]. destruct S as [[-> ->]|(e & -> & S)].
    - exists ev2, ev3. split; [now rewrite <- app_assoc|]. rewrite (unconcerned1 _ _ _ E1). cbn [length]. rewrite Nat.add_0_r. exact J.
    - apply split_after in S; [|exact N2]. destruct S as (e' & -> & S). destruct (J3 _ _ S) as (inside & rest & -> & R). exists inside, rest. split; [reflexivity|].
      destruct R as [[R1 R2]|R]; [left; split; [|exact R2]|right].
      + unfold skips in *. rewrite Exists_app. right. constructor 2. rewrite Exists_app. now right.
      + rewrite R. f_equal. f_equal. rewrite filter_app, (unconcerned1 _ _ _ E1). cbn [app filter concerns existsb]. rewrite Nat.eqb_refl. cbn [orb length].
        rewrite !filter_app, (unconcerned1 _ _ _ E2). cbn [filter concerns existsb app]. replace (m' =? m) with false by (symmetry; apply Nat.eqb_neq; congruence). cbn [orb app]. lia. }
  assert (A0 : judged (S pass) []) by (intros earlier later S; destruct earlier; discriminate).
  assert (I : forall ev3, In (User m) (ev1 ++ User m :: (ev2 ++ [User m']) ++ ev3)) by (intros; apply in_or_app; right; now left).
  destruct y as [y|]; [injection H as <- <-|destruct (_ && _) eqn:G; [|injection H as <- <-]].
  - exists (ev1 ++ User m :: (ev2 ++ [User m']) ++ []). split; [rewrite T, app_nil_r; reflexivity|]. auto.
  - apply IH in H.
    + destruct H as (ev3 & H1 & H2 & _). exists (ev1 ++ User m :: (ev2 ++ [User m']) ++ ev3). split; [|auto]. rewrite H1. cbn [trace set_inf]. rewrite T, <- !app_assoc. cbn [app]. now rewrite <- !app_assoc.
    + apply andb_prop in G as [_ G]. cbn [status set_inf] in *. now apply negb_true_iff in G.
  - exists (ev1 ++ User m :: (ev2 ++ [User m']) ++ []). split; [cbn [trace set_inf]; rewrite T, app_nil_r; reflexivity|]. auto.
Qed.

Lemma judged_run fuel line before st : unwinding_run cf fuel id line body before = Ok st ->
  exists ev, trace st = before ++ ev /\ In (User m) ev /\ judged 0 ev.
Proof.
  intros H. unfold unwinding_run in H. bstep H as [may should] E0. bstep H as st1 E1. bstep H as [st2 x] E2. bstep H as st3 E3. bstep H as st6 E6. bstep H as s E7.
  assert (Q1 : is_skipped (status st1) = false /\ trace st1 = before ++ [TestCaseStarted id line]).
  { unfold push_location in E1. destruct (push_back _ _ _); [|discriminate]. cbn [bind] in E1. injection E1 as <-. unfold report. rewrite verbose. split; reflexivity. }
  destruct Q1 as [K1 Q1]. apply judged_passes in E2; [|exact K1]. destruct E2 as (ev2 & Q2 & J2 & I2).
  assert (Q3 : quiet [m; m'] st2 st).
  { eapply quiet_trans; [|injection H as <-; apply quiet_report; reflexivity]. clear H E7.
    assert (A3 : quiet [m; m'] st2 st3).
    { destruct x as [[|what|]|].
      - injection E3 as <-. now apply quiet_same.
      - apply (quiet_assertion2 _ _ [m; m']) in E3. exact E3.
      - apply (quiet_assertion _ _ [m; m']) in E3. exact E3.
      - bstep E3 as y E. injection E3 as <-. apply (quiet_assertion _ _ [m; m']) in E. exact E. }
    eapply quiet_trans; [exact A3|]. eapply quiet_trans.
    { instantiate (1 := set_unhandled (if unhandled st3 then notify_exception_handled cf st3 else st3) false).
      destruct (unhandled st3); [|now apply quiet_same]. eapply quiet_trans; [apply (quiet_notify cf)|now apply quiet_same]. }
    destruct (should_fail _) in E6; [|injection E6 as <-; now apply quiet_same].
    bstep E6 as y E. injection E6 as <-. apply (quiet_assertion _ _ [m; m']) in E. exact E. }
  destruct Q3 as (ev3 & Q3 & F3). exists (TestCaseStarted id line :: ev2 ++ ev3). split; [rewrite Q3, Q2, Q1, <- !app_assoc; reflexivity|].
  split; [right; apply in_or_app; now left|]. intros earlier later S.
  destruct earlier as [|e earlier]; [discriminate|]. injection S as <- S. apply split_before in S; [|apply (unconcerned _ _ _ F3); now left].
  destruct S as (la & -> & S). destruct (J2 _ _ S) as (inside & rest & -> & R). exists inside, (rest ++ ev3). split; [now rewrite <- app_assoc|].
  destruct R as [[R1 R2]|R]; [left; split; [now constructor 2|exact R2]|right; exact R].
Qed.
End Cases.

Lemma attempts_run cf fuel id line m m' l p before st :
  cf_verbosity cf = Full -> without [m; m'] p -> m <> m' -> Forall catches l ->
  unwinding_run cf fuel id line (GScope (GAct m (attempts l (GAct m' GNil))) p GNil) before = Ok st ->
  exists ev, trace st = before ++ ev /\ In (User m) ev /\
  forall earlier later, ev = earlier ++ User m :: later ->
  exists inside rest, later = inside ++ User m' :: rest /\
    (skips earlier /\ filter is_assertion inside = [] \/
     map said (filter is_assertion inside) = map (due (cf_max_message_length cf) (length (filter (concerns [m]) earlier))) l).
Proof. intros V W D F. now apply judged_run. Qed.
