(** The verbosity only filters events, and what is reported does not depend on the events reported before (C30). *)
From Verif.Spec Require Import TextSpec Events.
From Verif.Model Require Import Base Vector StringUtil Filter Run.
From Verif.Proofs Require Import Lists.

Definition rmap {A B} (f : A -> B) (r : res A) : res B := match r with Ok a => Ok (f a) | Err e => Err e end.

Lemma bind_rmap {A B A' B'} (f : A -> A') (g : B -> B') (m : res A) (m' : res A') (k : A -> res B) (k' : A' -> res B') :
  m' = rmap f m -> (forall a, k' (f a) = rmap g (k a)) -> bind m' k' = rmap g (bind m k).
Proof. intros -> H. destruct m; simpl; auto. Qed.
Lemma bind_same {A B B'} (g : B -> B') (m : res A) (k : A -> res B) (k' : A -> res B') :
  (forall a, k' a = rmap g (k a)) -> bind m k' = rmap g (bind m k).
Proof. intros H. destruct m; simpl; auto. Qed.

Section Verbosity.
Variable cf : config.
Variable v : verbosity.
Variable past : list event. (** events reported before *)
Notation lo := (with_verbosity cf v).
Notation hi := (with_verbosity cf Full).

Definition F (st : state) : state :=
  mkstate (inf st) (held st) (asserts st) (may_fail st) (should_fail st) (in_check st) (unhandled st) (status st)
          (past ++ filter (visible v) (trace st)).
Definition F2 {A} (p : state * A) : state * A := (F (fst p), snd p).

Lemma report_F l st e : min_verbosity e = l -> report lo l (F st) e = F (report hi l st e).
Proof.
  intros <-. unfold report. cbn [cf_verbosity with_verbosity].
  assert (vlevel (min_verbosity e) <=? vlevel Full = true) as -> by (destruct e; reflexivity).
  unfold F. cbn [inf held asserts may_fail should_fail in_check unhandled status trace].
  rewrite filter_app, app_assoc. cbn [filter].
  change (vlevel (min_verbosity e) <=? vlevel v) with (visible v e). destruct (visible v e); [reflexivity|]. now rewrite app_nil_r.
Qed.

Lemma raise_F st s : raise_state (F st) s = F (raise_state st s).
Proof. unfold raise_state. cbn [status F]. now destruct (_ <? _). Qed.

Lemma push_location_F st l : push_location lo (F st) l = rmap F (push_location hi st l).
Proof. unfold push_location. cbn [inf F]. apply bind_same. reflexivity. Qed.
Lemma pop_location_F st : pop_location (F st) = rmap F (pop_location st).
Proof. unfold pop_location. cbn [inf F]. apply bind_same. reflexivity. Qed.

Lemma register_F ok st : register_assertion ok (F st) = F (register_assertion ok st).
Proof.
  unfold register_assertion. cbn [may_fail should_fail F].
  destruct (if ok then Passed else if may_fail st || should_fail st then AllowedFailure else Failure); cbn [held set_inf set_asserts];
    destruct (held st) eqn:H; rewrite <- ?raise_F; try reflexivity;
    unfold set_asserts, set_inf, set_held, F; cbn; rewrite ?H; reflexivity.
Qed.

Lemma report_assertion_F id ok data st : report_assertion lo id ok data (F st) = rmap F (report_assertion hi id ok data st).
Proof.
  unfold report_assertion. cbn [status F]. destruct (is_skipped (status st)); [reflexivity|].
  rewrite register_F. cbn [held unhandled inf F in_check should_fail may_fail]. apply bind_same. intros l.
  destruct ok; cbn [rmap]; f_equal; apply report_F; reflexivity.
Qed.

Lemma report_assertion2_F id ok a b st : report_assertion2 lo id ok a b (F st) = rmap F (report_assertion2 hi id ok a b st).
Proof.
  unfold report_assertion2. cbn [status F]. destruct (is_skipped (status st)); [reflexivity|].
  apply bind_same. intros [m ?]. apply report_assertion_F.
Qed.

Lemma report_skipped_F id m st : report_skipped lo id m (F st) = rmap F (report_skipped hi id m st).
Proof.
  unfold report_skipped. rewrite raise_F. cbn [inf F]. apply bind_same. intros l. cbn [rmap]. f_equal. now apply report_F.
Qed.

Lemma section_started_F s st : report_section_started lo s (F st) = F (report_section_started hi s st).
Proof. now apply report_F. Qed.
Lemma section_ended_F s st : report_section_ended lo s (F st) = F (report_section_ended hi s st).
Proof. unfold report_section_ended. cbn [status F]. now apply report_F. Qed.

Lemma close_sections_F l n : forall st, close_sections lo l n (F st) = F (close_sections hi l n st).
Proof. induction l as [|s l IH]; intros st; cbn [close_sections]; auto. destruct (_ <? _); auto. rewrite section_ended_F. apply IH. Qed.

Lemma notify_F st : notify_exception_handled lo (F st) = F (notify_exception_handled hi st).
Proof.
  unfold notify_exception_handled. cbn [held inf F]. destruct (held st); auto. rewrite close_sections_F. reflexivity.
Qed.

Lemma hold_F u st : hold u (F st) = F (hold u st).
Proof. unfold hold. cbn [held F]. destruct (held st); auto. destruct u; auto. Qed.

Lemma check_begin_F line st : check_begin lo line (F st) = rmap F (check_begin hi line st).
Proof.
  unfold check_begin. rewrite notify_F. eapply bind_rmap; [apply push_location_F|]. reflexivity.
Qed.
Lemma check_end_F u st : check_end u (F st) = rmap F (check_end u st).
Proof.
  unfold check_end. change (set_in_check (F st) false) with (F (set_in_check st false)). rewrite hold_F. apply pop_location_F.
Qed.

Lemma section_enter_F s st : section_enter lo s (F st) = rmap F2 (section_enter hi s st).
Proof.
  unfold section_enter. rewrite notify_F. cbn [inf F cf_max_nested with_verbosity]. apply bind_same. intros lv.
  apply bind_same. intros l0. apply bind_same. intros lv1.
  destruct (leaf_executed _); [reflexivity|]. destruct (_ && _); [reflexivity|].
  apply bind_same. intros lv2. apply bind_same. intros cs.
  eapply (bind_rmap F). { match goal with |- _ = rmap _ (push_location _ ?x ?l) => exact (push_location_F x l) end. }
  intros st3. cbn [rmap]. f_equal. unfold F2. cbn [fst snd]. f_equal. destruct (_ =? _); auto. apply section_started_F.
Qed.

Lemma section_exit_F e u st : section_exit lo e u (F st) = rmap F (section_exit hi e u st).
Proof.
  unfold section_exit. eapply (bind_rmap F).
  - destruct e; [|reflexivity]. eapply (bind_rmap F). { rewrite hold_F. apply pop_location_F. }
    intros st1. cbn [inf F]. apply bind_same. intros [i2 last].
    eapply (bind_rmap F).
    + destruct (last && negb u); [|reflexivity]. cbn [inf set_inf]. apply bind_same. intros d. cbn [rmap]. f_equal.
      apply (section_ended_F d (set_inf st1 i2)).
    + intros st3. cbn [inf F]. apply bind_same. reflexivity.
  - intros st'. cbn [inf F]. apply bind_same. reflexivity.
Qed.

Lemma add_captures_F l : forall st, add_captures lo l (F st) = rmap F (add_captures hi l st).
Proof.
  induction l as [|c l IH]; intros st; cbn [add_captures]; [reflexivity|].
  eapply (bind_rmap F); [|intros; apply IH]. unfold add_capture. cbn [inf F cf_max_captures with_verbosity].
  destruct (_ =? _); [reflexivity|]. rewrite notify_F. apply bind_same. intros [t ?]. reflexivity.
Qed.
Lemma capture_end_F u n st : capture_end u n (F st) = rmap F (capture_end u n st).
Proof. unfold capture_end. rewrite hold_F. cbn [inf F]. apply bind_same. reflexivity. Qed.

Lemma conclude_F id pass w abort x st : conclude lo id pass w abort x (F st) = rmap F2 (conclude hi id pass w abort x st).
Proof.
  unfold conclude. destruct w as [what outcome|type accepts|type accepts matches describe|source]; destruct x as [e|];
    repeat match goal with
    | |- Ok _ = rmap _ (Ok _) => reflexivity
    | |- context[if ?c then _ else _] => destruct c
    | |- bind (match ?e with AbortExn => _ | StdExn _ => _ | OtherExn => _ end) _ = _ => destruct e
    | |- bind _ _ = rmap _ (bind _ _) =>
      eapply (bind_rmap F); [apply report_assertion_F || apply report_assertion2_F|intros ?; cbn [rmap F2 fst snd]; rewrite ?notify_F; reflexivity]
    end.
Qed.

Lemma exec_F id pass p : forall st, exec lo id pass p (F st) = rmap F2 (exec hi id pass p st).
Proof.
  induction p as [|n k IHp|when y k IHp|line w abort e IHe k IHp|line message abort k IHp|sec b IHp1 k IHp2|texts b IHp1 k IHp2|accepts notify b IHp1 k IHp2];
    intros st; cbn [exec].
  - reflexivity.
  - rewrite report_F by reflexivity. apply IHp.
  - destruct (when pass); [reflexivity|apply IHp].
  - eapply (bind_rmap F); [apply check_begin_F|]. intros st1. eapply (bind_rmap F2); [apply IHe|]. intros [st2 x]. cbn [F2 fst snd].
    eapply (bind_rmap F2); [apply conclude_F|]. intros [st3 z]. cbn [F2 fst snd].
    eapply (bind_rmap F); [apply check_end_F|]. intros st4. destruct z; [reflexivity|apply IHp].
  - eapply (bind_rmap F); [apply check_begin_F|]. intros st1. eapply (bind_rmap F); [apply report_skipped_F|]. intros st2.
    eapply (bind_rmap F); [apply check_end_F|]. intros st3. destruct abort; [reflexivity|apply IHp].
  - eapply (bind_rmap F2); [apply section_enter_F|]. intros [st1 entered]. cbn [F2 fst snd]. destruct entered.
    + eapply (bind_rmap F2); [apply IHp1|]. intros [st2 x]. cbn [F2 fst snd].
      eapply (bind_rmap F); [apply section_exit_F|]. intros st3. destruct x; [reflexivity|apply IHp2].
    + eapply (bind_rmap F); [apply section_exit_F|]. intros st3. apply IHp2.
  - eapply (bind_rmap F); [apply add_captures_F|]. intros st1. eapply (bind_rmap F2); [apply IHp1|]. intros [st2 x]. cbn [F2 fst snd].
    eapply (bind_rmap F); [apply capture_end_F|]. intros st3. destruct x; [reflexivity|apply IHp2].
  - eapply (bind_rmap F2); [apply IHp1|]. intros [st1 x]. cbn [F2 fst snd]. destruct x as [e|]; [|apply IHp2].
    destruct (accepts e); [|reflexivity]. destruct notify; rewrite ?notify_F; apply IHp2.
Qed.

Lemma passes_F id p : forall fuel pass st, passes lo id p fuel pass (F st) = rmap F2 (passes hi id p fuel pass st).
Proof.
  induction fuel as [|fuel IH]; intros pass st; cbn [passes]; [reflexivity|].
  cbn [inf F]. change (set_inf (F ?x) ?i) with (F (set_inf x i)).
  eapply (bind_rmap F2); [apply exec_F|]. intros [st2 x]. cbn [F2 fst snd]. destruct x; [reflexivity|].
  cbn [inf F set_inf status]. destruct (_ && _); [|reflexivity].
  change (set_inf (F ?x) ?i) with (F (set_inf x i)). apply IH.
Qed.

Lemma run_F fuel t tr : run lo fuel t (past ++ filter (visible v) tr) = rmap F (run hi fuel t tr).
Proof.
  unfold run. cbn [cf_max_tag_length with_verbosity]. apply bind_same. intros [may should].
  set (st := mkstate (mkinfo [] [] 0 false [] []) None (mkcounts 0 0 0) may should false false INotRun tr).
  change (mkstate (mkinfo [] [] 0 false [] []) None (mkcounts 0 0 0) may should false false INotRun (past ++ filter (visible v) tr))
    with (F st). rewrite report_F by reflexivity.
  change (set_status (F ?x) ?i) with (F (set_status x i)).
  eapply (bind_rmap F); [apply push_location_F|]. intros st1.
  eapply (bind_rmap F2); [apply passes_F|]. intros [st2 x]. cbn [F2 fst snd].
  eapply (bind_rmap F).
  { change (set_in_check (F ?x) ?i) with (F (set_in_check x i)). change (set_unhandled (F ?x) ?i) with (F (set_unhandled x i)).
    destruct x as [[|what|]|]; [reflexivity|apply report_assertion2_F|apply report_assertion_F|].
    eapply (bind_rmap F); [apply report_assertion_F|]. reflexivity. }
  intros st3. cbn [unhandled F].
  replace (if unhandled st3 then notify_exception_handled lo (F st3) else F st3) with
    (F (if unhandled st3 then notify_exception_handled hi st3 else st3)) by (destruct (unhandled st3); auto; symmetry; apply notify_F).
  change (set_unhandled (F ?x) ?i) with (F (set_unhandled x i)).
  eapply (bind_rmap F).
  { cbn [should_fail status F]. destruct (should_fail _); [|reflexivity].
    change (set_should_fail (F ?x) ?i) with (F (set_should_fail x i)). change (set_in_check (F ?x) ?i) with (F (set_in_check x i)).
    eapply (bind_rmap F); [apply report_assertion_F|]. reflexivity. }
  intros st6. cbn [status asserts F]. apply bind_same. intros s. cbn [rmap]. f_equal. now apply report_F.
Qed.
End Verbosity.
