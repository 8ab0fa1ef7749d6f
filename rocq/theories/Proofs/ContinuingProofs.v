(** CHECK rather than REQUIRE (C86). *)
From Verif.Spec Require Import TextSpec FilterSpec ExpressionSpec CaptureSpec Events MacroSpec EquivalenceSpec.
From Verif.Model Require Import Base Vector StringUtil Filter Run Expression Capture Macros.
From Verif.Proofs Require Import Lists VerbosityProofs MacroProofs EquivalenceProofs.
Local Open Scope list_scope.

(** ** What is reported is not taken back; a test in the state "skipped" has reported it *)
Definition stopped (l : list event) : bool := existsb stops l.
Definition grown (st st' : state) : Prop := exists l, trace st' = trace st ++ l.
Definition safe (st : state) : Prop := is_skipped (status st) = true -> stopped (trace st) = true.
Definition fine (st st' : state) : Prop := grown st st' /\ (safe st -> safe st').

Lemma stopped_app a b : stopped (a ++ b) = stopped a || stopped b.
Proof. apply existsb_app. Qed.
Lemma grown_refl st : grown st st.
Proof. exists []. now rewrite app_nil_r. Qed.
Lemma grown_trans a b c : grown a b -> grown b c -> grown a c.
Proof. intros [l E] [l' E']. exists (l ++ l'). now rewrite E', E, app_assoc. Qed.
Lemma fine_refl st : fine st st.
Proof. split; auto using grown_refl. Qed.
Lemma fine_trans a b c : fine a b -> fine b c -> fine a c.
Proof. intros [G S] [G' S']. split; [eapply grown_trans; eauto|auto]. Qed.

Section Fine.
Variable cf : config.
Variable id : test_id.

Lemma fine_report v st e : fine st (report cf v st e).
Proof.
  unfold report. destruct (_ <=? _); [|apply fine_refl]. split; [exists [e]; reflexivity|]. unfold safe. cbn [status trace]. intros H K.
  rewrite stopped_app, H; auto.
Qed.
Lemma fine_raise st s : is_skipped s = false -> fine st (raise_state st s).
Proof.
  intros N. unfold raise_state. destruct (_ <? _); [|apply fine_refl]. split; [exists []; cbn; now rewrite app_nil_r|]. unfold safe. cbn [status set_status].
  congruence.
Qed.
Lemma fine_register ok st : fine st (register_assertion ok st).
Proof.
  unfold register_assertion. set (v := if ok then _ else _). set (st1 := set_inf _ _).
  assert (E : fine st (match held st1 with Some h => set_held st1 (Some (count_info v h)) | None => st1 end)) by (destruct (held st1); apply (fine_refl st)).
  destruct v; auto; eapply fine_trans; [exact E|now apply fine_raise|exact E|now apply fine_raise].
Qed.
Lemma fine_assertion ok data st st' : report_assertion cf id ok data st = Ok st' -> fine st st'.
Proof.
  unfold report_assertion. destruct (is_skipped _); [intros H; injection H as <-; apply fine_refl|].
  destruct (back _); cbn [bind]; [|discriminate]. intros H. injection H as <-. eapply fine_trans; [apply (fine_register ok)|]. destruct ok; apply fine_report.
Qed.
Lemma failure_stops data st st' : safe st -> report_assertion cf id false data st = Ok st' -> stopped (trace st') = true.
Proof.
  unfold report_assertion. intros S. destruct (is_skipped _) eqn:K; [intros H; injection H as <-; auto|].
  destruct (back _); cbn [bind]; [|discriminate]. intros H. injection H as <-. unfold report. cbn [vlevel]. cbn [Nat.leb trace]. rewrite stopped_app. apply orb_true_r.
Qed.
Lemma fine_assertion2 ok a b st st' : report_assertion2 cf id ok a b st = Ok st' -> fine st st'.
Proof.
  unfold report_assertion2. destruct (is_skipped _); [intros H; injection H as <-; apply fine_refl|].
  destruct (append_or_truncate _ _) as [[m ?]|]; cbn [bind]; [|discriminate]. apply fine_assertion.
Qed.
Lemma failure2_stops a b st st' : safe st -> report_assertion2 cf id false a b st = Ok st' -> stopped (trace st') = true.
Proof.
  unfold report_assertion2. intros S. destruct (is_skipped _) eqn:K; [intros H; injection H as <-; auto|].
  destruct (append_or_truncate _ _) as [[m ?]|]; cbn [bind]; [|discriminate]. now apply failure_stops.
Qed.
Lemma fine_skipped m st st' : report_skipped cf id m st = Ok st' -> fine st st'.
Proof.
  unfold report_skipped. destruct (back _); cbn [bind]; [|discriminate]. intros H. injection H as <-. unfold report. cbn [vlevel Nat.leb].
  split; [eexists; cbn [trace]; unfold raise_state; destruct (_ <? _); reflexivity|]. intros _ _. cbn [trace]. rewrite stopped_app. apply orb_true_r.
Qed.
Lemma fine_close l n : forall st, fine st (close_sections cf l n st).
Proof.
  induction l as [|s l IH]; intros st; cbn [close_sections]; [apply fine_refl|]. destruct (_ <? _); [|apply fine_refl].
  eapply fine_trans; [|apply IH]. apply fine_report.
Qed.
Lemma fine_notify st : fine st (notify_exception_handled cf st).
Proof. unfold notify_exception_handled. destruct (held st); [|apply fine_refl]. apply (fine_close _ _ st). Qed.
Lemma fine_hold u st : fine st (hold u st).
Proof. unfold hold. destruct (held st), u; apply (fine_refl st). Qed.
Lemma fine_push st l st' : push_location cf st l = Ok st' -> fine st st'.
Proof. unfold push_location. destruct (push_back _ _ _); cbn [bind]; [|discriminate]. intros H. injection H as <-. apply (fine_refl st). Qed.
Lemma fine_pop st st' : pop_location st = Ok st' -> fine st st'.
Proof. unfold pop_location. destruct (pop_back _); cbn [bind]; [|discriminate]. intros H. injection H as <-. apply (fine_refl st). Qed.
Lemma fine_begin line st st' : check_begin cf line st = Ok st' -> fine st st'.
Proof.
  unfold check_begin. destruct (push_location _ _ _) as [st1|] eqn:E; cbn [bind]; [|discriminate]. intros H. injection H as <-.
  eapply fine_trans; [apply fine_notify|]. apply (fine_push _ _ _ E).
Qed.
Lemma fine_end u st st' : check_end u st = Ok st' -> fine st st'.
Proof. unfold check_end. intros H. eapply fine_trans; [|apply (fine_pop _ _ H)]. apply (fine_hold u (set_in_check st false)). Qed.
Lemma fine_enter s st st' b : section_enter cf s st = Ok (st', b) -> fine st st'.
Proof.
  unfold section_enter. set (st0 := notify_exception_handled cf st). assert (E0 : fine st st0) by apply fine_notify.
  intros H. eapply fine_trans; [exact E0|]. clearbody st0. revert H.
  repeat match goal with
  | |- context [bind ?m _] => lazymatch m with push_location _ _ _ => fail | _ => destruct m; cbn [bind]; [|discriminate] end
  | |- context [if ?c then _ else _] => lazymatch c with _ =? _ => fail | _ => destruct c end
  | |- Ok _ = Ok _ -> _ => let H := fresh in intros H; injection H as <- <-; apply (fine_refl st0)
  end.
  destruct (push_location _ _ _) as [st3|] eqn:P; cbn [bind]; [|discriminate]. intros H. injection H as <- <-.
  apply fine_push in P. eapply fine_trans; [exact P|]. destruct (_ =? _); [apply fine_report|apply fine_refl].
Qed.
Lemma fine_exit e u st st' : section_exit cf e u st = Ok st' -> fine st st'.
Proof.
  unfold section_exit. set (m := if e then _ else _). assert (M : forall st1, m = Ok st1 -> fine st st1).
  { subst m. intros st1. destruct e; [|intros H; injection H as <-; apply fine_refl].
    destruct (pop_location _) as [s1|] eqn:P; cbn [bind]; [|discriminate]. apply fine_pop in P. intros H. eapply fine_trans; [apply (fine_hold u)|].
    eapply fine_trans; [exact P|]. clear P. revert H. match goal with |- context [bind ?m _] => destruct m as [[i2 last]|] end; cbn [bind]; [|discriminate].
    set (s2 := set_inf s1 i2). assert (E2 : fine s1 s2) by apply (fine_refl s1).
    match goal with |- context [bind ?m _] => assert (E3 : forall s3, m = Ok s3 -> fine s2 s3); [|destruct m as [s3|]; cbn [bind]; [specialize (E3 _ eq_refl)|discriminate]] end.
    { intros s3. destruct (_ && _); [|intros H; injection H as <-; apply fine_refl]. destruct (back _); cbn [bind]; [|discriminate].
      intros H. injection H as <-. apply fine_report. }
    destruct (pop_back _); cbn [bind]; [|discriminate]. intros H. injection H as <-. eapply fine_trans; [exact E2|exact E3]. }
  destruct m as [st1|]; cbn [bind]; [|discriminate]. specialize (M _ eq_refl). destruct (csub _ _); cbn [bind]; [|discriminate]. intros H. injection H as <-. exact M.
Qed.
Lemma fine_captures l : forall st st', add_captures cf l st = Ok st' -> fine st st'.
Proof.
  induction l as [|c l IH]; intros st st'; cbn [add_captures]; [intros H; injection H as <-; apply fine_refl|].
  destruct (add_capture cf c st) as [st1|] eqn:E; cbn [bind]; [|discriminate]. intros H. eapply fine_trans; [|apply (IH _ _ H)]. clear H IH.
  unfold add_capture in E. destruct (_ =? _); [discriminate|]. destruct (append_or_truncate _ _) as [[t ?]|]; cbn [bind] in E; [|discriminate]. injection E as <-.
  apply (fine_notify st).
Qed.
Lemma fine_capture_end u n st st' : capture_end u n st = Ok st' -> fine st st'.
Proof.
  unfold capture_end. destruct (csub _ _); cbn [bind]; [|discriminate]. intros H. injection H as <-. apply (fine_hold u st).
Qed.
Lemma fine_conclude pass w abort x st st' y : conclude cf id pass w abort x st = Ok (st', y) -> fine st st'.
Proof.
  assert (N : forall m (f : state -> option exn) (k : state -> state), (forall s, fine s (k s)) -> (forall s, m = Ok s -> fine st s) ->
    (do s <- m ;; Ok (k s, f s)) = Ok (st', y) -> fine st st').
  { intros m f k K M. destruct m as [s|]; cbn [bind]; [|discriminate]. intros H. injection H as <- _. eapply fine_trans; [now apply M|apply K]. }
  unfold conclude. destruct w as [what outcome|type accepts|type accepts matches describe|source]; destruct x as [e|];
    repeat match goal with
    | |- Ok _ = Ok _ -> _ => intros H; injection H as <- _; apply fine_refl
    | |- (if ?c then _ else _) = _ -> _ => destruct c
    | |- bind (match ?e with AbortExn => _ | StdExn _ => _ | OtherExn => _ end) _ = _ -> _ => destruct e
    | |- bind _ (fun s => Ok (notify_exception_handled _ s, _)) = _ -> _ => apply (N _ (fun _ => _) (notify_exception_handled cf)); [apply fine_notify|]
    | |- bind _ (fun s => Ok (s, _)) = _ -> _ => apply (N _ (fun _ => _) (fun s => s)); [apply fine_refl|]
    end; intros s; apply fine_assertion || apply fine_assertion2.
Qed.

Lemma fine_exec pass p : forall st st' x, exec cf id pass p st = Ok (st', x) -> fine st st'.
Proof.
  induction p as [|n k IHp|when y k IHp|line w abort e IHe k IHp|line message abort k IHp|sec b IHp1 k IHp2|texts b IHp1 k IHp2|accepts notify b IHp1 k IHp2];
    intros st st' x; cbn [exec].
  - intros H. injection H as <- _. apply fine_refl.
  - intros H. eapply fine_trans; [|apply (IHp _ _ _ H)]. apply fine_report.
  - destruct (when pass); [intros H; injection H as <- _; apply fine_refl|apply IHp].
  - destruct (check_begin cf line st) as [st1|] eqn:E1; cbn [bind]; [|discriminate]. apply fine_begin in E1.
    destruct (exec cf id pass e st1) as [[st2 x2]|] eqn:E2; cbn [bind]; [|discriminate]. apply IHe in E2.
    destruct (conclude cf id pass w abort x2 st2) as [[st3 y]|] eqn:E3; cbn [bind]; [|discriminate]. apply fine_conclude in E3.
    destruct (check_end _ st3) as [st4|] eqn:E4; cbn [bind]; [|discriminate]. apply fine_end in E4.
    assert (G : fine st st4) by (eauto using fine_trans). destruct y; [intros H; injection H as <- _; exact G|]. intros H. eapply fine_trans; [exact G|apply (IHp _ _ _ H)].
  - destruct (check_begin cf line st) as [st1|] eqn:E1; cbn [bind]; [|discriminate]. apply fine_begin in E1.
    destruct (report_skipped _ _ _ _) as [st2|] eqn:E2; cbn [bind]; [|discriminate]. apply fine_skipped in E2.
    destruct (check_end _ st2) as [st4|] eqn:E4; cbn [bind]; [|discriminate]. apply fine_end in E4.
    assert (G : fine st st4) by (eauto using fine_trans). destruct abort; [intros H; injection H as <- _; exact G|]. intros H. eapply fine_trans; [exact G|apply (IHp _ _ _ H)].
  - destruct (section_enter _ _ _) as [[st1 entered]|] eqn:E1; cbn [bind]; [|discriminate]. apply fine_enter in E1. destruct entered.
    + destruct (exec cf id pass b st1) as [[st2 x2]|] eqn:E2; cbn [bind]; [|discriminate]. apply IHp1 in E2.
      destruct (section_exit _ _ _ _) as [st3|] eqn:E3; cbn [bind]; [|discriminate]. apply fine_exit in E3.
      assert (G : fine st st3) by (eauto using fine_trans). destruct x2; [intros H; injection H as <- _; exact G|]. intros H. eapply fine_trans; [exact G|apply (IHp2 _ _ _ H)].
    + destruct (section_exit _ _ _ _) as [st3|] eqn:E3; cbn [bind]; [|discriminate]. apply fine_exit in E3. intros H.
      eapply fine_trans; [exact E1|]. eapply fine_trans; [exact E3|apply (IHp2 _ _ _ H)].
  - destruct (add_captures _ _ _) as [st1|] eqn:E1; cbn [bind]; [|discriminate]. apply fine_captures in E1.
    destruct (exec cf id pass b st1) as [[st2 x2]|] eqn:E2; cbn [bind]; [|discriminate]. apply IHp1 in E2.
    destruct (capture_end _ _ _) as [st3|] eqn:E3; cbn [bind]; [|discriminate]. apply fine_capture_end in E3.
    assert (G : fine st st3) by (eauto using fine_trans). destruct x2; [intros H; injection H as <- _; exact G|]. intros H. eapply fine_trans; [exact G|apply (IHp2 _ _ _ H)].
  - destruct (exec cf id pass b st) as [[st2 x2]|] eqn:E2; cbn [bind]; [|discriminate]. apply IHp1 in E2. destruct x2 as [e|].
    + destruct (accepts e); [|intros H; injection H as <- _; exact E2]. intros H. eapply fine_trans; [exact E2|]. eapply fine_trans; [|apply (IHp2 _ _ _ H)].
      destruct notify; [apply fine_notify|apply fine_refl].
    + intros H. eapply fine_trans; [exact E2|apply (IHp2 _ _ _ H)].
Qed.
Lemma fine_passes p : forall fuel pass st st' x, passes cf id p fuel pass st = Ok (st', x) -> fine st st'.
Proof.
  induction fuel as [|fuel IH]; intros pass st st' x; cbn [passes]; [discriminate|].
  destruct (exec _ _ _ _ _) as [[st2 y]|] eqn:E; cbn [bind]; [|discriminate]. apply fine_exec in E. change (fine st st2) in E.
  destruct y; [intros H; injection H as <- _; exact E|]. cbv zeta. destruct (_ && _); [|intros H; injection H as <- _; exact E].
  intros H. eapply fine_trans; [exact E|]. apply (IH _ _ _ _ H).
Qed.
Lemma fine_ending line st x st' : ending cf line id (st, x) = Ok st' -> fine st st'.
Proof.
  unfold ending. match goal with |- context [bind ?m _] => assert (M : forall s, m = Ok s -> fine st s); [|destruct m as [st3|]; cbn [bind]; [specialize (M _ eq_refl)|discriminate]] end.
  { intros s. destruct x as [[|what|]|].
    - intros H. injection H as <-. apply (fine_refl st).
    - apply fine_assertion2.
    - apply fine_assertion.
    - destruct (report_assertion _ _ _ _ _) as [s1|] eqn:E; cbn [bind]; [|discriminate]. intros H. injection H as <-. exact (fine_assertion _ _ _ _ E). }
  cbv zeta. set (st4 := if unhandled st3 then _ else _). assert (M4 : fine st3 st4) by (subst st4; destruct (unhandled st3); [apply fine_notify|apply fine_refl]).
  match goal with |- context [bind ?m _] => assert (M6 : forall s, m = Ok s -> fine st4 s); [|destruct m as [st6|]; cbn [bind]; [specialize (M6 _ eq_refl)|discriminate]] end.
  { intros s. destruct (should_fail _); [|intros H; injection H as <-; apply (fine_refl st4)].
    destruct (report_assertion _ _ _ _ _) as [s1|] eqn:E; cbn [bind]; [|discriminate]. intros H. injection H as <-. exact (fine_assertion _ _ _ _ E). }
  destruct (convert_to_public_state _); cbn [bind]; [|discriminate]. intros H. injection H as <-.
  eapply fine_trans; [exact M|]. eapply fine_trans; [exact M4|]. eapply fine_trans; [exact M6|apply fine_report].
Qed.

(** ** The same test, with or without REQUIRE *)
Fixpoint lenient (p : prog) : prog :=
  match p with
  | Nil => Nil
  | Act n k => Act n (lenient k)
  | Throw when x k => Throw when x (lenient k)
  | Check line w abort e k => Check line w false (lenient e) (lenient k)
  | Skip line m abort k => Skip line m abort (lenient k)
  | InSection s b k => InSection s (lenient b) (lenient k)
  | Events.Capture texts b k => Events.Capture texts (lenient b) (lenient k)
  | Catch accepts notify b k => Catch accepts notify (lenient b) (lenient k)
  end.

Definition out := res (state * option exn).
Definition from (t : list event) (r : out) : Prop := forall st x, r = Ok (st, x) -> exists l, trace st = t ++ l.
Definition parted (r r' : out) : Prop := exists t, stopped t = true /\ from t r /\ from t r'.
Definition alike (r r' : out) : Prop := (r = r' /\ forall st x, r = Ok (st, x) -> safe st) \/ parted r r'.

Lemma alike_same r : (forall st x, r = Ok (st, x) -> safe st) -> alike r r.
Proof. now left. Qed.
Lemma alike_bind r r' k k' : alike r r' ->
  (forall st x, safe st -> alike (k (st, x)) (k' (st, x))) ->
  (forall st x st' x', k (st, x) = Ok (st', x') -> grown st st') ->
  (forall st x st' x', k' (st, x) = Ok (st', x') -> grown st st') ->
  alike (bind r k) (bind r' k').
Proof.
  intros [[<- S]|(t & T & F1 & F2)] K G G'.
  - destruct r as [[st x]|]; cbn [bind]; [apply K; eauto|]. left. split; auto; discriminate.
  - right. exists t. split; auto. split.
    + destruct r as [[st x]|]; cbn [bind]; [|intros ? ? H; discriminate]. intros st' x' H. destruct (F1 _ _ eq_refl) as [l L]. apply G in H as [l' L'].
      exists (l ++ l'). now rewrite L', L, app_assoc.
    + destruct r' as [[st x]|]; cbn [bind]; [|intros ? ? H; discriminate]. intros st' x' H. destruct (F2 _ _ eq_refl) as [l L]. apply G' in H as [l' L'].
      exists (l ++ l'). now rewrite L', L, app_assoc.
Qed.
Lemma alike_step {A} (m : res A) (k k' : A -> out) : (forall a, m = Ok a -> alike (k a) (k' a)) -> alike (bind m k) (bind m k').
Proof. intros H. destruct m as [a|]; cbn [bind]; [now apply H|]. left. split; auto; discriminate. Qed.

Lemma conclude_alike pass w abort x st : safe st ->
  conclude cf id pass w abort x st = conclude cf id pass w false x st \/
  exists st1, conclude cf id pass w abort x st = Ok (st1, Some AbortExn) /\ conclude cf id pass w false x st = Ok (st1, None) /\ stopped (trace st1) = true.
Proof.
  intros S. destruct abort; [|now left].
  assert (N : forall m (k : state -> state), (forall s, grown s (k s)) -> (forall s, m = Ok s -> stopped (trace s) = true) ->
    (do s <- m ;; Ok (k s, maybe_abort true)) = (do s <- m ;; Ok (k s, maybe_abort false)) \/
    exists st1, (do s <- m ;; Ok (k s, maybe_abort true)) = Ok (st1, Some AbortExn) /\ (do s <- m ;; Ok (k s, maybe_abort false)) = Ok (st1, None) /\ stopped (trace st1) = true).
  { intros m k K M. destruct m as [s|]; cbn [bind]; [|now left]. right. exists (k s). repeat split. destruct (K s) as [l L]. rewrite L, stopped_app, M; auto. }
  unfold conclude. destruct w as [what outcome|type accepts|type accepts matches describe|source]; destruct x as [e|];
    repeat match goal with
    | |- ?a = ?a \/ _ => now left
    | |- context [if outcome ?p then _ else _] => let O := fresh in destruct (outcome p) eqn:O
    | |- context [if ?c then _ else _] => destruct c
    | |- context [match ?e with AbortExn => _ | StdExn _ => _ | OtherExn => _ end] => destruct e
    | |- bind _ (fun s => Ok (notify_exception_handled _ s, _)) = _ \/ _ => apply (N _ (notify_exception_handled cf)); [intros; apply fine_notify|]
    | |- bind _ (fun s => Ok (s, _)) = _ \/ _ => apply (N _ (fun s => s)); [apply grown_refl|]
    end; intros s; (apply failure_stops || apply failure2_stops); exact S.
Qed.

Lemma exec_alike pass p : forall st, safe st -> alike (exec cf id pass p st) (exec cf id pass (lenient p) st).
Proof.
  induction p as [|n k IHp|when y k IHp|line w abort e IHe k IHp|line message abort k IHp|sec b IHp1 k IHp2|texts b IHp1 k IHp2|accepts notify b IHp1 k IHp2];
    intros st S; cbn [exec lenient].
  - apply alike_same. intros ? ? H. injection H as <- _. exact S.
  - apply IHp. now apply fine_report.
  - destruct (when pass); [|now apply IHp]. apply alike_same. intros ? ? H. injection H as <- _. exact S.
  - apply alike_step. intros st1 E1. apply fine_begin in E1.
    assert (G : forall p abort s x s' x', (do (st3, y) <- conclude cf id pass w abort x s ;; do st4 <- check_end (is_some y) st3 ;;
      match y with Some _ => Ok (st4, y) | None => exec cf id pass p st4 end) = Ok (s', x') -> grown s s').
    { intros p ab s x s' x'. destruct (conclude _ _ _ _ _ _ _) as [[st3 y]|] eqn:E3; cbn [bind]; [|discriminate]. apply fine_conclude in E3.
      destruct (check_end _ st3) as [st4|] eqn:E4; cbn [bind]; [|discriminate]. apply fine_end in E4.
      assert (G : fine s st4) by (eauto using fine_trans). destruct y; [intros H; injection H as <- _; apply G|]. intros H. eapply grown_trans; [apply G|].
      apply fine_exec in H. apply H. }
    apply alike_bind; [apply IHe; now apply E1| |apply G|apply G].
    intros st2 x S2. destruct (conclude_alike pass w abort x st2 S2) as [E|(st3 & E & E' & T)].
    + rewrite E. apply alike_step. intros [st3 y] E3. apply fine_conclude in E3. apply alike_step. intros st4 E4. apply fine_end in E4.
      assert (S4 : safe st4) by (apply E4, E3, S2). destruct y; [|now apply IHp]. apply alike_same. intros ? ? H. injection H as <- _. exact S4.
    + rewrite E, E'. cbn [bind]. right. exists (trace st3). split; [exact T|]. split; intros s' x'.
      * destruct (check_end _ st3) as [st4|] eqn:E4; cbn [bind]; [|discriminate]. apply fine_end in E4. intros H. injection H as <- _. apply E4.
      * destruct (check_end _ st3) as [st4|] eqn:E4; cbn [bind]; [|discriminate]. apply fine_end in E4. intros H. apply fine_exec in H.
        destruct (grown_trans _ _ _ (proj1 E4) (proj1 H)) as [l L]. now exists l.
  - apply alike_step. intros st1 E1. apply fine_begin in E1. apply alike_step. intros st2 E2. apply fine_skipped in E2. apply alike_step. intros st3 E3. apply fine_end in E3.
    assert (S3 : safe st3) by (apply E3, E2, E1, S). destruct abort; [|now apply IHp]. apply alike_same. intros ? ? H. injection H as <- _. exact S3.
  - apply alike_step. intros [st1 entered] E1. apply fine_enter in E1. assert (S1 : safe st1) by now apply E1. destruct entered.
    + assert (G : forall p s x s' x', (do st3 <- section_exit cf true (is_some x) s ;; match x with Some _ => Ok (st3, x) | None => exec cf id pass p st3 end) = Ok (s', x') -> grown s s').
      { intros p s x s' x'. destruct (section_exit _ _ _ _) as [st3|] eqn:E3; cbn [bind]; [|discriminate]. apply fine_exit in E3.
        destruct x; [intros H; injection H as <- _; apply E3|]. intros H. apply fine_exec in H. eapply grown_trans; [apply E3|apply H]. }
      apply alike_bind; [now apply IHp1| |apply G|apply G]. intros st2 x S2. apply alike_step. intros st3 E3. apply fine_exit in E3.
      assert (S3 : safe st3) by now apply E3. destruct x; [|now apply IHp2]. apply alike_same. intros ? ? H. injection H as <- _. exact S3.
    + apply alike_step. intros st3 E3. apply fine_exit in E3. apply IHp2. now apply E3.
  - apply alike_step. intros st1 E1. apply fine_captures in E1. assert (S1 : safe st1) by now apply E1.
    assert (G : forall p s x s' x', (do st3 <- capture_end (is_some x) (length texts) s ;; match x with Some _ => Ok (st3, x) | None => exec cf id pass p st3 end) = Ok (s', x') -> grown s s').
    { intros p s x s' x'. destruct (capture_end _ _ _) as [st3|] eqn:E3; cbn [bind]; [|discriminate]. apply fine_capture_end in E3.
      destruct x; [intros H; injection H as <- _; apply E3|]. intros H. apply fine_exec in H. eapply grown_trans; [apply E3|apply H]. }
    apply alike_bind; [now apply IHp1| |apply G|apply G]. intros st2 x S2. apply alike_step. intros st3 E3. apply fine_capture_end in E3.
    assert (S3 : safe st3) by now apply E3. destruct x; [|now apply IHp2]. apply alike_same. intros ? ? H. injection H as <- _. exact S3.
  - assert (G : forall p s (x : option exn) s' x', match x with
        | None => exec cf id pass p s
        | Some e => if accepts e then exec cf id pass p (if notify then notify_exception_handled cf s else s) else Ok (s, x) end = Ok (s', x') -> grown s s').
    { intros p s [e|] s' x'; [|intros H; apply fine_exec in H; apply H]. destruct (accepts e); [|intros H; injection H as <- _; apply grown_refl].
      intros H. apply fine_exec in H. eapply grown_trans; [|apply H]. destruct notify; [apply fine_notify|apply grown_refl]. }
    apply alike_bind; [now apply IHp1| |apply G|apply G]. intros st2 [e|] S2; [|now apply IHp2].
    destruct (accepts e); [|apply alike_same; intros ? ? H; injection H as <- _; exact S2]. apply IHp2. destruct notify; [now apply fine_notify|exact S2].
Qed.

Lemma passes_alike p : forall fuel pass st, safe st -> alike (passes cf id p fuel pass st) (passes cf id (lenient p) fuel pass st).
Proof.
  induction fuel as [|fuel IH]; intros pass st S; cbn [passes]; [left; split; auto; discriminate|].
  assert (G : forall p s (x : option exn) s' x', match x with
    | Some _ => Ok (s, x)
    | None => let st3 := set_inf s (after_pass (inf s)) in
      if negb (length (levels (inf st3)) =? 0) && negb (is_skipped (status st3)) then passes cf id p fuel (Datatypes.S pass) st3 else Ok (st3, None)
    end = Ok (s', x') -> grown s s').
  { intros q s [x|] s' x'; [intros H; injection H as <- _; apply grown_refl|]. cbv zeta. destruct (_ && _); [|intros H; injection H as <- _; apply (grown_refl s)].
    intros H. apply fine_passes in H. apply H. }
  apply alike_bind; [now apply exec_alike| |apply G|apply G]. intros st2 [x|] S2; [apply alike_same; intros ? ? H; injection H as <- _; exact S2|].
  cbv zeta. destruct (_ && _); [|apply alike_same; intros ? ? H; injection H as <- _; exact S2]. now apply IH.
Qed.
End Fine.

Lemma until_app l a : stopped l = true -> until_stop (l ++ a) = until_stop l.
Proof.
  induction l as [|e l IH]; cbn [app until_stop]; [discriminate|]. unfold stopped. cbn [existsb]. destruct (stops e) eqn:E; [reflexivity|]. cbn [orb]. intros H. now rewrite IH.
Qed.

(** Either the same run, or one that is the same up to something that stops. *)
Lemma run_alike cf fuel id line p :
  run cf fuel (mktest id line p) [] = run cf fuel (mktest id line (lenient p)) [] \/
  exists t, stopped t = true /\ (forall st, run cf fuel (mktest id line p) [] = Ok st -> exists l, trace st = t ++ l) /\
    (forall st, run cf fuel (mktest id line (lenient p)) [] = Ok st -> exists l, trace st = t ++ l).
Proof.
  rewrite !run_cut. destruct (fail_flags _ _) as [flags|]; [|now left]. cbn [bind]. destruct (starting cf line id [] flags) as [st1|] eqn:E; [|now left]. cbn [bind].
  assert (S : safe st1).
  { unfold starting in E. apply fine_push in E. apply E. intros H. discriminate H. }
  destruct (passes_alike cf id p fuel 0 st1 S) as [[-> _]|(t & T & F1 & F2)]; [now left|]. right. exists t. split; auto. split; intros st.
  - destruct (passes _ _ _ _ _ _) as [[s x]|]; cbn [bind]; [|discriminate]. intros H. apply fine_ending in H. destruct (F1 _ _ eq_refl) as [l L]. destruct H as [[l' L'] _].
    exists (l ++ l'). now rewrite L', L, app_assoc.
  - destruct (passes _ _ (lenient p) _ _ _) as [[s x]|]; cbn [bind]; [|discriminate]. intros H. apply fine_ending in H. destruct (F2 _ _ eq_refl) as [l L]. destruct H as [[l' L'] _].
    exists (l ++ l'). now rewrite L', L, app_assoc.
Qed.

(** ** Written with macros *)
Lemma continuing_proper m b : proper m b -> proper m (continuing b).
Proof. induction b; cbn [proper continuing]; intuition. Qed.
Lemma lenient_assertions h pass max all line abort c e e' k k' :
  (forall macro macro' a b, h (Expression macro a b) = h (Expression macro' a b)) ->
  bare h pass (lenient e) = bare h pass e' -> bare h pass (lenient k) = bare h pass k' ->
  bare h pass (lenient (assertions max all line abort c e k)) = bare h pass (assertions max all line false c e' k').
Proof.
  intros H E K. destruct c as [positive source ev|value matcher ev|message|message|type accepts|type accepts m|source]; cbn [assertions lenient bare bare_expectation];
    try congruence; destruct ev as [v|v|v w]; cbn [evaluations fold_right lenient bare bare_expectation]; unfold shown_condition;
    repeat match goal with |- context [h (Expression (macro_name ?ev abort ?s ++ ?x) ?a ?b)] => rewrite (H (macro_name ev abort s ++ x) (macro_name ev false s ++ x) a b) end; congruence.
Qed.
Lemma lenient_meaning pass max all b : bare no_macro pass (lenient (meaning max all b)) = bare no_macro pass (meaning max all (continuing b)).
Proof.
  induction b; cbn [meaning continuing]; try (cbn [lenient bare]; congruence). apply lenient_assertions; auto.
Qed.

Lemma stops_same h (e : event) : stops (in_payload h e) = stops e.
Proof. now destruct e. Qed.
Lemma until_map h l : map (in_payload h) (until_stop l) = until_stop (map (in_payload h) l : list event).
Proof. induction l as [|e l IH]; cbn [until_stop map]; auto. rewrite stops_same. destruct (stops e); cbn [map]; [reflexivity|]. now rewrite IH. Qed.
Lemma stopped_map h l : stopped (map (in_payload h) l) = stopped l.
Proof. unfold stopped. induction l as [|e l IH]; cbn [existsb map]; auto. now rewrite stops_same, IH. Qed.

Lemma continuing_run cf max all fuel id line b : proper (cf_max_message_length cf) b ->
  exists r, match r, run_code cf max all fuel id line (continuing b) [] with
  | Ok st, Ok st' => map (in_payload no_macro) (trace st) = map (in_payload no_macro) (trace st')
  | Err e, Err e' => e = e'
  | _, _ => False
  end /\ (run_code cf max all fuel id line b [] = r \/
    exists t, stopped t = true /\ (forall st, run_code cf max all fuel id line b [] = Ok st -> exists l, trace st = t ++ l) /\ (forall st, r = Ok st -> exists l, trace st = t ++ l)).
Proof.
  intros P. rewrite !macros_mean by auto using continuing_proper. exists (run cf fuel (mktest id line (lenient (meaning max all b))) []). split.
  - apply same_but_erased, run_bare; [reflexivity|]. intros pass. apply lenient_meaning.
  - apply run_alike.
Qed.

Lemma continuing_until cf max all fuel id line b st st' : proper (cf_max_message_length cf) b ->
  run_code cf max all fuel id line b [] = Ok st -> run_code cf max all fuel id line (continuing b) [] = Ok st' ->
  map (in_payload no_macro) (until_stop (trace st)) = map (in_payload no_macro) (until_stop (trace st')).
Proof.
  intros P R R'. destruct (continuing_run cf max all fuel id line b P) as (r & E & A). rewrite R' in E. destruct r as [s|]; [|contradiction]. rewrite (until_map _ (trace st')), <- E, <- until_map.
  destruct A as [A|(t & T & G & G')]; [congruence|]. destruct (G _ R) as [l L]. destruct (G' _ eq_refl) as [l' L']. now rewrite L, L', !until_app.
Qed.

Lemma unstopped l : Forall (fun e : event => stops e = false) l -> stopped l = false.
Proof. unfold stopped. induction 1 as [|e l H _ IH]; cbn [existsb]; auto. now rewrite H. Qed.
Lemma continuing_quiet cf max all fuel id line b : proper (cf_max_message_length cf) b ->
  let strict := run_code cf max all fuel id line b [] in
  let relaxed := run_code cf max all fuel id line (continuing b) [] in
  (forall st, strict = Ok st -> Forall (fun e => stops e = false) (trace st) ->
   exists st', relaxed = Ok st' /\ map (in_payload no_macro) (trace st') = map (in_payload no_macro) (trace st)) /\
  (forall st', relaxed = Ok st' -> Forall (fun e => stops e = false) (trace st') ->
   (exists st, strict = Ok st /\ map (in_payload no_macro) (trace st) = map (in_payload no_macro) (trace st'))).
Proof.
  intros P strict relaxed. destruct (continuing_run cf max all fuel id line b P) as (r & E & A). fold strict in A. fold relaxed in E. split.
  - intros st R N. rewrite R in A. destruct A as [<-|(t & T & G & _)].
    + destruct relaxed as [st'|]; [|contradiction]. exists st'. split; auto.
    + destruct (G _ eq_refl) as [l L]. apply unstopped in N. rewrite L, stopped_app, T in N. discriminate.
  - intros st' R N. rewrite R in E. destruct r as [s|]; [|contradiction]. apply unstopped in N. rewrite <- (stopped_map no_macro), <- E, stopped_map in N.
    destruct A as [A|(t & T & _ & G)]; [eauto|]. destruct (G _ eq_refl) as [l L]. rewrite L, stopped_app, T in N. discriminate.
Qed.
