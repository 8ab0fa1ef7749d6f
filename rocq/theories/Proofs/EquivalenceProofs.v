(** Ways of writing a test that are documented to be equivalent (C86). *)
From Verif.Spec Require Import TextSpec FilterSpec ExpressionSpec CaptureSpec Events MacroSpec EquivalenceSpec.
From Verif.Model Require Import Base Vector StringUtil Filter Run Expression Capture Macros.
From Verif.Proofs Require Import Lists VerbosityProofs MacroProofs.
Local Open Scope list_scope.

(** ** Captures *)
Lemma hold_hold u st : hold u (hold u st) = hold u st.
Proof. unfold hold. destruct (held st) eqn:E; [now rewrite E|]. destruct u; cbn [held set_held]; [reflexivity|now rewrite E]. Qed.
Lemma hold_set u st i : held st <> None \/ u = false -> hold u (set_inf st i) = set_inf st i.
Proof. intros [H| ->]; unfold hold; cbn [held set_inf]; destruct (held st); congruence || reflexivity. Qed.
Lemma held_hold u st : held (hold u st) <> None \/ u = false.
Proof. unfold hold. destruct (held st) eqn:E; [left; congruence|]. destruct u; [left; cbn; discriminate|now right]. Qed.

Lemma capture_end_split u n st : (do st1 <- capture_end u n st ;; capture_end u 1 st1) = capture_end u (S n) st.
Proof.
  unfold capture_end, csub. set (st1 := hold u st). set (l := captures (inf st1)).
  destruct (n <=? length l) eqn:L; cbn [bind].
  - rewrite hold_set by apply held_hold. cbn [inf set_inf captures with_captures]. rewrite firstn_length_le by lia. apply Nat.leb_le in L.
    destruct (S n <=? length l) eqn:M.
    + apply Nat.leb_le in M. assert (1 <=? length l - n = true) as -> by (apply Nat.leb_le; lia). cbn [bind]. rewrite firstn_firstn.
      replace (Nat.min _ _) with (length l - S n) by lia. destruct st1 as [[]]. reflexivity.
    + apply Nat.leb_gt in M. assert (1 <=? length l - n = false) as -> by (apply Nat.leb_gt; lia). reflexivity.
  - apply Nat.leb_gt in L. assert (S n <=? length l = false) as -> by (apply Nat.leb_gt; lia). reflexivity.
Qed.

Lemma capture_split cf id pass t texts b k st :
  exec cf id pass (Events.Capture (t :: texts) b k) st = exec cf id pass (Events.Capture [t] (Events.Capture texts b Nil) k) st.
Proof.
  cbn [exec map add_captures length]. rewrite !bind_assoc. apply bind_ext. intros st1. cbn [bind]. rewrite !bind_assoc. apply bind_ext. intros st2.
  rewrite !bind_assoc. apply bind_ext. intros [st3 x]. rewrite <- capture_end_split. rewrite !bind_assoc. apply bind_ext. intros st4.
  destruct x; reflexivity.
Qed.

Lemma assertions_ext cf max all id pass line abort c e e' k k' :
  (forall st, exec cf id pass e st = exec cf id pass e' st) -> (forall st, exec cf id pass k st = exec cf id pass k' st) ->
  forall st, exec cf id pass (assertions max all line abort c e k) st = exec cf id pass (assertions max all line abort c e' k') st.
Proof.
  intros E K.
  assert (C : forall w e e' k k', (forall st, exec cf id pass e st = exec cf id pass e' st) -> (forall st, exec cf id pass k st = exec cf id pass k' st) ->
    forall st, exec cf id pass (Check line w abort e k) st = exec cf id pass (Check line w abort e' k') st).
  { clear. intros w e e' k k' E K st. cbn [exec]. apply bind_ext. intros st1. rewrite E. apply bind_ext. intros [st2 x]. apply bind_ext. intros [st3 y].
    apply bind_ext. intros st4. destruct y; auto. }
  destruct c as [positive source ev|value matcher ev|message|message|type accepts|type accepts m|source]; cbn [assertions];
    try (apply C; assumption); destruct ev; cbn [evaluations fold_right]; repeat (apply C; auto).
Qed.

Lemma split_exec cf max all id pass b b' : rewritten captures_split b b' ->
  forall st, exec cf id pass (meaning max all b) st = exec cf id pass (meaning max all b') st.
Proof.
  induction 1 as [b b' R|b|b b' _ IH|b b' b'' _ IH1 _ IH2|n k k' _ IH|when x k k' _ IH|line abort c e e' k k' _ IH1 _ IH2|line abort m k k' _ IH|s b b' k k' _ IH1 _ IH2
    |args values b b' k k' _ IH1 _ IH2|pieces b b' k k' _ IH1 _ IH2|accepts notify b b' k k' _ IH1 _ IH2]; intros st; cbn [meaning].
  - destruct R. cbn [meaning List.combine map fst snd]. apply capture_split.
  - reflexivity.
  - now rewrite IH.
  - now rewrite IH1.
  - apply IH.
  - cbn [exec]. destruct (when pass); auto.
  - now apply assertions_ext.
  - cbn [exec]. apply bind_ext. intros st1. apply bind_ext. intros st2. apply bind_ext. intros st3. destruct abort; auto.
  - cbn [exec]. apply bind_ext. intros [st1 [|]]; [|apply bind_ext; auto]. rewrite IH1. apply bind_ext. intros [st2 y]. apply bind_ext. intros st3. destruct y; auto.
  - cbn [exec]. apply bind_ext. intros st1. rewrite IH1. apply bind_ext. intros [st2 y]. apply bind_ext. intros st3. destruct y; auto.
  - cbn [exec]. apply bind_ext. intros st1. rewrite IH1. apply bind_ext. intros [st2 y]. apply bind_ext. intros st3. destruct y; auto.
  - cbn [exec]. rewrite IH1. apply bind_ext. intros [st1 [y|]]; auto. destruct (accepts y); auto.
Qed.

Lemma capture_equivalent cf max all fuel id line b b' before :
  rewritten captures_split b b' -> proper (cf_max_message_length cf) b -> proper (cf_max_message_length cf) b' ->
  run_code cf max all fuel id line b before = run_code cf max all fuel id line b' before.
Proof.
  intros R P P'. rewrite (macros_mean _ _ _ _ _ _ b') by auto. apply run_same. intros pass st. rewrite exec_meaning by auto. now apply split_exec.
Qed.

(** ** Runs that only differ by the texts of expressions *)
Section Erase.
Variable cf : config.
Variable h : payload -> payload.
Hypothesis h_message : forall m, h (Message m) = Message m.
Notation he := (in_payload h).

Definition F (st : state) : state :=
  mkstate (inf st) (held st) (asserts st) (may_fail st) (should_fail st) (in_check st) (unhandled st) (status st) (map he (trace st)).
Definition F2 {A} (p : state * A) : state * A := (F (fst p), snd p).

Lemma report_F l st e e' : he e = e' -> report cf l (F st) e' = F (report cf l st e).
Proof.
  intros <-. unfold report. destruct (_ <=? _); [|reflexivity].
  unfold F. cbn [inf held asserts may_fail should_fail in_check unhandled status trace]. now rewrite map_app.
Qed.
Lemma raise_F st s : raise_state (F st) s = F (raise_state st s).
Proof. unfold raise_state. cbn [status F]. now destruct (_ <? _). Qed.
Lemma push_location_F st l : push_location cf (F st) l = rmap F (push_location cf st l).
Proof. unfold push_location. cbn [inf F]. apply bind_same. reflexivity. Qed.
Lemma pop_location_F st : pop_location (F st) = rmap F (pop_location st).
Proof. unfold pop_location. cbn [inf F]. apply bind_same. reflexivity. Qed.
Lemma register_F ok st : register_assertion ok (F st) = F (register_assertion ok st).
Proof.
  unfold register_assertion. cbn [may_fail should_fail F].
  destruct (if ok then Passed else if may_fail st || should_fail st then AllowedFailure else Failure); cbn [held set_inf set_asserts];
    destruct (held st) eqn:H; rewrite <- ?raise_F; try reflexivity;
    unfold set_asserts, set_inf, set_held, F; cbn; rewrite ?H; reflexivity.
Qed.
Lemma report_assertion_F id ok data data' st : h data = data' -> report_assertion cf id ok data' (F st) = rmap F (report_assertion cf id ok data st).
Proof.
  intros <-. unfold report_assertion. cbn [status F]. destruct (is_skipped (status st)); [reflexivity|].
  rewrite register_F. cbn [held unhandled inf F in_check should_fail may_fail]. apply bind_same. intros l.
  destruct ok; cbn [rmap]; f_equal; apply report_F; reflexivity.
Qed.
Lemma report_message_F id ok m st : report_assertion cf id ok (Message m) (F st) = rmap F (report_assertion cf id ok (Message m) st).
Proof using h_message. apply report_assertion_F, h_message. Qed.
Lemma report_assertion2_F id ok a b st : report_assertion2 cf id ok a b (F st) = rmap F (report_assertion2 cf id ok a b st).
Proof using h_message.
  unfold report_assertion2. cbn [status F]. destruct (is_skipped (status st)); [reflexivity|].
  apply bind_same. intros [m ?]. apply report_message_F.
Qed.
Lemma report_skipped_F id m st : report_skipped cf id m (F st) = rmap F (report_skipped cf id m st).
Proof.
  unfold report_skipped. rewrite raise_F. cbn [inf F]. apply bind_same. intros l. cbn [rmap]. f_equal. now apply report_F.
Qed.
Lemma section_started_F s st : report_section_started cf s (F st) = F (report_section_started cf s st).
Proof. now apply report_F. Qed.
Lemma section_ended_F s st : report_section_ended cf s (F st) = F (report_section_ended cf s st).
Proof. unfold report_section_ended. cbn [status F]. now apply report_F. Qed.
Lemma close_sections_F l n : forall st, close_sections cf l n (F st) = F (close_sections cf l n st).
Proof. induction l as [|s l IH]; intros st; cbn [close_sections]; auto. destruct (_ <? _); auto. rewrite section_ended_F. apply IH. Qed.
Lemma notify_F st : notify_exception_handled cf (F st) = F (notify_exception_handled cf st).
Proof. unfold notify_exception_handled. cbn [held inf F]. destruct (held st); auto. rewrite close_sections_F. reflexivity. Qed.
Lemma hold_F u st : hold u (F st) = F (hold u st).
Proof. unfold hold. cbn [held F]. destruct (held st); auto. destruct u; auto. Qed.
Lemma check_begin_F line st : check_begin cf line (F st) = rmap F (check_begin cf line st).
Proof. unfold check_begin. rewrite notify_F. eapply bind_rmap; [apply push_location_F|]. reflexivity. Qed.
Lemma check_end_F u st : check_end u (F st) = rmap F (check_end u st).
Proof. unfold check_end. change (set_in_check (F st) false) with (F (set_in_check st false)). rewrite hold_F. apply pop_location_F. Qed.
Lemma section_enter_F s st : section_enter cf s (F st) = rmap F2 (section_enter cf s st).
Proof.
  unfold section_enter. rewrite notify_F. cbn [inf F]. apply bind_same. intros lv.
  apply bind_same. intros l0. apply bind_same. intros lv1.
  destruct (leaf_executed _); [reflexivity|]. destruct (_ && _); [reflexivity|].
  apply bind_same. intros lv2. apply bind_same. intros cs.
  eapply (bind_rmap F). { match goal with |- _ = rmap _ (push_location _ ?x ?l) => exact (push_location_F x l) end. }
  intros st3. cbn [rmap]. f_equal. unfold F2. cbn [fst snd]. f_equal. destruct (_ =? _); auto. apply section_started_F.
Qed.
Lemma section_exit_F e u st : section_exit cf e u (F st) = rmap F (section_exit cf e u st).
Proof.
  unfold section_exit. eapply (bind_rmap F).
  - destruct e; [|reflexivity]. eapply (bind_rmap F). { rewrite hold_F. apply pop_location_F. }
    intros st1. cbn [inf F]. apply bind_same. intros [i2 last].
    eapply (bind_rmap F).
    + destruct (last && negb u); [|reflexivity]. cbn [inf set_inf]. apply bind_same. intros d. cbn [rmap]. f_equal.
      apply (section_ended_F d (set_inf st1 i2)).
    + intros st3. cbn [inf F]. apply bind_same. reflexivity.
  - intros st'. cbn [inf F]. apply bind_same. reflexivity.
Qed.
Lemma add_captures_F l : forall st, add_captures cf l (F st) = rmap F (add_captures cf l st).
Proof.
  induction l as [|c l IH]; intros st; cbn [add_captures]; [reflexivity|].
  eapply (bind_rmap F); [|intros; apply IH]. unfold add_capture. cbn [inf F].
  destruct (_ =? _); [reflexivity|]. rewrite notify_F. apply bind_same. intros [t ?]. reflexivity.
Qed.
Lemma capture_end_F u n st : capture_end u n (F st) = rmap F (capture_end u n st).
Proof. unfold capture_end. rewrite hold_F. cbn [inf F]. apply bind_same. reflexivity. Qed.

(** In one pass, with the texts erased. *)
Definition bare_expectation (pass : nat) (w : expectation) : expectation :=
  match w with IsTrue what outcome => IsTrue (fun _ => h (what pass)) (fun _ => outcome pass) | w => w end.
Fixpoint bare (pass : nat) (p : prog) : prog :=
  match p with
  | Nil => Nil
  | Act n k => Act n (bare pass k)
  | Throw when x k => Throw when x (bare pass k)
  | Check line w abort e k => Check line (bare_expectation pass w) abort (bare pass e) (bare pass k)
  | Skip line m abort k => Skip line m abort (bare pass k)
  | InSection s b k => InSection s (bare pass b) (bare pass k)
  | Events.Capture texts b k => Events.Capture texts (bare pass b) (bare pass k)
  | Catch accepts notify b k => Catch accepts notify (bare pass b) (bare pass k)
  end.

Lemma conclude_F id pass w abort x st : conclude cf id pass (bare_expectation pass w) abort x (F st) = rmap F2 (conclude cf id pass w abort x st).
Proof using h_message.
  unfold conclude. destruct w as [what outcome|type accepts|type accepts matches describe|source]; cbn [bare_expectation]; destruct x as [e|];
    repeat match goal with
    | |- Ok _ = rmap _ (Ok _) => reflexivity
    | |- context[if ?c then _ else _] => destruct c
    | |- bind (match ?e with AbortExn => _ | StdExn _ => _ | OtherExn => _ end) _ = _ => destruct e
    | |- bind _ _ = rmap _ (bind _ _) =>
      eapply (bind_rmap F); [apply report_message_F || apply report_assertion2_F || (apply report_assertion_F; reflexivity)
                            |intros ?; cbn [rmap F2 fst snd]; rewrite ?notify_F; reflexivity]
    end.
Qed.

Lemma exec_F id pass p : forall st, exec cf id pass (bare pass p) (F st) = rmap F2 (exec cf id pass p st).
Proof using h_message.
  induction p as [|n k IHp|when y k IHp|line w abort e IHe k IHp|line message abort k IHp|sec b IHp1 k IHp2|texts b IHp1 k IHp2|accepts notify b IHp1 k IHp2];
    intros st; cbn [exec bare].
  - reflexivity.
  - rewrite (report_F _ _ (User n)) by reflexivity. apply IHp.
  - destruct (when pass); [reflexivity|apply IHp].
  - eapply (bind_rmap F); [apply check_begin_F|]. intros st1. eapply (bind_rmap F2); [apply IHe|]. intros [st2 x]. cbn [F2 fst snd].
    eapply (bind_rmap F2); [apply conclude_F|]. intros [st3 z]. cbn [F2 fst snd].
    eapply (bind_rmap F); [apply check_end_F|]. intros st4. destruct z; [reflexivity|apply IHp].
  - eapply (bind_rmap F); [apply check_begin_F|]. intros st1. eapply (bind_rmap F); [apply report_skipped_F|]. intros st2.
    eapply (bind_rmap F); [apply check_end_F|]. intros st3. destruct abort; [reflexivity|apply IHp].
  - eapply (bind_rmap F2); [apply section_enter_F|]. intros [st1 entered]. cbn [F2 fst snd]. destruct entered.
    + eapply (bind_rmap F2); [apply IHp1|]. intros [st2 x]. cbn [F2 fst snd].
      eapply (bind_rmap F); [apply section_exit_F|]. intros st3. destruct x; [reflexivity|apply IHp2].
    + eapply (bind_rmap F); [apply section_exit_F|]. intros st3. apply IHp2.
  - eapply (bind_rmap F); [apply add_captures_F|]. intros st1. eapply (bind_rmap F2); [apply IHp1|]. intros [st2 x]. cbn [F2 fst snd].
    eapply (bind_rmap F); [apply capture_end_F|]. intros st3. destruct x; [reflexivity|apply IHp2].
  - eapply (bind_rmap F2); [apply IHp1|]. intros [st1 x]. cbn [F2 fst snd]. destruct x as [e|]; [|apply IHp2].
    destruct (accepts e); [|reflexivity]. destruct notify; rewrite ?notify_F; apply IHp2.
Qed.

(** Two runs. *)
Lemma passes_bare id p p' : (forall pass, bare pass p = bare pass p') ->
  forall fuel pass st st', F st = F st' -> rmap F2 (passes cf id p fuel pass st) = rmap F2 (passes cf id p' fuel pass st').
Proof using h_message.
  intros B. induction fuel as [|fuel IH]; intros pass st st' E; cbn [passes]; [reflexivity|].
  set (s1 := set_inf st _). set (s1' := set_inf st' _).
  assert (E1 : F s1 = F s1') by (subst s1 s1'; change (inf st) with (inf (F st)); change (inf st') with (inf (F st')); destruct st, st'; unfold F, set_inf in *; cbn in *; injection E as -> -> -> -> -> -> -> -> ->; reflexivity).
  clearbody s1 s1'. pose proof (exec_F id pass p s1) as X. pose proof (exec_F id pass p' s1') as X'. rewrite B, E1, X' in X.
  destruct (exec cf id pass p s1) as [[st2 x]|]; destruct (exec cf id pass p' s1') as [[st2' x']|]; cbn [rmap F2 fst snd] in X; try discriminate; [|cbn; congruence].
  pose proof (f_equal (fun r => match r with Ok p => fst p | Err _ => F st2 end) X) as E2. pose proof (f_equal (fun r => match r with Ok p => snd p | Err _ => x end) X) as Y.
  change (F st2' = F st2) in E2. change (x' = x) in Y. subst x'. clear X X'. cbn [bind]. destruct x as [x|]; [change (Ok (F st2, Some x) = Ok (F st2', Some x)); now rewrite E2|].
  assert (I : inf st2' = inf st2) by (change (inf (F st2') = inf (F st2)); now rewrite E2).
  assert (T : status st2' = status st2) by (change (status (F st2') = status (F st2)); now rewrite E2). cbv zeta. rewrite I.
  cbn [inf set_inf status]. rewrite T.
  assert (E3 : F (set_inf st2 (after_pass (inf st2))) = F (set_inf st2' (after_pass (inf st2)))) by (change (set_inf (F st2) (after_pass (inf st2)) = set_inf (F st2') (after_pass (inf st2))); now rewrite E2).
  destruct (_ && _); [now apply IH|]. unfold rmap, F2. cbn [fst snd]. now rewrite E3.
Qed.

Definition starting (line : nat) (id : test_id) (tr : list event) (flags : bool * bool) : res state :=
  push_location cf (set_status (report cf High
    (mkstate (mkinfo [] [] 0 false [] []) None (mkcounts 0 0 0) (fst flags) (snd flags) false false INotRun tr) (TestCaseStarted id line)) ISuccess) (mkloc line TestCaseScope).
Definition ending (line : nat) (id : test_id) (r : state * option exn) : res state :=
  let (st2, x) := r in
  do st3 <-
    (match x with
     | None =>
       do st' <- report_assertion cf id true (Message (lit "no exception caught")) (set_in_check st2 true) ;;
       Ok (set_in_check st' false)
     | Some AbortExn => Ok (set_unhandled st2 true)
     | Some (StdExn what) =>
       report_assertion2 cf id false (lit "unexpected std::exception caught; message: ") what (set_unhandled st2 true)
     | Some OtherExn =>
       report_assertion cf id false (Message (lit "unexpected unknown exception caught")) (set_unhandled st2 true)
     end) ;;
  let st4 := if unhandled st3 then notify_exception_handled cf st3 else st3 in
  let st5 := set_unhandled st4 false in
  do st6 <-
    (if should_fail st5 then
       do st' <- report_assertion cf id (match status st5 with IAllowedFail => true | _ => false end)
                   (Message (lit "expected test to fail"))
                   (set_in_check (set_should_fail st5 false) true) ;;
       Ok (set_should_fail (set_in_check st' false) true)
     else Ok st5) ;;
  do s <- convert_to_public_state (status st6) ;;
  Ok (report cf High st6 (TestCaseEnded id line (asserts st6) s)).
Lemma run_cut fuel id line p tr : run cf fuel (mktest id line p) tr =
  (do flags <- fail_flags (cf_max_tag_length cf) (id_tags id) ;; do st1 <- starting line id tr flags ;; do r <- passes cf id p fuel 0 st1 ;; ending line id r).
Proof. unfold run. cbn [t_id t_line t_body]. apply bind_ext. intros [may should]. reflexivity. Qed.

Lemma ending_F line id r : ending line id (F2 r) = rmap F (ending line id r).
Proof using h_message.
  destruct r as [st2 x]. unfold ending, F2. cbn [fst snd].
  eapply (bind_rmap F).
  { change (set_in_check (F ?x) ?i) with (F (set_in_check x i)). change (set_unhandled (F ?x) ?i) with (F (set_unhandled x i)).
    destruct x as [[|what|]|]; [reflexivity|apply report_assertion2_F|apply report_message_F|].
    eapply (bind_rmap F); [apply report_message_F|]. reflexivity. }
  intros st3. cbn [unhandled F].
  replace (if unhandled st3 then notify_exception_handled cf (F st3) else F st3) with
    (F (if unhandled st3 then notify_exception_handled cf st3 else st3)) by (destruct (unhandled st3); auto; symmetry; apply notify_F).
  change (set_unhandled (F ?x) ?i) with (F (set_unhandled x i)).
  eapply (bind_rmap F).
  { cbn [should_fail status F]. destruct (should_fail _); [|reflexivity].
    change (set_should_fail (F ?x) ?i) with (F (set_should_fail x i)). change (set_in_check (F ?x) ?i) with (F (set_in_check x i)).
    eapply (bind_rmap F); [apply report_message_F|]. reflexivity. }
  intros st6. cbn [status asserts F]. apply bind_same. intros s. cbn [rmap]. f_equal. now apply report_F.
Qed.

Lemma run_bare fuel id line p p' tr : (forall pass, bare pass p = bare pass p') ->
  rmap F (run cf fuel (mktest id line p) tr) = rmap F (run cf fuel (mktest id line p') tr).
Proof using h_message.
  intros B. rewrite !run_cut. destruct (fail_flags _ _) as [flags|]; [|reflexivity]. cbn [bind]. destruct (starting line id tr flags) as [st1|]; [|reflexivity]. cbn [bind].
  pose proof (passes_bare id p p' B fuel 0 st1 st1 eq_refl) as X.
  destruct (passes cf id p fuel 0 st1) as [r|], (passes cf id p' fuel 0 st1) as [r'|]; cbn [rmap] in X; try discriminate; [|cbn [bind rmap]; congruence].
  cbn [bind]. rewrite <- !ending_F. congruence.
Qed.
Lemma same_but_erased (r r' : res state) : rmap F r = rmap F r' ->
  match r, r' with
  | Ok st, Ok st' => map he (trace st) = map he (trace st')
  | Err e, Err e' => e = e'
  | _, _ => False
  end.
Proof. destruct r as [st|], r' as [st'|]; cbn [rmap]; intros H; try discriminate; [|congruence]. change (trace (F st) = trace (F st')). congruence. Qed.
End Erase.

(** ** The documented rules *)
Lemma bare_check h pass line w abort e k : bare h pass (Check line w abort e k) = Check line (bare_expectation h pass w) abort (bare h pass e) (bare h pass k).
Proof. reflexivity. Qed.

Lemma assertions_bare h pass max all line abort c e e' k k' : bare h pass e = bare h pass e' -> bare h pass k = bare h pass k' ->
  bare h pass (assertions max all line abort c e k) = bare h pass (assertions max all line abort c e' k').
Proof.
  intros E K. destruct c as [positive source ev|value matcher ev|message|message|type accepts|type accepts m|source]; cbn [assertions bare];
    try congruence; destruct ev; cbn [evaluations fold_right bare]; congruence.
Qed.
Lemma rewritten_bare (rule : code -> code -> Prop) h pass max all :
  (forall b b', rule b b' -> bare h pass (meaning max all b) = bare h pass (meaning max all b')) ->
  forall b b', rewritten rule b b' -> bare h pass (meaning max all b) = bare h pass (meaning max all b').
Proof.
  intros RULE. induction 1; cbn [meaning]; auto; try congruence; try (cbn [bare]; congruence). now apply assertions_bare.
Qed.

Lemma rule_texts b b' pass max all : check_rewritten b b' ->
  bare no_texts pass (meaning max all b) = bare no_texts pass (meaning max all b').
Proof.
  assert (N : forall x, Bool.eqb (negb x) true = Bool.eqb x false) by (intros []; reflexivity).
  assert (M : forall x, Bool.eqb (Bool.eqb true x) true = x) by (intros []; reflexivity).
  destruct 1 as [line abort source source' ev e k|line abort value matcher source ev e k]; cbn [meaning assertions]; destruct ev as [v|v|v w];
    cbn [of_each evaluations fold_right bare bare_expectation holds]; unfold shown_condition, no_texts; rewrite ?N, ?M; reflexivity.
Qed.
Lemma rule_macros b b' pass max all : evaluated_when b b' ->
  bare no_macro pass (meaning max all b) = bare no_macro pass (meaning max all b').
Proof.
  destruct 1; cbn [meaning assertions evaluations fold_right bare bare_expectation no_macro]; unfold shown_condition; reflexivity.
Qed.

Lemma texts_equivalent cf max all fuel id line b b' before :
  rewritten check_rewritten b b' -> proper (cf_max_message_length cf) b -> proper (cf_max_message_length cf) b' ->
  match run_code cf max all fuel id line b before, run_code cf max all fuel id line b' before with
  | Ok st, Ok st' => map (in_payload no_texts) (trace st) = map (in_payload no_texts) (trace st')
  | Err e, Err e' => e = e'
  | _, _ => False
  end.
Proof.
  intros R P P'. rewrite !macros_mean by auto. apply same_but_erased, run_bare; [reflexivity|]. intros pass.
  apply (rewritten_bare check_rewritten); auto. intros x y. apply rule_texts.
Qed.
Lemma macros_equivalent cf max all fuel id line b b' before :
  rewritten evaluated_when b b' -> proper (cf_max_message_length cf) b -> proper (cf_max_message_length cf) b' ->
  match run_code cf max all fuel id line b before, run_code cf max all fuel id line b' before with
  | Ok st, Ok st' => map (in_payload no_macro) (trace st) = map (in_payload no_macro) (trace st')
  | Err e, Err e' => e = e'
  | _, _ => False
  end.
Proof.
  intros R P P'. rewrite !macros_mean by auto. apply same_but_erased, run_bare; [reflexivity|]. intros pass.
  apply (rewritten_bare evaluated_when); auto. intros x y. apply rule_macros.
Qed.
