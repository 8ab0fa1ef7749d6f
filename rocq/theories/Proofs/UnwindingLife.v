(** Test bodies with destructors (C80): fixtures, places of the reports. *)
From Verif.Spec Require Import TextSpec FilterSpec Events RunSpec VerdictSpec TreeSpec UnwindingSpec.
From Verif.Model Require Import Base Vector StringUtil Filter Run Unwinding.
From Verif.Proofs Require Import Lists LevelProofs RunProofs InvariantProofs ScopeProofs MarkProofs RunFacts UnwindingProofs UnwindingFacts.

(** ** Fixtures *)
Section Quiet.
Variable cf : config.
Variable id : test_id.
Variable marks : list nat.
Definition quiet (st st' : state) : Prop := exists ev, trace st' = trace st ++ ev /\ filter (concerns marks) ev = [].

Lemma quiet_same st st' : trace st' = trace st -> quiet st st'.
Proof. intros E. exists []. rewrite app_nil_r. auto. Qed.
Lemma quiet_trans a b c : quiet a b -> quiet b c -> quiet a c.
Proof. intros (x & X1 & X2) (y & Y1 & Y2). exists (x ++ y). rewrite Y1, X1, <- app_assoc, filter_app, X2, Y2. auto. Qed.
Lemma quiet_report v st e : concerns marks e = false -> quiet st (report cf v st e).
Proof. intros E. unfold report. destruct (_ <=? _); [|now apply quiet_same]. exists [e]. cbn. rewrite E. auto. Qed.
Lemma quiet_assertion st ok data st' : report_assertion cf id ok data st = Ok st' -> quiet st st'.
Proof.
  unfold report_assertion. destruct (is_skipped _); [intros [= <-]; now apply quiet_same|]. cbv zeta. intros H.
  bstep H as l E. injection H as <-. eapply quiet_trans; [apply quiet_same, (register_fields ok st)|].
  destruct ok; apply quiet_report; reflexivity.
Qed.
Lemma quiet_assertion2 st ok a b st' : report_assertion2 cf id ok a b st = Ok st' -> quiet st st'.
Proof. rewrite report_assertion2_eq. apply quiet_assertion. Qed.
Lemma quiet_skipped st message st' : report_skipped cf id message st = Ok st' -> quiet st st'.
Proof.
  unfold report_skipped. cbv zeta. intros H. bstep H as l E. injection H as <-.
  apply (quiet_trans _ (raise_state st ISkipped)); [apply quiet_same; unfold raise_state; now destruct (_ <? _)|]. now apply quiet_report.
Qed.
Lemma quiet_close l n : forall st, quiet st (close_sections cf l n st).
Proof.
  induction l as [|s l IH]; intros st; cbn [close_sections]; [now apply quiet_same|].
  destruct (_ <? _); [|now apply quiet_same]. eapply quiet_trans; [|apply IH]. now apply quiet_report.
Qed.
Lemma quiet_notify st : quiet st (notify_exception_handled cf st).
Proof. unfold notify_exception_handled. destruct (held st); [|now apply quiet_same]. apply (quiet_close (rev (current_section i))). Qed.
Lemma quiet_push st l st' : push_location cf st l = Ok st' -> quiet st st'.
Proof. unfold push_location. intros H. destruct (push_back _ _ _); [|discriminate]. injection H as <-. now apply quiet_same. Qed.

Lemma quiet_exec u pass p st r : without marks p -> unwinding_exec u cf id pass p st = Ok r -> quiet st (fst r).
Proof.
  intros W H. refine (rel_exec cf id marks quiet _ _ _ _ _ _ _ _ pass p W u st r H).
  - intros. now apply quiet_same.
  - exact quiet_trans.
  - intros. now apply quiet_same.
  - intros a n N. apply quiet_report. cbn. apply not_true_is_false. intros E. apply existsb_exists in E. destruct E as (x & I & E).
    apply Nat.eqb_eq in E. subst x. contradiction.
  - apply quiet_assertion.
  - apply quiet_skipped.
  - intros. now apply quiet_report.
  - intros. now apply quiet_report.
Qed.
End Quiet.

Lemma user_reported cf st n : trace (report cf Quiet st (User n)) = trace st ++ [User n].
Proof. unfold report. cbn [vlevel]. reflexivity. Qed.

Lemma fixture_passes cf id made gone p : without [made; gone] p ->
  forall fuel pass st st' x, unwinding_passes cf id (with_fixture (GAct made GNil) (GAct gone GNil) p) fuel pass st = Ok (st', x) ->
  exists n ev, 1 <= n /\ trace st' = trace st ++ ev /\ filter (concerns [made; gone]) ev = concat (repeat [User made; User gone] n).
Proof.
  intros W. induction fuel as [|fuel IH]; intros pass st st' x H; cbn [unwinding_passes] in H; [discriminate|].
  match type of H with bind ?b _ = _ => destruct b as [[st2 y]|] eqn:E; [|discriminate] end. cbn [bind] in H.
  assert (A : exists ev, trace st2 = trace st ++ ev /\ filter (concerns [made; gone]) ev = [User made; User gone]).
  { cbn [with_fixture gthen unwinding_exec] in E. bstep E as [a z] E1. apply (quiet_exec _ _ [made; gone]) in E1; auto. cbn [fst] in E1. destruct E1 as (ev & E1 & E2).
    cbn [bind] in E. exists (User made :: ev ++ [User gone]). split.
    - assert (trace st2 = trace a ++ [User gone]) as -> by (destruct z; injection E as <- <-; apply user_reported).
      rewrite E1, user_reported. cbn [trace set_inf]. rewrite <- !app_assoc. reflexivity.
    - cbn [filter concerns existsb]. rewrite Nat.eqb_refl. cbn [orb]. rewrite filter_app, E2. cbn [filter concerns existsb app]. rewrite Nat.eqb_refl, orb_true_r. reflexivity. }
  destruct A as (ev & A1 & A2). destruct y as [y|].
  - injection H as <- <-. exists 1, ev. auto.
  - destruct (_ && _).
    + apply IH in H. destruct H as (n & ev2 & N & H1 & H2). exists (S n), (ev ++ ev2). split; [lia|]. split.
      * rewrite H1. cbn [trace set_inf]. rewrite A1, <- app_assoc. reflexivity.
      * rewrite filter_app, A2, H2. reflexivity.
    + injection H as <- <-. exists 1, ev. auto.
Qed.

Lemma fixture_run cf fuel id line made gone p before st : without [made; gone] p ->
  unwinding_run cf fuel id line (with_fixture (GAct made GNil) (GAct gone GNil) p) before = Ok st ->
  exists n ev, 1 <= n /\ trace st = before ++ ev /\ filter (concerns [made; gone]) ev = concat (repeat [User made; User gone] n).
Proof.
  intros W H. unfold unwinding_run in H. bstep H as [may should] E0. bstep H as st1 E1. bstep H as [st2 x] E2. bstep H as st3 E3. bstep H as st6 E6. bstep H as s E7.
  apply (quiet_push _ [made; gone]) in E1.
  assert (Q1 : quiet [made; gone] (mkstate (mkinfo [] [] 0 false [] []) None (mkcounts 0 0 0) may should false false INotRun before) st1).
  { eapply quiet_trans; [|exact E1]. eapply quiet_trans; [apply (quiet_report cf [made; gone] High _ (TestCaseStarted id line)); reflexivity|]. now apply quiet_same. }
  clear E1. destruct Q1 as (ev1 & Q1 & F1). cbn [trace] in Q1.
  apply fixture_passes in E2; auto. destruct E2 as (n & ev2 & N & Q2 & F2).
  assert (Q3 : quiet [made; gone] st2 st).
  { eapply quiet_trans; [|injection H as <-; apply quiet_report; reflexivity]. clear H E7.
    assert (A3 : quiet [made; gone] st2 st3).
    { destruct x as [[|what|]|].
      - injection E3 as <-. now apply quiet_same.
      - apply (quiet_assertion2 _ _ [made; gone]) in E3. exact E3.
      - apply (quiet_assertion _ _ [made; gone]) in E3. exact E3.
      - bstep E3 as y E. injection E3 as <-. apply (quiet_assertion _ _ [made; gone]) in E. exact E. }
    eapply quiet_trans; [exact A3|]. eapply quiet_trans.
    { instantiate (1 := set_unhandled (if unhandled st3 then notify_exception_handled cf st3 else st3) false).
      destruct (unhandled st3); [|now apply quiet_same]. eapply quiet_trans; [apply (quiet_notify cf)|now apply quiet_same]. }
    destruct (should_fail _) in E6; [|injection E6 as <-; now apply quiet_same].
    bstep E6 as y E. injection E6 as <-. apply (quiet_assertion _ _ [made; gone]) in E. exact E. }
  destruct Q3 as (ev3 & Q3 & F3). exists n, (ev1 ++ ev2 ++ ev3). split; [exact N|]. split.
  - rewrite Q3, Q2, Q1, <- !app_assoc. reflexivity.
  - rewrite !filter_app, F1, F2, F3, app_nil_r. reflexivity.
Qed.

(** ** Places *)
(** The same place: sections, captures, location. *)
Definition as_place (i : info) := (map sd_id (current_section i), captures i, locations i).
Definition kept (st st' : state) : Prop :=
  should_fail st' = should_fail st /\ may_fail st' = may_fail st /\ unhandled st' = unhandled st /\ in_check st' = false /\
  is_skipped (status st') = false.

Lemma place_count v i : as_place (count_info v i) = as_place i.
Proof. unfold as_place. cbn. rewrite map_map. reflexivity. Qed.
Lemma registered ok st : is_skipped (status st) = false ->
  is_skipped (status (register_assertion ok st)) = false /\ should_fail (register_assertion ok st) = should_fail st /\
  may_fail (register_assertion ok st) = may_fail st /\ unhandled (register_assertion ok st) = unhandled st /\
  in_check (register_assertion ok st) = in_check st /\ trace (register_assertion ok st) = trace st /\
  as_place (inf (register_assertion ok st)) = as_place (inf st) /\
  option_map as_place (held (register_assertion ok st)) = option_map as_place (held st).
Proof.
  intros S. unfold register_assertion, raise_state. destruct st as [i h a may should un ic s tr]. cbn in S.
  destruct s; try discriminate S; destruct ok, may, should, h as [h|]; cbn; rewrite ?place_count; repeat split; auto.
Qed.

Section Place.
Variable cf : config.
Variable id : test_id.
Hypothesis verbose : cf_verbosity cf = Full.

(** One check, while an exception is in flight. *)
Lemma one_check pass line what outcome k st r : is_skipped (status st) = false ->
  unwinding_exec true cf id pass (GCheck line (IsTrue what outcome) false GNil k) st = Ok r ->
  exists st1, unwinding_exec true cf id pass k st1 = Ok r /\ kept st st1 /\ as_place (inf st1) = as_place (inf st) /\
    match held st with
    | Some h => exists loc, back (locations h) = Ok loc /\ option_map as_place (held st1) = Some (as_place h) /\
        trace st1 = trace st ++ [reported id (map sd_id (current_section h)) (captures h) (loc_line loc) (should_fail st) (may_fail st) pass (line, what, outcome)]
    | None => option_map as_place (held st1) = Some (map sd_id (current_section (inf st)), captures (inf st), locations (inf st) ++ [mkloc line InCheck]) /\
        trace st1 = trace st ++ [reported id (map sd_id (current_section (inf st))) (captures (inf st)) line (should_fail st) (may_fail st) pass (line, what, outcome)]
    end.
Proof using verbose.
  intros S H. cbn [unwinding_exec] in H. bstep H as st1 E1. cbn [bind] in H. bstep H as [st3 y] E3. bstep H as st4 E4.
  unfold unwinding_check_begin, notify_unless, push_location in E1. bstep E1 as st2 E. bstep E as ls P. injection E as <-. injection E1 as <-.
  unfold push_back in P. destruct (_ =? _); [discriminate|]. injection P as <-.
  unfold unwinding_conclude in E3. cbn [bind] in E3. bstep E3 as st5 E5. injection E3 as <- <-.
  assert (y : (if outcome pass then @None exn else None) = None) by (now destruct (outcome pass)). rewrite y in H, E4. clear y. cbn [is_some orb] in E4.
  exists st4. split; [exact H|]. clear H. unfold unwinding_report in E5.
  set (sa := set_in_check (set_inf st (with_locations (inf st) (locations (inf st) ++ [mkloc line InCheck]))) true) in *.
  assert (Sa : is_skipped (status sa) = false) by exact S. rewrite Sa in E5.
  destruct (registered (outcome pass) sa Sa) as (R1 & R2 & R3 & R4 & R5 & R6 & R7 & R8).
  set (sb := register_assertion (outcome pass) sa) in *. clearbody sb.
  bstep E5 as loc B. injection E5 as <-. rewrite R5 in *. cbn [in_check set_in_check sa] in E4. rewrite !(report_full _ verbose) in E4.
  unfold check_end, hold, pop_location in E4. bstep E4 as ls Q. injection E4 as <-. apply pop_back_app in Q. destruct Q as [last Q].
  assert (L : locations (inf sb) = locations (inf st) ++ [mkloc line InCheck]) by (unfold as_place in R7; cbn in R7; congruence).
  assert (N : map sd_id (current_section (inf sb)) = map sd_id (current_section (inf st)) /\ captures (inf sb) = captures (inf st)).
  { unfold as_place in R7. cbn in R7. split; congruence. }
  destruct N as [N1 N2]. cbn [held set_in_check set_inf sa] in R8. unfold kept.
  destruct (held st) as [h|] eqn:Hst; destruct (held sb) as [hb|] eqn:Hb; try discriminate R8.
  - cbn [option_map] in R8. rewrite orb_true_r in *. assert (Lh : locations hb = locations h) by (unfold as_place in R8; congruence). rewrite Lh in B.
    assert (Nh : map sd_id (current_section hb) = map sd_id (current_section h) /\ captures hb = captures h) by (unfold as_place in R8; split; congruence). destruct Nh as [Nh1 Nh2].
    assert (LS : ls = locations (inf st)).
    { destruct (outcome pass); cbn in Q; rewrite ?Hb in Q; cbn in Q; rewrite L in Q; apply app_inj_tail in Q; destruct Q; auto. }
    subst ls.
    split.
    { destruct (outcome pass); cbn; rewrite ?Hb; cbn; auto 10. }
    split.
    { unfold as_place. destruct (outcome pass); cbn; rewrite ?Hb; cbn; rewrite N1, N2; auto. }
    exists loc. split; [exact B|]. split.
    { destruct (outcome pass); cbn; rewrite ?Hb; cbn; rewrite ?Hb; cbn; congruence. }
    unfold reported. destruct (outcome pass); cbn; rewrite ?Hb; cbn; rewrite ?Nh1, ?Nh2, ?R6, ?R2, ?R3; reflexivity.
  - rewrite L, RunProofs.back_last in B. injection B as <-. assert (LS : ls = locations (inf st)).
    { destruct (outcome pass); cbn in Q; rewrite ?Hb in Q; cbn in Q; rewrite L in Q; apply app_inj_tail in Q; destruct Q; auto. }
    subst ls.
    split.
    { destruct (outcome pass); cbn; rewrite ?Hb; cbn; auto 10. }
    split.
    { unfold as_place. destruct (outcome pass); cbn; rewrite ?Hb; cbn; rewrite N1, N2; auto. }
    split.
    { unfold as_place. destruct (outcome pass); cbn; rewrite ?Hb; cbn; rewrite N1, N2, L; auto. }
    unfold reported. destruct (outcome pass); cbn; rewrite ?Hb; cbn; rewrite ?N1, ?N2, ?R6, ?R2, ?R3; reflexivity.
Qed.

Lemma checks_held pass l : forall st h loc st' x, is_skipped (status st) = false -> in_check st = false -> option_map as_place (held st) = Some (as_place h) -> back (locations h) = Ok loc ->
  unwinding_exec true cf id pass (checks l) st = Ok (st', x) ->
  x = None /\ kept st st' /\ as_place (inf st') = as_place (inf st) /\ option_map as_place (held st') = Some (as_place h) /\
  trace st' = trace st ++ map (reported id (map sd_id (current_section h)) (captures h) (loc_line loc) (should_fail st) (may_fail st) pass) l.
Proof using verbose.
  induction l as [|[[line what] outcome] l IH]; intros st h loc st' x S C P B H; cbn [checks] in H.
  - injection H as <- <-. unfold kept. cbn [map]. rewrite app_nil_r. auto 12.
  - destruct (one_check _ _ _ _ _ _ _ S H) as (st1 & H1 & (K1 & K2 & K3 & K4 & K5) & P1 & X). destruct (held st) as [g|]; [|discriminate P]. cbn [option_map] in P.
    destruct X as (loc' & X1 & X2 & X3). assert (G : locations g = locations h) by (unfold as_place in P; congruence).
    assert (G' : map sd_id (current_section g) = map sd_id (current_section h) /\ captures g = captures h) by (unfold as_place in P; split; congruence). destruct G' as [G1 G2].
    rewrite G, B in X1. injection X1 as <-.
    destruct (IH st1 h loc st' x) as (Y1 & (Y2 & Y3 & Y4 & Y5 & Y6) & Y7 & Y8 & Y9); auto; [congruence|].
    split; [exact Y1|]. split; [unfold kept; repeat split; congruence|]. split; [congruence|]. split; [exact Y8|].
    rewrite Y9, X3, K1, K2, G1, G2, <- app_assoc. reflexivity.
Qed.

Lemma checks_first pass line what outcome l st st' x : is_skipped (status st) = false -> held st = None ->
  unwinding_exec true cf id pass (checks ((line, what, outcome) :: l)) st = Ok (st', x) ->
  x = None /\ kept st st' /\ as_place (inf st') = as_place (inf st) /\
  option_map as_place (held st') = Some (map sd_id (current_section (inf st)), captures (inf st), locations (inf st) ++ [mkloc line InCheck]) /\
  trace st' = trace st ++ map (reported id (map sd_id (current_section (inf st))) (captures (inf st)) line (should_fail st) (may_fail st) pass) ((line, what, outcome) :: l).
Proof using verbose.
  intros S N H. cbn [checks] in H. destruct (one_check _ _ _ _ _ _ _ S H) as (st1 & H1 & (K1 & K2 & K3 & K4 & K5) & P1 & X). rewrite N in X. destruct X as [X1 X2].
  set (h := mkinfo (current_section (inf st)) [] 0 false (captures (inf st)) (locations (inf st) ++ [mkloc line InCheck])).
  destruct (checks_held pass l st1 h (mkloc line InCheck) st' x) as (Y1 & (Y2 & Y3 & Y4 & Y5 & Y6) & Y7 & Y8 & Y9); auto.
  { apply RunProofs.back_last. }
  split; [exact Y1|]. split; [unfold kept; repeat split; congruence|]. split; [congruence|]. split; [exact Y8|].
  rewrite Y9, X2, K1, K2, <- app_assoc. reflexivity.
Qed.
End Place.

(** ** Whole test cases *)
Section Whole.
Variable cf : config.
Variable id : test_id.
Hypothesis verbose : cf_verbosity cf = Full.

Lemma enter_first s st st' entered : levels (inf st) = [] -> depth (inf st) = 0 -> leaf_executed (inf st) = false -> held st = None ->
  unwinding_section_enter false cf s st = Ok (st', entered) ->
  entered = true /\ trace st' = trace st ++ [SectionStarted s] /\
  as_place (inf st') = (map sd_id (current_section (inf st)) ++ [s], captures (inf st), locations (inf st) ++ [mkloc (sec_line s) SectionScope]) /\
  held st' = None /\ status st' = status st /\ may_fail st' = may_fail st /\ should_fail st' = should_fail st /\ unhandled st' = unhandled st /\ in_check st' = in_check st.
Proof using verbose.
  intros L D F N H. unfold unwinding_section_enter, notify_unless, notify_exception_handled in H. rewrite N, L, D, F in H. cbn [length Nat.leb] in H.
  destruct (cf_max_nested cf); [discriminate|]. unfold push_back in H. cbn in H. rewrite ?L, ?D, ?F in H. cbn in H.
  destruct (length (current_section (inf st)) =? S n); [discriminate|]. cbn [bind] in H. unfold push_location, push_back in H. cbn in H.
  destruct (length (locations (inf st)) =? _); [discriminate|]. cbn [bind] in H. injection H as <- <-. unfold report_section_started. rewrite (report_full _ verbose).
  unfold as_place. cbn. rewrite map_app. auto 12.
Qed.

Lemma exit_uncaught st st' h : held st = Some h -> section_exit cf true true st = Ok st' ->
  trace st' = trace st /\ held st' = Some h /\ status st' = status st /\ may_fail st' = may_fail st /\ should_fail st' = should_fail st /\
  unhandled st' = unhandled st /\ in_check st' = in_check st.
Proof.
  intros N H. unfold section_exit in H. bstep H as a E. bstep E as st1 P. bstep E as [i2 last] Q. bstep E as st3 E3. bstep E as cs C. injection E as <-. bstep H as d D. injection H as <-.
  rewrite andb_false_r in E3. injection E3 as <-. unfold hold in P. rewrite N in P. unfold pop_location in P. bstep P as ls X. injection P as <-. auto 10.
Qed.

(** The rest of the run of a test case that an exception leaves. *)
Lemma run_left fuel line p before st may should st2 x h :
  fail_flags (cf_max_tag_length cf) (id_tags id) = Ok (may, should) ->
  (forall st1, trace st1 = before ++ [TestCaseStarted id line] -> levels (inf st1) = [] -> depth (inf st1) = 0 -> leaf_executed (inf st1) = false ->
     as_place (inf st1) = ([], [], [mkloc line TestCaseScope]) -> held st1 = None -> status st1 = ISuccess -> may_fail st1 = may -> should_fail st1 = should ->
     unhandled st1 = false -> in_check st1 = false ->
     forall r, unwinding_exec false cf id 0 p st1 = Ok r -> 
     x <> None /\ snd r = x /\ trace (fst r) = trace st2 /\ option_map as_place (held (fst r)) = Some (as_place h) /\ is_skipped (status (fst r)) = false /\
     may_fail (fst r) = may /\ should_fail (fst r) = should /\ in_check (fst r) = false) ->
  unwinding_run cf fuel id line p before = Ok st ->
  exists here last, trace st = trace st2 ++ here ++ last /\
    match x with
    | Some AbortExn | None => here = []
    | _ => exists loc what, back (locations h) = Ok loc /\ here = [AssertionFailed id (map sd_id (current_section h)) (captures h) loc what should may]
    end.
Proof using verbose.
  intros FF HX H. unfold unwinding_run in H. rewrite FF in H. cbn [bind] in H. rewrite (report_full _ verbose) in H. cbn [trace app] in H.
  bstep H as st1 E1. bstep H as [sx y] E2. bstep H as st3 E3. bstep H as st6 E6. bstep H as s E7.
  unfold push_location, push_back in E1. cbn in E1. destruct (match cf_max_nested cf + 2 with 0 => true | S _ => false end) in E1; try discriminate. cbn in E1. injection E1 as <-.
  destruct fuel as [|fuel]; [discriminate|]. cbn [unwinding_passes] in E2.
  match type of E2 with bind ?b _ = _ => destruct b as [r|] eqn:E; [|discriminate] end.
  eapply HX in E; try reflexivity. destruct E as (Y1 & Y2 & Y3 & Y4 & Y5 & Y6 & Y7 & Y8). destruct r as [sr xr]. cbn [bind fst snd] in *. subst xr.
  destruct x as [x|]; [|congruence]. injection E2 as <- <-.
  assert (Q : quiet [] st3 st).
  { eapply quiet_trans; [|injection H as <-; apply quiet_report; reflexivity]. eapply quiet_trans.
    { instantiate (1 := set_unhandled (if unhandled st3 then notify_exception_handled cf st3 else st3) false).
      destruct (unhandled st3); [|now apply quiet_same]. eapply quiet_trans; [apply (quiet_notify cf)|now apply quiet_same]. }
    destruct (should_fail _) in E6; [|injection E6 as <-; now apply quiet_same].
    bstep E6 as z E. injection E6 as <-. apply (quiet_assertion _ _ []) in E. exact E. }
  destruct Q as (last & Q & _).
  assert (A : forall data, report_assertion cf id false data (set_unhandled sr true) = Ok st3 ->
    exists loc, back (locations h) = Ok loc /\ trace st3 = trace st2 ++ [AssertionFailed id (map sd_id (current_section h)) (captures h) loc data should may]).
  { intros data R. unfold report_assertion in R. cbn [status set_unhandled] in R. rewrite Y5 in R.
    destruct (registered false (set_unhandled sr true) Y5) as (R1 & R2 & R3 & R4 & R5 & R6 & R7 & R8).
    set (sb := register_assertion false (set_unhandled sr true)) in *. clearbody sb. cbn [held set_unhandled unhandled in_check trace may_fail should_fail] in *.
    rewrite Y4 in R8. destruct (held sb) as [hb|]; [|discriminate]. cbn [option_map] in R8. rewrite R4 in R. assert (Lh : locations hb = locations h) by (unfold as_place in R8; congruence). rewrite Lh in R.
    bstep R as loc B. injection R as <-. rewrite R5, Y8, (report_full _ verbose). exists loc. split; [reflexivity|]. cbn [trace].
    rewrite R6, Y3, R2, R3, Y6, Y7. unfold as_place in R8.
    assert (map sd_id (current_section hb) = map sd_id (current_section h)) as -> by congruence. assert (captures hb = captures h) as -> by congruence. reflexivity. }
  destruct x as [|what|].
  - injection E3 as <-. exists [], last. rewrite Q. cbn [trace set_unhandled]. rewrite Y3. auto.
  - rewrite report_assertion2_eq in E3. apply A in E3. destruct E3 as (loc & B & E3). eexists _, last. rewrite Q, E3, <- app_assoc. split; [reflexivity|]. eauto.
  - apply A in E3. destruct E3 as (loc & B & E3). eexists _, last. rewrite Q, E3, <- app_assoc. split; [reflexivity|]. eauto.
Qed.

(** An object with checks in its destructor, in a section, destroyed because of an exception. *)
Lemma thrown_place fuel line s line1 what1 outcome1 l x before st may should :
  fail_flags (cf_max_tag_length cf) (id_tags id) = Ok (may, should) -> x <> AbortExn ->
  unwinding_run cf fuel id line (GInSection s (GScope (checks ((line1, what1, outcome1) :: l)) (GThrow (fun _ => true) x GNil) GNil) GNil) before = Ok st ->
  exists what last, trace st = before ++ [TestCaseStarted id line; SectionStarted s] ++
    map (reported id [s] [] line1 should may 0) ((line1, what1, outcome1) :: l) ++
    [AssertionFailed id [s] [] (mkloc line1 InCheck) what should may] ++ last.
Proof using verbose.
  intros FF NX H.
  set (t := before ++ [TestCaseStarted id line; SectionStarted s] ++ map (reported id [s] [] line1 should may 0) ((line1, what1, outcome1) :: l)).
  set (h := mkinfo [mksd s (mkcounts 0 0 0)] [] 0 false [] [mkloc line TestCaseScope; mkloc (sec_line s) SectionScope; mkloc line1 InCheck]).
  apply (run_left fuel line _ before st may should (mkstate h None (mkcounts 0 0 0) may should false false INotRun t) (Some x) h FF) in H.
  - destruct H as (here & last & H & X). destruct x as [|m|]; [congruence| |];
      destruct X as (loc & what & B & ->); injection B as <-; exists what, last; rewrite H; cbn [trace]; unfold t; rewrite <- !app_assoc; reflexivity.
  - intros st1 T1 L1 D1 F1 P1 N1 S1 M1 M2 U1 C1 r E. cbn [unwinding_exec] in E. bstep E as [sa entered] Ea.
    apply enter_first in Ea; auto. destruct Ea as (-> & Ta & Pa & Na & Sa & Ma & Mb & Ua & Ca). cbn [bind is_some orb] in E. bstep E as [sb y] Eb. bstep Eb as [sc z] Ec.
    apply checks_first in Ec; auto; [|rewrite Sa, S1; reflexivity]. destruct Ec as (-> & (K1 & K2 & K3 & K4 & K5) & Pc & Hc & Tc). injection Eb as <- <-. cbn [is_some] in E.
    destruct (held sc) as [hc|] eqn:HC; [|discriminate]. bstep E as sd Ed. apply (exit_uncaught _ _ hc) in Ed; auto. destruct Ed as (Td & Hd & Sd & Md & Me & Ud & Cd).
    injection E as <-. cbn [fst snd]. split; [discriminate|]. split; [reflexivity|].
    assert (Q : map sd_id (current_section (inf sa)) = [s] /\ captures (inf sa) = [] /\ locations (inf sa) = [mkloc line TestCaseScope; mkloc (sec_line s) SectionScope]).
    { unfold as_place in P1, Pa. injection P1 as P1 P2 P3. injection Pa as Q1 Q2 Q3. rewrite P1 in Q1. rewrite P2 in Q2. rewrite P3 in Q3. auto. }
    destruct Q as (Q1 & Q2 & Q3). rewrite Q1, Q2, Q3 in *. split.
    { rewrite Td, Tc, Ta, T1, Ma, Mb, M1, M2. unfold t. cbn [trace]. rewrite <- !app_assoc. reflexivity. }
    split; [rewrite Hd; exact Hc|]. split; [congruence|]. repeat split; congruence.
Qed.

(** The same, because of a failed REQUIRE. *)
Lemma required_place fuel line s line0 what0 l before st may should :
  fail_flags (cf_max_tag_length cf) (id_tags id) = Ok (may, should) ->
  unwinding_run cf fuel id line (GInSection s (GScope (checks l) (GCheck line0 (IsTrue what0 (fun _ => false)) true GNil GNil) GNil) GNil) before = Ok st ->
  exists last, trace st = before ++ [TestCaseStarted id line; SectionStarted s; AssertionFailed id [s] [] (mkloc line0 Exact) (what0 0) should may] ++
    map (reported id [s] [] line0 should may 0) l ++ last.
Proof using verbose.
  intros FF H.
  set (t := before ++ [TestCaseStarted id line; SectionStarted s; AssertionFailed id [s] [] (mkloc line0 Exact) (what0 0) should may] ++ map (reported id [s] [] line0 should may 0) l).
  set (h := mkinfo [mksd s (mkcounts 0 0 0)] [] 0 false [] [mkloc line TestCaseScope; mkloc (sec_line s) SectionScope; mkloc line0 InCheck]).
  apply (run_left fuel line _ before st may should (mkstate h None (mkcounts 0 0 0) may should false false INotRun t) (Some AbortExn) h FF) in H.
  - destruct H as (here & last & H & ->). exists last. rewrite H. cbn [trace]. unfold t. rewrite <- !app_assoc. reflexivity.
  - intros st1 T1 L1 D1 F1 P1 N1 S1 M1 M2 U1 C1 r E. cbn [unwinding_exec] in E. bstep E as [sa entered] Ea.
    apply enter_first in Ea; auto. destruct Ea as (-> & Ta & Pa & Na & Sa & Ma & Mb & Ua & Ca).
    assert (Q : map sd_id (current_section (inf sa)) = [s] /\ captures (inf sa) = [] /\ locations (inf sa) = [mkloc line TestCaseScope; mkloc (sec_line s) SectionScope]).
    { unfold as_place in P1, Pa. injection P1 as P1 P2 P3. injection Pa as Q1 Q2 Q3. rewrite P1 in Q1. rewrite P2 in Q2. rewrite P3 in Q3. auto. }
    destruct Q as (Q1 & Q2 & Q3).
    cbn [bind] in E. bstep E as [sb y] Eb. bstep Eb as [sc z] Ec.
    assert (Z : z = Some AbortExn /\ kept sa sc /\ option_map as_place (held sc) = Some (as_place h) /\
      trace sc = trace sa ++ [AssertionFailed id [s] [] (mkloc line0 Exact) (what0 0) should may]).
    { clear E Eb. rename Ec into E. bstep E as s1 E1. bstep E as [s3 q] E3. bstep E as s4 E4. unfold unwinding_check_begin, notify_unless, notify_exception_handled, push_location in E1. rewrite Na in E1.
      bstep E1 as s2 X. bstep X as ls P. injection X as <-. injection E1 as <-. unfold push_back in P. destruct (_ =? _); [discriminate|]. injection P as <-.
      cbn [unwinding_conclude bind] in E3. bstep E3 as s5 E5. cbn [maybe_abort] in E3. injection E3 as <- <-. injection E as <- <-. cbn [is_some orb] in E4.
      set (s6 := set_in_check (set_inf sa (with_locations (inf sa) (locations (inf sa) ++ [mkloc line0 InCheck]))) true) in *.
      assert (S6 : is_skipped (status s6) = false) by (cbn; rewrite Sa, S1; reflexivity). unfold unwinding_report in E5. rewrite S6 in E5.
      destruct (registered false s6 S6) as (R1 & R2 & R3 & R4 & R5 & R6 & R7 & R8). set (s7 := register_assertion false s6) in *. clearbody s7.
      cbn [held set_in_check set_inf s6] in R8. rewrite Na in R8. destruct (held s7) eqn:H7; [discriminate R8|].
      assert (L7 : locations (inf s7) = [mkloc line TestCaseScope; mkloc (sec_line s) SectionScope] ++ [mkloc line0 InCheck]) by (unfold as_place in R7; cbn in R7; rewrite Q3 in R7; congruence).
      rewrite L7, RunProofs.back_last in E5. cbn [bind] in E5. rewrite R5 in E5. cbn [in_check set_in_check s6 loc_line] in E5. injection E5 as <-. rewrite (report_full _ verbose) in E4.
      unfold check_end, hold in E4. cbn [held set_in_check] in E4. rewrite H7 in E4. unfold pop_location in E4. bstep E4 as ls P. injection E4 as <-. split; [reflexivity|].
      assert (N7 : map sd_id (current_section (inf s7)) = [s] /\ captures (inf s7) = []) by (unfold as_place in R7; cbn in R7; rewrite Q1, Q2 in R7; split; congruence). destruct N7 as [N7 C7].
      split; [unfold kept; cbn; auto 10|]. split; [unfold as_place; cbn; rewrite N7, C7, L7; reflexivity|]. cbn. rewrite N7, C7, R6, R2, R3. cbn. rewrite Mb, Ma, M1, M2. reflexivity. }
    destruct Z as (-> & (K1 & K2 & K3 & K4 & K5) & Hc & Tc). cbn [bind is_some orb] in Eb. bstep Eb as [sd w] Ed.
    apply (checks_held _ _ verbose 0 l sc h (mkloc line0 InCheck)) in Ed; auto. destruct Ed as (-> & (K6 & K7 & K8 & K9 & K10) & Pd & Hd & Td).
    injection Eb as <- <-. cbn [is_some] in E. destruct (held sd) as [hd|] eqn:HD; [|discriminate]. bstep E as se Ee. apply (exit_uncaught _ _ hd) in Ee; auto.
    destruct Ee as (Te & He & Se & Me & Mf & Ue & Ce). injection E as <-. cbn [fst snd]. split; [discriminate|]. split; [reflexivity|]. split.
    { rewrite Te, Td, Tc, Ta, T1, K1, K2, Ma, Mb, M1, M2. unfold t. cbn [trace]. rewrite <- !app_assoc. reflexivity. }
    split; [rewrite He; exact Hd|]. split; [congruence|]. repeat split; congruence.
Qed.
End Whole.

(** ** A failed REQUIRE in a destructor *)
Lemma required_terminates cf fuel id line l what d b k before st :
  unwinding_run cf fuel id line (GScope (GCheck l (IsTrue what (fun _ => false)) false GNil d) b k) before = Ok st ->
  unwinding_run cf fuel id line (GScope (GCheck l (IsTrue what (fun _ => false)) true GNil d) b k) before = Err Terminate.
Proof.
  unfold unwinding_run. destruct (fail_flags _ _) as [[may should]|]; [|discriminate]. cbn [bind].
  destruct (push_location _ _ _) as [st1|]; [|discriminate]. cbn [bind]. destruct fuel as [|fuel]; [discriminate|]. cbn [unwinding_passes].
  match goal with |- context [unwinding_exec false cf id 0 _ ?a] => generalize a end. intros s1 H.
  match type of H with bind ?a _ = _ => destruct a as [[sx y]|] eqn:E; [|discriminate] end. clear H.
  match type of E with bind ?a _ = _ => destruct a as [[sz z]|] eqn:E1; [|discriminate] end. clear E. cbn [unwinding_exec] in *.
  destruct (unwinding_exec false cf id 0 b s1) as [[s2 q]|]; [|discriminate]. cbn [bind] in *. generalize dependent (false || is_some q). intros u E1.
  destruct (unwinding_check_begin u cf l s2) as [s3|]; [|discriminate]. cbn [bind] in *. unfold unwinding_conclude in *. cbn [bind maybe_abort] in *.
  destruct (unwinding_report u cf id false (what 0) s3) as [s4|]; [|discriminate]. cbn [bind is_some] in *.
  assert (C : exists s5, check_end (u || true) s4 = Ok s5).
  { unfold check_end, pop_location, hold in *. destruct s4 as [i4 h4 ? ? ? ? ? ? ?]. cbn in *.
    assert (P : exists x, pop_back (locations i4) = Ok x).
    { destruct (pop_back (locations i4)) as [x|] eqn:PB; [eauto|]. destruct h4, u; cbn in E1; rewrite PB in E1; discriminate. }
    destruct P as [x P]. destruct h4, u; cbn; rewrite P; cbn; eauto. }
  destruct C as [s5 ->]. reflexivity.
Qed.

(** ** A section in a destructor, executed because of a failed REQUIRE *)
Lemma section_never_ends cf fuel id line l what s before may should :
  cf_verbosity cf = Full -> fail_flags (cf_max_tag_length cf) (id_tags id) = Ok (may, should) -> 1 <= cf_max_nested cf -> 1 <= fuel ->
  exists st last c f,
  unwinding_run cf fuel id line (GScope (GInSection s GNil GNil) (GCheck l (IsTrue what (fun _ => false)) true GNil GNil) GNil) before = Ok st /\
  trace st = before ++ [TestCaseStarted id line; AssertionFailed id [] [] (mkloc l Exact) (what 0) should may; SectionStarted s] ++ last ++ [TestCaseEnded id line c f] /\
  Forall (fun e => exists i m, e = AssertionSucceeded id [] [] i m) last.
Proof.
  intros V FF N F. destruct fuel as [|fuel]; [lia|]. unfold unwinding_run. rewrite FF. clear FF. destruct cf as [v nested captures a b c]. cbn in V, N. subst v.
  set (last := if should then [AssertionSucceeded id [] [] (mkloc line Exact) (Message (lit "expected test to fail"))] else @nil event).
  assert (A : Forall (fun e => exists i m, e = AssertionSucceeded id [] [] i m) last) by (unfold last; destruct should; repeat constructor; eauto).
  destruct nested as [|[|[|[|n]]]]; [lia| | | |]; destruct may, should;
    [eexists _, last, (mkcounts 2 0 1), AllowedFail|eexists _, last, (mkcounts 1 0 1), AllowedFail|eexists _, last, (mkcounts 2 0 1), AllowedFail|eexists _, last, (mkcounts 1 1 0), Failed
    |eexists _, last, (mkcounts 2 0 1), AllowedFail|eexists _, last, (mkcounts 1 0 1), AllowedFail|eexists _, last, (mkcounts 2 0 1), AllowedFail|eexists _, last, (mkcounts 1 1 0), Failed
    |eexists _, last, (mkcounts 2 0 1), AllowedFail|eexists _, last, (mkcounts 1 0 1), AllowedFail|eexists _, last, (mkcounts 2 0 1), AllowedFail|eexists _, last, (mkcounts 1 1 0), Failed
    |eexists _, last, (mkcounts 2 0 1), AllowedFail|eexists _, last, (mkcounts 1 0 1), AllowedFail|eexists _, last, (mkcounts 2 0 1), AllowedFail|eexists _, last, (mkcounts 1 1 0), Failed];
    (split; [lazy; change (fix app (l0 m : list event) {struct l0} : list event := match l0 with [] => m | a0 :: l1 => a0 :: app l1 m end) with (@app event); reflexivity|split; [|exact A]]);
    cbn [trace]; rewrite <- !app_assoc; reflexivity.
Qed.
