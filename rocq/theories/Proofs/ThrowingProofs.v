(** A handler of failed assertions that throws: exceeding a limit is the same as a [throw] statement (C77). *)
From Verif.Spec Require Import TextSpec FilterSpec Events RunSpec ThrowingSpec.
From Verif.Model Require Import Base Vector StringUtil Filter Run Throwing.
From Verif.Proofs Require Import Lists AppendProofs LevelProofs RunProofs InvariantProofs ScopeProofs SafetyProofs LimitProofs.

Section Same.
Variable raised : str -> exn.
Variable size_max : nat.
Variable cf : config.
Variable id : test_id.

Lemma terminating_ok {A} (r : res A) x : r = Ok x -> terminating r = Ok x.
Proof. now intros ->. Qed.

Lemma enter_same s st st' e : section_enter cf s st = Ok (st', e) -> throwing_section_enter cf s st = Ok (st', inl e).
Proof.
  unfold section_enter, throwing_section_enter. intros H. bstep H as lv E.
  destruct (length (levels (inf (notify_exception_handled cf st))) <=? depth (inf (notify_exception_handled cf st))) eqn:L; cbn [andb].
  - destruct (cf_max_nested cf <=? depth (inf (notify_exception_handled cf st))); [discriminate|]. rewrite ?E; cbn [bind].
    bstep H as level E1. bstep H as lv1 E2. rewrite ?E1; cbn [bind]. rewrite ?E2; cbn [bind].
    destruct (leaf_executed _); [now injection H as <- <-|]. destruct (_ && _); [now injection H as <- <-|].
    bstep H as lv2 E3. bstep H as cs E4. bstep H as st3 E5. injection H as <- <-. rewrite ?E3; cbn [bind].
    cbn [inf set_inf current_section with_levels with_depth] in *. rewrite ?E4. match goal with |- bind (terminating ?r) _ = _ => assert (E6 : r = Ok st3) by exact E5; rewrite E6 end. reflexivity.
  - injection E as <-. cbn [bind].
    bstep H as level E1. bstep H as lv1 E2. rewrite ?E1; cbn [bind]. rewrite ?E2; cbn [bind].
    destruct (leaf_executed _); [now injection H as <- <-|]. destruct (_ && _); [now injection H as <- <-|].
    bstep H as lv2 E3. bstep H as cs E4. bstep H as st3 E5. injection H as <- <-. rewrite ?E3; cbn [bind].
    cbn [inf set_inf current_section with_levels with_depth] in *. rewrite ?E4. match goal with |- bind (terminating ?r) _ = _ => assert (E6 : r = Ok st3) by exact E5; rewrite E6 end. reflexivity.
Qed.

Lemma decrement_ok d d' : csub d 1 = Ok d' -> decrement size_max d = d'.
Proof. unfold csub. destruct d as [|d]; cbn; [discriminate|]. intros [= <-]. now rewrite Nat.sub_0_r. Qed.

Lemma exit_same e u st st' : section_exit cf e u st = Ok st' -> throwing_section_exit size_max cf e u st = Ok st'.
Proof.
  unfold section_exit, throwing_section_exit. intros H. bstep H as st1 E. bstep H as d D. injection H as <-. apply decrement_ok in D.
  match goal with |- bind ?r _ = _ => enough (X : r = Ok st1) by (rewrite X; cbn [bind]; now rewrite D) end.
  destruct e; [|exact E]. bstep E as y P. rewrite ?(terminating_ok _ _ P); cbn [terminating bind]. bstep E as [i2 l] Q.
  assert (Q' : (if depth (inf y) =? length (levels (inf y)) then Ok (with_leaf_executed (inf y) true, true)
          else if forallb (fun child => prev_id child =? max_id child) (skipn (depth (inf y)) (levels (inf y)))
          then do lv <- terminating (pop_back (levels (inf y))) ;; Ok (with_levels (inf y) lv, true)
          else Ok (inf y, false)) = Ok (i2, l)).
  { destruct (_ =? _); [exact Q|]. destruct (forallb _ _); [|exact Q]. bstep Q as lv Q1. rewrite ?(terminating_ok _ _ Q1); cbn [terminating bind]. exact Q. }
  cbv zeta. rewrite Q'. cbn [bind]. bstep E as z R.
  assert (R' : (if l && negb u
                  then do s <- terminating (back (current_section (inf (set_inf y i2)))) ;; Ok (report_section_ended cf s (set_inf y i2))
                  else Ok (set_inf y i2)) = Ok z).
  { destruct (_ && _); [|exact R]. bstep R as s R1. rewrite ?(terminating_ok _ _ R1); cbn [terminating bind]. exact R. }
  rewrite R'. cbn [bind]. bstep E as cs S. rewrite ?(terminating_ok _ _ S); cbn [terminating bind]. exact E.
Qed.

Lemma captures_same l : forall st st', add_captures cf l st = Ok st' -> throwing_add_captures cf l st = Ok (st', None).
Proof.
  induction l as [|c l IH]; intros st st' H; cbn [add_captures throwing_add_captures] in *; [now injection H as <-|].
  bstep H as st1 E. rewrite ?E; cbn [bind]. unfold add_capture in E. destruct (_ =? _); [discriminate|]. apply IH, H.
Qed.

Lemma exec_same pass p : forall st st' x, exec cf id pass p st = Ok (st', x) -> throwing_exec raised size_max cf id pass p st = Ok (st', x).
Proof.
  induction p as [|n k IHp|when y k IHp|line w abort e IHe k IHp|line message abort k IHp|sec b IHp1 k IHp2|texts b IHp1 k IHp2|accepts notify b IHp1 k IHp2];
    intros st st' x H; cbn [exec throwing_exec] in *.
  - exact H.
  - apply IHp, H.
  - destruct (when pass); [exact H|apply IHp, H].
  - bstep H as st1 E1. bstep H as [st2 x2] E2. bstep H as [st3 y] E3. bstep H as st4 E4.
    rewrite ?(terminating_ok _ _ E1); cbn [terminating bind]. rewrite (IHe _ _ _ E2). cbn [bind]. rewrite ?(terminating_ok _ _ E3); cbn [terminating bind].
    rewrite ?(terminating_ok _ _ E4); cbn [terminating bind]. destruct y; [exact H|apply IHp, H].
  - bstep H as st1 E1. bstep H as st2 E2. bstep H as st3 E3. rewrite ?(terminating_ok _ _ E1); cbn [terminating bind]. rewrite ?(terminating_ok _ _ E2); cbn [terminating bind].
    rewrite ?(terminating_ok _ _ E3); cbn [terminating bind]. destruct abort; [exact H|apply IHp, H].
  - bstep H as [st1 e] E1. rewrite (enter_same _ _ _ _ E1). cbn [bind]. destruct e.
    + bstep H as [st2 x2] E2. bstep H as st3 E3. rewrite (IHp1 _ _ _ E2). cbn [bind]. rewrite (exit_same _ _ _ _ E3). cbn [bind].
      destruct x2; [exact H|apply IHp2, H].
    + bstep H as st3 E3. rewrite (exit_same _ _ _ _ E3). cbn [bind]. apply IHp2, H.
  - bstep H as st1 E1. bstep H as [st2 x2] E2. bstep H as st3 E3. rewrite (captures_same _ _ _ E1). cbn [bind]. rewrite (IHp1 _ _ _ E2). cbn [bind].
    rewrite E3. cbn [bind]. destruct x2; [exact H|apply IHp2, H].
  - bstep H as [st1 x1] E1. rewrite (IHp1 _ _ _ E1). cbn [bind]. destruct x1 as [e|]; [|apply IHp2, H]. destruct (accepts e); [apply IHp2, H|exact H].
Qed.

Lemma passes_same p : forall fuel pass st st' x, passes cf id p fuel pass st = Ok (st', x) ->
  throwing_passes raised size_max cf id p fuel pass st = Ok (st', x).
Proof.
  induction fuel as [|fuel IH]; intros pass st st' x H; cbn [passes throwing_passes] in *; [discriminate|].
  bstep H as [st2 y] E. rewrite (exec_same _ _ _ _ _ E). cbn [bind]. destruct y; [exact H|]. destruct (_ && _); [apply IH, H|exact H].
Qed.
End Same.

(** The end of [run], given how the passes ended. *)
Definition finish (cf : config) (id : test_id) (line : nat) (x : option exn) (st2 : state) : res state :=
  do st3 <-
    (match x with
     | None =>
       do st' <- report_assertion cf id true (Message (lit "no exception caught")) (set_in_check st2 true) ;;
       Ok (set_in_check st' false)
     | Some AbortExn => Ok (set_unhandled st2 true)
     | Some (StdExn what) =>
       report_assertion2 cf id false (lit "unexpected std::exception caught; message: ") what (set_unhandled st2 true)
     | Some OtherExn =>
       report_assertion cf id false (Message (lit "unexpected unknown exception caught")) (set_unhandled st2 true)
     end) ;;
  let st4 := if unhandled st3 then notify_exception_handled cf st3 else st3 in
  let st5 := set_unhandled st4 false in
  do st6 <-
    (if should_fail st5 then
       do st' <- report_assertion cf id (match status st5 with IAllowedFail => true | _ => false end)
                   (Message (lit "expected test to fail"))
                   (set_in_check (set_should_fail st5 false) true) ;;
       Ok (set_should_fail (set_in_check st' false) true)
     else Ok st5) ;;
  do s <- convert_to_public_state (status st6) ;;
  Ok (report cf High st6 (TestCaseEnded id line (asserts st6) s)).

Definition starting (cf : config) (t : test_case) (may should : bool) (trace0 : list event) : state :=
  set_status (report cf High (mkstate (mkinfo [] [] 0 false [] []) None (mkcounts 0 0 0) may should false false INotRun trace0)
               (TestCaseStarted (t_id t) (t_line t))) ISuccess.

Lemma run_eq cf fuel t tr0 : run cf fuel t tr0 =
  do (may, should) <- fail_flags (cf_max_tag_length cf) (id_tags (t_id t)) ;;
  do st1 <- push_location cf (starting cf t may should tr0) (mkloc (t_line t) TestCaseScope) ;;
  do (st2, x) <- passes cf (t_id t) (t_body t) fuel 0 st1 ;;
  finish cf (t_id t) (t_line t) x st2.
Proof. reflexivity. Qed.

Lemma throwing_run_ok raised size_max cf fuel t tr0 may should st1 st2 x st :
  fail_flags (cf_max_tag_length cf) (id_tags (t_id t)) = Ok (may, should) ->
  push_location cf (starting cf t may should tr0) (mkloc (t_line t) TestCaseScope) = Ok st1 ->
  throwing_passes raised size_max cf (t_id t) (t_body t) fuel 0 st1 = Ok (st2, x) ->
  finish cf (t_id t) (t_line t) x st2 = Ok st ->
  throwing_run raised size_max cf fuel t tr0 = Ok st.
Proof.
  intros E1 E2 E3 H. unfold throwing_run. rewrite ?(terminating_ok _ _ E1); cbn [terminating bind]. unfold starting in E2. rewrite ?(terminating_ok _ _ E2); cbn [terminating bind].
  rewrite E3. cbn [bind]. unfold finish in H. bstep H as st3 F. rewrite ?(terminating_ok _ _ F); cbn [terminating bind].
  bstep H as st6 G. cbv zeta. rewrite ?(terminating_ok _ _ G); cbn [terminating bind]. bstep H as s C. rewrite ?(terminating_ok _ _ C); cbn [terminating bind]. exact H.
Qed.

Theorem run_same raised size_max cf fuel t tr0 st : run cf fuel t tr0 = Ok st -> throwing_run raised size_max cf fuel t tr0 = Ok st.
Proof.
  rewrite run_eq. intros H. bstep H as [may should] E1. bstep H as st1 E2. bstep H as [st2 x] E3.
  eapply throwing_run_ok; eauto. apply passes_same, E3.
Qed.

(** ** States after a limit was exceeded *)
Definition similar (i' i : info) : Prop :=
  current_section i' = current_section i /\ captures i' = captures i /\ locations i' = locations i.
Definition view (st : state) : info := match held st with Some h => h | None => inf st end.

(** [st'] with the handler that throws, [st] with a [throw] statement. *)
Record alike (sg : Prop) (st' st : state) : Prop := {
  al_trace : trace st' = trace st; al_asserts : asserts st' = asserts st; al_may : may_fail st' = may_fail st;
  al_should : should_fail st' = should_fail st; al_check : in_check st' = in_check st; al_unhandled : unhandled st' = unhandled st;
  al_status : status st' = status st; al_sections : current_section (inf st') = current_section (inf st);
  al_locations : locations (inf st') = locations (inf st);
  al_held : held st = None -> held st' = None;
  al_view : similar (view st') (view st);
  al_captures : length (captures (inf st)) <= length (captures (inf st'));
  al_single : sg -> captures (inf st') = captures (inf st) }.
Definition unwinding (st' st : state) : Prop :=
  depth (inf st) <= length (levels (inf st')) /\ (depth (inf st') = depth (inf st) \/ S (depth (inf st')) = depth (inf st)) \/ depth (inf st) = 0.

Section Sim.
Variable raised : str -> exn.
Variable size_max : nat.
Variable cf : config.
Variable id : test_id.
Variable sg : Prop.

Lemma alike_hold st' st : alike sg st' st -> alike sg (hold true st') (hold true st) /\
  view (hold true st') = view st' /\ view (hold true st) = view st /\ held (hold true st') = Some (view st') /\ held (hold true st) = Some (view st).
Proof.
  intros A.
  assert (V : forall y, view (hold true y) = view y) by (intros y; unfold hold, view; destruct (held y) eqn:E; cbn; now rewrite ?E).
  assert (S : forall y, held (hold true y) = Some (view y)) by (intros y; unfold hold, view; destruct (held y) eqn:E; cbn; now rewrite ?E).
  split; [|auto 6]. pose proof (V st) as V1. pose proof (V st') as V2. pose proof (S st) as S1.
  assert (F : forall y, trace (hold true y) = trace y /\ asserts (hold true y) = asserts y /\ may_fail (hold true y) = may_fail y /\
    should_fail (hold true y) = should_fail y /\ in_check (hold true y) = in_check y /\ unhandled (hold true y) = unhandled y /\ status (hold true y) = status y)
    by (intros y; unfold hold; destruct (held y); cbn; auto 8).
  destruct (F st') as (? & ? & ? & ? & ? & ? & ?). destruct (F st) as (? & ? & ? & ? & ? & ? & ?). destruct A.
  constructor; rewrite ?inf_hold, ?V1, ?V2; try congruence; auto.
Qed.

(** What a destructor does to [info] and flags once the state is held. *)
Lemma alike_set st' st i' i : alike sg st' st -> held st' <> None -> held st <> None ->
  current_section i' = current_section i -> locations i' = locations i -> length (captures i) <= length (captures i') ->
  (sg -> captures i' = captures i) -> alike sg (set_inf st' i') (set_inf st i).
Proof.
  intros A H1 H2 E1 E2 E3 E4. destruct A. constructor; cbn; auto.
  unfold view in *. cbn. destruct (held st'); [|congruence]. destruct (held st); [|congruence]. assumption.
Qed.

Lemma alike_pop st' st st1 : alike sg st' st -> unwinding st' st -> pop_location (hold true st) = Ok st1 ->
  exists st1', pop_location (hold true st') = Ok st1' /\ alike sg st1' st1 /\ unwinding st1' st1 /\ held st1' <> None /\ held st1 <> None.
Proof.
  intros A U H. destruct (alike_hold _ _ A) as (A1 & _ & _ & H1 & H2). unfold pop_location in *. bstep H as ls P. injection H as <-.
  rewrite (al_locations _ _ _ A1), P. cbn [bind]. eexists. split; [reflexivity|]. split.
  - apply alike_set; auto; try (rewrite ?H1, ?H2; discriminate).
    + apply (al_sections _ _ _ A1). + apply (al_captures _ _ _ A1). + apply (al_single _ _ _ A1).
  - unfold unwinding in *. cbn. rewrite !inf_hold, H1, H2. split; [exact U|split; discriminate].
Qed.

Lemma alike_in_check st' st b : alike sg st' st -> alike sg (set_in_check st' b) (set_in_check st b).
Proof. intros []. constructor; cbn; auto. Qed.

Lemma alike_check_end st' st st1 : alike sg st' st -> unwinding st' st -> check_end true st = Ok st1 ->
  exists st1', terminating (check_end true st') = Ok st1' /\ alike sg st1' st1 /\ unwinding st1' st1.
Proof.
  intros A U H. unfold check_end in *. destruct (alike_pop (set_in_check st' false) (set_in_check st false) st1 (alike_in_check _ _ _ A) U H) as (st1' & E & A1 & U1 & _).
  exists st1'. rewrite (terminating_ok _ _ E). auto.
Qed.

Lemma alike_capture_end n st' st st1 : alike sg st' st -> unwinding st' st -> capture_end true n st = Ok st1 ->
  exists st1', capture_end true n st' = Ok st1' /\ alike sg st1' st1 /\ unwinding st1' st1.
Proof.
  intros A U H. destruct (alike_hold _ _ A) as (A1 & _ & _ & H1 & H2). unfold capture_end in *. bstep H as k P. injection H as <-.
  pose proof (al_captures _ _ _ A1) as L. unfold csub in *. destruct (Nat.leb_spec n (length (captures (inf (hold true st))))); [|discriminate].
  injection P as <-. destruct (Nat.leb_spec n (length (captures (inf (hold true st'))))); [|lia]. cbn [bind]. eexists. split; [reflexivity|]. split.
  - apply alike_set; auto; try (rewrite ?H1, ?H2; discriminate).
    + apply (al_sections _ _ _ A1). + apply (al_locations _ _ _ A1). + cbn. rewrite !firstn_length. lia.
    + intros Q. cbn. now rewrite (al_single _ _ _ A1 Q).
  - unfold unwinding in *. cbn. rewrite !inf_hold. exact U.
Qed.

Lemma pop_some {A} (l : list A) : l <> [] -> pop_back l = Ok (removelast l) /\ length (removelast l) = length l - 1.
Proof.
  destruct l as [|a l] using rev_ind; [congruence|]. intros _. unfold pop_back. destruct (l ++ [a]) eqn:E; [now destruct l|]. rewrite <- E, removelast_last, app_length. cbn.
  split; [reflexivity|lia].
Qed.

Lemma alike_section_exit st' st st1 : alike sg st' st -> unwinding st' st -> section_exit cf true true st = Ok st1 ->
  exists st1', throwing_section_exit size_max cf true true st' = Ok st1' /\ alike sg st1' st1 /\ unwinding st1' st1.
Proof.
  intros A U H. unfold section_exit, throwing_section_exit in *. bstep H as z Z. bstep H as d D. injection H as <-.
  bstep Z as y P. destruct (alike_pop _ _ _ A U P) as (y' & P' & A1 & U1 & H1 & H2).
  rewrite P'. cbn [terminating bind]. bstep Z as [i2 l] Q. rewrite andb_false_r in Z. cbn [bind] in Z. bstep Z as cs C. injection Z as <-.
  cbn [inf set_inf] in *.
  assert (F2 : current_section i2 = current_section (inf y) /\ captures i2 = captures (inf y) /\ locations i2 = locations (inf y) /\ depth i2 = depth (inf y)).
  { destruct (_ =? _); [injection Q as <- <-; auto|]. destruct (forallb _ _); [|injection Q as <- <-; auto]. bstep Q as lv Q1. injection Q as <- <-. auto. }
  destruct F2 as (F1 & F2 & F3 & F4).
  assert (X : exists i2' l', (if depth (inf y') =? length (levels (inf y')) then Ok (with_leaf_executed (inf y') true, true)
          else if forallb (fun child => prev_id child =? max_id child) (skipn (depth (inf y')) (levels (inf y')))
          then do lv <- terminating (pop_back (levels (inf y'))) ;; Ok (with_levels (inf y') lv, true)
          else Ok (inf y', false)) = Ok (i2', l') /\
     current_section i2' = current_section (inf y') /\ captures i2' = captures (inf y') /\ locations i2' = locations (inf y') /\ depth i2' = depth (inf y') /\
     (depth (inf y) - 1 <= length (levels i2'))).
  { clear Q. assert (D1 : 1 <= depth (inf y)) by (unfold csub in D; cbn [depth with_current_section] in D; rewrite F4 in D; destruct (depth (inf y)); [discriminate|lia]).
    destruct U1 as [[U1 U2]|U1]; [|lia].
    destruct (Nat.eqb_spec (depth (inf y')) (length (levels (inf y')))) as [EQ|NE].
    - do 2 eexists. split; [reflexivity|]. cbn. repeat split; auto. lia.
    - destruct (forallb _ _).
      + assert (NN : levels (inf y') <> []) by (intros N; rewrite N in *; cbn in *; lia).
        destruct (pop_some _ NN) as [PO PL]. rewrite PO. cbn [terminating bind]. do 2 eexists. split; [reflexivity|]. cbn. repeat split; auto. lia.
      + do 2 eexists. split; [reflexivity|]. repeat split; auto. lia. }
  destruct X as (i2' & l' & X & G1 & G2 & G3 & G4 & G5). rewrite X. cbn [bind]. rewrite andb_false_r. cbn [bind inf set_inf].
  rewrite G1, (al_sections _ _ _ A1), <- F1, C. cbn [terminating bind]. eexists. split; [reflexivity|].
  unfold csub in D. cbn [depth with_current_section] in D. rewrite F4 in D. destruct (Nat.leb_spec 1 (depth (inf y))); [|discriminate]. injection D as <-. split.
  - apply (alike_set y' y); auto; cbn; try congruence.
    + rewrite G3, F3. apply (al_locations _ _ _ A1). + rewrite G2, F2. apply (al_captures _ _ _ A1). + rewrite G2, F2. apply (al_single _ _ _ A1).
  - unfold unwinding in *. cbn. rewrite G4. destruct U1 as [[U1 U2]|U1]; [|lia].
    destruct U2 as [U2|U2].
    + left. split; [lia|]. left. rewrite U2. destruct (depth (inf y)); [lia|cbn; lia].
    + destruct (depth (inf y')) eqn:E; [right; lia|]. left. split; [lia|]. right. cbn. lia.
Qed.

(** ** Simulation *)
Definition related (st' st : state) (x : option exn) : Prop :=
  st' = st /\ (x = None -> held st = None) \/ x <> None /\ alike sg st' st /\ unwinding st' st.

Lemma limited_fits p : forall n c, nesting p <= n -> capturing p <= c -> limited raised n c p = p.
Proof.
  induction p as [|m k IHp|when y k IHp|line w abort e IHe k IHp|line message abort k IHp|sec b IHp1 k IHp2|texts b IHp1 k IHp2|accepts notify b IHp1 k IHp2];
    intros n c; cbn [nesting capturing limited]; intros N C; auto; try (rewrite IHp by lia; reflexivity).
  - now rewrite IHe, IHp by lia.
  - destruct n as [|n]; [lia|]. now rewrite IHp1, IHp2 by lia.
  - destruct (Nat.leb_spec (length texts) c); [|lia]. now rewrite IHp1, IHp2 by lia.
  - now rewrite IHp1, IHp2 by lia.
Qed.

Lemma room_after pass p st st' x : room cf st -> exec cf id pass p st = Ok (st', x) -> room cf st'.
Proof.
  intros R H. assert (LO : looser cf cf) by (constructor; auto). destruct (room_exec cf cf LO id pass p st R) as [E|(y & E & _ & R')]; [congruence|].
  rewrite H in E. injection E as <-. exact R'.
Qed.

Lemma notify_none st : held st = None -> notify_exception_handled cf st = st.
Proof. unfold notify_exception_handled. now intros ->. Qed.
Lemma held_notify st : held (notify_exception_handled cf st) = None.
Proof. unfold notify_exception_handled. destruct (held st) eqn:E; [reflexivity|exact E]. Qed.
Lemma held_raise st s : held (raise_state st s) = held st.
Proof. unfold raise_state. now destruct (_ <? _). Qed.
Lemma held_assertion ok data st st' : held st = None -> report_assertion cf id ok data st = Ok st' -> held st' = None.
Proof.
  unfold report_assertion. intros N H. destruct (is_skipped _); [now injection H as <-|]. bstep H as l E. injection H as <-.
  assert (R : held (register_assertion ok st) = None).
  { unfold register_assertion. cbn [held set_inf set_asserts]. rewrite N. destruct ok; [exact N|]. destruct (_ || _); rewrite held_raise; exact N. }
  destruct ok; rewrite held_report; exact R.
Qed.
Lemma held_begin line st st' : check_begin cf line st = Ok st' -> held st' = None.
Proof. unfold check_begin, push_location. intros H. bstep H as y E. bstep E as z F. injection E as <-. injection H as <-. cbn. apply held_notify. Qed.
Lemma held_end st st' : held st = None -> check_end false st = Ok st' -> held st' = None.
Proof.
  unfold check_end, pop_location. intros N H. bstep H as y E. injection H as <-. cbn. unfold hold. cbn [held set_in_check]. rewrite N. exact N.
Qed.
Lemma held_conclude pass w abort x st st' : (x = None -> held st = None) -> conclude cf id pass w abort x st = Ok (st', None) -> held st' = None.
Proof.
  intros N H. unfold conclude in H.
  destruct w as [what outcome|type accepts|type accepts matches describe|source]; destruct x as [e|];
    repeat match type of H with
    | Ok _ = Ok _ => injection H as <-
    | (if ?c then _ else _) = Ok _ => destruct c
    | bind (match ?e with AbortExn => _ | StdExn _ => _ | OtherExn => _ end) _ = _ => destruct e
    | bind _ _ = Ok _ => step H
    end; try discriminate; try apply held_notify;
    match goal with E : report_assertion _ _ _ _ _ = Ok _ |- _ => eapply held_assertion; [apply N; reflexivity|exact E] end.
Qed.
Lemma held_enter s st st' e : section_enter cf s st = Ok (st', e) -> held st' = None.
Proof.
  unfold section_enter. intros H. bstep H as lv E1. bstep H as lev E2. bstep H as lv1 E3.
  destruct (leaf_executed _); [injection H as <- <-; apply held_notify|].
  destruct (_ && _); [injection H as <- <-; apply held_notify|]. bstep H as lv2 E4. bstep H as cs E5. bstep H as y E6. injection H as <- <-.
  unfold push_location in E6. bstep E6 as z F. injection E6 as <-.
  unfold report_section_started. destruct (_ =? _); [rewrite held_report|]; cbn; apply held_notify.
Qed.
Lemma held_exit e st st' : held st = None -> section_exit cf e false st = Ok st' -> held st' = None.
Proof.
  unfold section_exit. intros N H. bstep H as y E. bstep H as d D. injection H as <-. cbn. destruct e; [|now injection E as <-].
  bstep E as z P. unfold pop_location in P. bstep P as ls P1. injection P as <-. bstep E as [i2 l] Q. bstep E as st3 R. bstep E as cs C. injection E as <-. cbn.
  unfold hold in R. rewrite N in R. destruct (_ && _); [|injection R as <-; exact N]. bstep R as s' S. injection R as <-.
  unfold report_section_ended. rewrite held_report. exact N.
Qed.
Lemma held_captures l : forall st st', held st = None -> add_captures cf l st = Ok st' -> held st' = None.
Proof.
  induction l as [|c l IH]; intros st st' N H; cbn [add_captures] in H; [now injection H as <-|]. bstep H as y E. apply IH in H; auto.
  unfold add_capture in E. destruct (_ =? _); [discriminate|]. bstep E as z F. destruct z. injection E as <-. cbn. apply held_notify.
Qed.

Lemma captures_full : forall l st st', length (captures (inf st)) + length (firstn (cf_max_captures cf - length (captures (inf st))) l) <= cf_max_captures cf ->
  length (captures (inf st)) <= cf_max_captures cf -> cf_max_captures cf - length (captures (inf st)) < length l ->
  add_captures cf (firstn (cf_max_captures cf - length (captures (inf st))) l) st = Ok st' -> throwing_add_captures cf l st = Ok (st', Some too_many).
Proof.
  induction l as [|a l IH]; intros st st' L1 L2 L3 H; cbn [length] in L3; [lia|]. cbn [throwing_add_captures].
  destruct (Nat.eqb_spec (length (captures (inf st))) (cf_max_captures cf)) as [EQ|NE].
  - rewrite EQ, Nat.sub_diag in H. cbn in H. now injection H as <-.
  - destruct (cf_max_captures cf - length (captures (inf st))) as [|k] eqn:K; [lia|]. cbn [firstn add_captures length] in *. bstep H as y E.
    pose proof E as E'. unfold add_capture in E'. destruct (_ =? _); [discriminate|]. bstep E' as z F. destruct z as [v ?]. injection E' as E'.
    assert (C : length (captures (inf y)) = S (length (captures (inf st)))).
    { rewrite <- E'. cbn. rewrite app_length, inf_notify. cbn. lia. }
    cbn [bind]. apply IH; rewrite C; try lia.
    + rewrite firstn_length. lia. + replace (cf_max_captures cf - S (length (captures (inf st)))) with k by lia. exact H.
Qed.

Lemma room_parts st : room cf st -> depth (inf st) <= length (levels (inf st)) /\ length (levels (inf st)) <= cf_max_nested cf.
Proof. intros (((A & B) & _) & _). auto. Qed.

Lemma related_fits pass p st st' x : exec cf id pass p st = Ok (st', x) ->
  (exists st1, throwing_exec raised size_max cf id pass p st = Ok (st1, x) /\ related st1 st' x) -> x = None -> held st' = None.
Proof.
  intros E (st1 & F & R) ->. destruct R as [[_ R]|[R _]]; [now apply R|congruence].
Qed.

Lemma sim pass p : forall n c st st1 x, lets_through n c p -> (sg -> single p) -> room cf st -> held st = None ->
  depth (inf st) + n = cf_max_nested cf -> length (captures (inf st)) + c = cf_max_captures cf ->
  exec cf id pass (limited raised n c p) st = Ok (st1, x) ->
  exists st1', throwing_exec raised size_max cf id pass p st = Ok (st1', x) /\ related st1' st1 x.
Proof.
  induction p as [|m k IHp|when y k IHp|line w abort e IHe k IHp|line message abort k IHp|sec b IHp1 k IHp2|texts b IHp1 k IHp2|accepts notify b IHp1 k IHp2];
    intros n c st st1 x T SG R N D C H; cbn [lets_through single] in T, SG.
  - cbn in *. injection H as <- <-. eexists. split; [reflexivity|]. left. auto.
  - cbn [limited exec throwing_exec] in *. eapply IHp; eauto; rewrite ?inf_report; auto.
  - cbn [limited exec throwing_exec] in *. destruct (when pass); [|eapply IHp; eauto]. injection H as <- <-. eexists. split; [reflexivity|]. left. split; [reflexivity|discriminate].
  - destruct T as (TW & TE & TK). cbn [limited throwing_exec] in *.
    assert (SE : sg -> single e) by (intros Q; apply SG, Q). assert (SK : sg -> single k) by (intros Q; apply SG, Q).
    (* the whole check as a statement of its own *)
    assert (ALL : forall st1 st2 x st3 y st4, check_begin cf line st = Ok st1 -> exec cf id pass (limited raised n c e) st1 = Ok (st2, x) ->
        conclude cf id pass w abort x st2 = Ok (st3, y) -> check_end (is_some y) st3 = Ok st4 -> room cf st4 /\ depth (inf st4) = depth (inf st) /\ captures (inf st4) = captures (inf st)).
    { clear H. intros y1 y2 x2 y3 y y4 E1 E2 E3 E4.
      assert (W : exec cf id pass (Check line w abort (limited raised n c e) Nil) st = Ok (y4, y)).
      { cbn [exec]. rewrite E1. cbn [bind]. rewrite E2. cbn [bind]. rewrite E3. cbn [bind]. rewrite E4. cbn [bind]. now destruct y. }
      pose proof W as W'. apply scope_exec in W'. apply scope_lens in W'. split; [eapply room_after; eauto|]. tauto. }
    cbn [exec] in H. bstep H as y1 E1. bstep H as [y2 x2] E2. bstep H as [y3 y] E3. bstep H as y4 E4.
    destruct (ALL y1 y2 x2 y3 y y4 ltac:(first [reflexivity|assumption]) E2 E3 E4) as (R4 & D4 & C4). clear ALL.
    cbn [terminating bind].
    assert (R1 : room cf y1). { assert (LO : looser cf cf) by (constructor; auto). destruct (room_check_begin cf cf LO line st R) as [Q|(z & Q & _ & Q1)]; [congruence|]. rewrite E1 in Q. injection Q as <-. exact Q1. }
    assert (N1 : held y1 = None) by exact (held_begin _ _ _ E1).
    pose proof (scope_check_begin _ _ _ _ E1) as S1. unfold scope in S1. injection S1 as _ S12 _ S14.
    destruct (IHe n c y1 y2 x2 TE SE R1 N1 ltac:(rewrite S14; exact D) ltac:(rewrite S12; exact C) E2) as (y2' & E2' & RE).
    assert (KN : y = None -> y2' = y2 -> exists st1', throwing_exec raised size_max cf id pass k y4 = Ok (st1', x) /\ related st1' st1 x).
    { intros -> EQ. eapply IHp; eauto; try (rewrite ?D4, ?C4; auto).
      cbn [is_some] in E4. eapply held_end; [|exact E4]. eapply held_conclude; [|exact E3]. intros ->. destruct RE as [[_ RE]|[RE _]]; [auto|congruence]. }
    assert (SAME : y2' = y2 -> exists st1', (do (st2, x0) <- throwing_exec raised size_max cf id pass e y1;;
       do (st3, y0) <- terminating (conclude cf id pass w abort x0 st2);; do st4 <- terminating (check_end (is_some y0) st3);;
       match y0 with Some _ => Ok (st4, y0) | None => throwing_exec raised size_max cf id pass k st4 end) = Ok (st1', x) /\ related st1' st1 x).
    { intros EQ. rewrite E2'. cbn [bind]. subst y2'. rewrite E3. cbn [terminating bind]. rewrite E4. cbn [terminating bind].
      destruct y as [z|]; [|auto]. injection H as <- <-. eexists. split; [reflexivity|]. left. split; [reflexivity|discriminate]. }
    assert (EW : w = w) by reflexivity.
    destruct RE as [[EQ _]|(NX & AL & UN)]; [auto|].
    destruct w as [what outcome|type acc|type acc mat des|source].
    + rewrite E2'. cbn [bind]. destruct x2 as [z|]; [|congruence]. cbn [conclude] in *. injection E3 as <- <-. cbn [terminating bind is_some] in *.
      destruct (alike_check_end _ _ _ AL UN E4) as (y4' & E4' & AL' & UN'). rewrite E4'. cbn [bind]. injection H as <- <-. eexists. split; [reflexivity|]. right. auto.
    + apply SAME. rewrite (limited_fits e n c (proj1 TW) (proj2 TW)) in E2. apply (exec_same raised size_max) in E2. congruence.
    + apply SAME. rewrite (limited_fits e n c (proj1 TW) (proj2 TW)) in E2. apply (exec_same raised size_max) in E2. congruence.
    + apply SAME. rewrite (limited_fits e n c (proj1 TW) (proj2 TW)) in E2. apply (exec_same raised size_max) in E2. congruence.
  - cbn [limited exec throwing_exec] in *.
    assert (ALL : forall y1 y2 y3, check_begin cf line st = Ok y1 -> report_skipped cf id (message pass) y1 = Ok y2 -> check_end abort y2 = Ok y3 ->
      room cf y3 /\ depth (inf y3) = depth (inf st) /\ captures (inf y3) = captures (inf st)).
    { intros y1 y2 y3 E1 E2 E3.
      assert (W : exec cf id pass (Skip line message abort Nil) st = Ok (y3, if abort then Some AbortExn else None)).
      { cbn [exec]. rewrite E1. cbn [bind]. rewrite E2. cbn [bind]. rewrite E3. cbn [bind]. now destruct abort. }
      pose proof W as W'. apply scope_exec in W'. apply scope_lens in W'. split; [eapply room_after; eauto|]. tauto. }
    bstep H as y1 E1. bstep H as y2 E2. bstep H as y3 E3. destruct (ALL y1 y2 y3 eq_refl E2 E3) as (R3 & D3 & C3). cbn [terminating bind]. rewrite ?E2. cbn [terminating bind]. rewrite ?E3. cbn [terminating bind].
    destruct abort; [injection H as <- <-; eexists; split; [reflexivity|]; left; split; [reflexivity|discriminate]|].
    eapply IHp; eauto; try (rewrite ?D3, ?C3; auto). eapply held_end; [|exact E3].
    unfold report_skipped in E2. bstep E2 as l F. injection E2 as <-. rewrite held_report, held_raise. exact (held_begin _ _ _ E1).
  - destruct T as (TB & TK). destruct n as [|n]; cbn [limited] in H.
    + cbn [exec] in H. injection H as <- <-. cbn [throwing_exec]. unfold throwing_section_enter. rewrite (notify_none st N).
      destruct (room_parts st R) as [L1 L2]. destruct (Nat.leb_spec (length (levels (inf st))) (depth (inf st))); [|lia].
      destruct (Nat.leb_spec (cf_max_nested cf) (depth (inf st))); [|lia]. cbn [andb bind]. unfold throwing_section_exit. cbn [bind]. eexists. split; [reflexivity|]. right.
      split; [discriminate|]. split.
      * constructor; cbn; auto. unfold view. cbn. rewrite N. repeat split; auto.
      * unfold unwinding. cbn. destruct (depth (inf st)) eqn:E; [right; reflexivity|]. left. cbn. split; [lia|]. right. reflexivity.
    + cbn [exec] in H. bstep H as [y1 en] E1. cbn [throwing_exec]. rewrite (enter_same _ _ _ _ _ E1). cbn [bind].
      pose proof (held_enter _ _ _ _ E1) as N1. pose proof (scope_section_enter _ _ _ _ _ E1) as S1. destruct en.
      * bstep H as [y2 x2] E2. bstep H as y3 E3. unfold scope in S1. injection S1 as _ S12 _ S14.
        assert (W : exec cf id pass (InSection sec (limited raised n c b) Nil) st = Ok (y3, x2)).
        { cbn [exec]. rewrite E1. cbn [bind]. rewrite E2. cbn [bind]. rewrite E3. cbn [bind]. now destruct x2. }
        assert (R1 : room cf y1). { assert (LO : looser cf cf) by (constructor; auto). destruct (room_section_enter cf cf LO sec st R) as [Q|(z & Q & _ & Q1)]; [congruence|]. rewrite E1 in Q. injection Q as <-. cbn in Q1. destruct Q1 as (_ & [Q1|Q1]); [apply Q1|destruct Q1; discriminate]. }
        pose proof (room_after _ _ _ _ _ R W) as R3. apply scope_exec in W. apply scope_lens in W. destruct W as (W1 & _ & W2).
        replace (S n - 1) with n in TB by lia.
        destruct (IHp1 n c y1 y2 x2 TB ltac:(intros Q; apply SG, Q) R1 N1 ltac:(rewrite S14; lia) ltac:(rewrite S12; exact C) E2) as (y2' & E2' & RE).
        rewrite E2'. cbn [bind]. destruct RE as [[-> RE]|(NX & AL & UN)].
        -- rewrite (exit_same _ _ _ _ _ _ E3). cbn [bind]. destruct x2 as [z|].
           ++ injection H as <- <-. eexists. split; [reflexivity|]. left. split; [reflexivity|discriminate].
           ++ eapply IHp2; eauto; try (rewrite ?W1, ?W2; auto); [intros Q; apply SG, Q|]. cbn [is_some] in E3. eapply held_exit; [|exact E3]. auto.
        -- destruct x2 as [z|]; [|congruence]. cbn [is_some] in *. destruct (alike_section_exit _ _ _ AL UN E3) as (y3' & E3' & AL' & UN').
           rewrite E3'. cbn [bind]. injection H as <- <-. eexists. split; [reflexivity|]. right. auto.
      * bstep H as y3 E3. rewrite (exit_same _ _ _ _ _ _ E3). cbn [bind].
        assert (W : exec cf id pass (InSection sec (limited raised n c b) Nil) st = Ok (y3, None)).
        { cbn [exec]. rewrite E1. cbn [bind]. rewrite E3. reflexivity. }
        pose proof (room_after _ _ _ _ _ R W) as R3. apply scope_exec in W. apply scope_lens in W. destruct W as (W1 & _ & W2).
        eapply IHp2; eauto; try (rewrite ?W1, ?W2; auto); [intros Q; apply SG, Q|]. eapply held_exit; [|exact E3]. auto.
  - destruct T as (TB & TK). cbn [limited] in H. cbn [throwing_exec]. destruct (Nat.leb_spec (length texts) c) as [LE|GT].
    + cbn [exec] in H. bstep H as y1 E1. bstep H as [y2 x2] E2. bstep H as y3 E3. rewrite (captures_same _ _ _ _ E1). cbn [bind].
      pose proof (held_captures _ _ _ N E1) as N1. pose proof (scope_add_captures _ _ _ _ E1) as S1. unfold scope in S1. injection S1 as _ S12 _ S14.
      assert (W : exec cf id pass (Capture texts (limited raised n (c - length texts) b) Nil) st = Ok (y3, x2)).
      { cbn [exec]. rewrite E1. cbn [bind]. rewrite E2. cbn [bind]. rewrite E3. cbn [bind]. now destruct x2. }
      assert (R1 : room cf y1). { assert (LO : looser cf cf) by (constructor; auto). destruct (room_add_captures cf cf LO (map (fun l => l pass) texts) st R) as [Q|(z & Q & _ & Q1)]; [congruence|]. rewrite E1 in Q. injection Q as <-. exact Q1. }
      pose proof (room_after _ _ _ _ _ R W) as R3. apply scope_exec in W. apply scope_lens in W. destruct W as (W1 & _ & W2).
      destruct (IHp1 n (c - length texts) y1 y2 x2 TB ltac:(intros Q; apply SG, Q) R1 N1 ltac:(rewrite S14; lia) ltac:(rewrite S12, app_length, !map_length; unfold text, str in *; lia) E2) as (y2' & E2' & RE).
      rewrite E2'. cbn [bind]. destruct RE as [[-> RE]|(NX & AL & UN)].
      * rewrite E3. cbn [bind]. destruct x2 as [z|].
        -- injection H as <- <-. eexists. split; [reflexivity|]. left. split; [reflexivity|discriminate].
        -- eapply IHp2; eauto; try (rewrite ?W1, ?W2; auto); [intros Q; apply SG, Q|]. unfold capture_end in E3. cbn [is_some] in E3. bstep E3 as q Q. injection E3 as <-. cbn. unfold hold. rewrite (RE eq_refl). auto.
      * destruct x2 as [z|]; [|congruence]. cbn [is_some] in *. destruct (alike_capture_end _ _ _ _ AL UN E3) as (y3' & E3' & AL' & UN').
        rewrite E3'. cbn [bind]. injection H as <- <-. eexists. split; [reflexivity|]. right. auto.
    + cbn [exec] in H. bstep H as y1 E1. cbn [bind is_some] in H. bstep H as y3 E3. injection H as <- <-.
      rewrite <- firstn_map in E1. assert (CC : c = cf_max_captures cf - length (captures (inf st))) by lia.
      assert (FU : throwing_add_captures cf (map (fun l => l pass) texts) st = Ok (y1, Some too_many)).
      { apply captures_full; rewrite <- ?CC; auto; try lia. + rewrite firstn_length. lia. + rewrite map_length. exact GT. }
      rewrite FU. cbn [bind]. eexists. split; [reflexivity|]. right. split; [discriminate|].
      pose proof (held_captures _ _ _ N E1) as N1. unfold capture_end in E3. bstep E3 as q Q. injection E3 as <-. unfold hold in *. rewrite N1 in *. cbn in Q.
      assert (R1 : room cf y1). { assert (LO : looser cf cf) by (constructor; auto). destruct (room_add_captures cf cf LO (firstn c (map (fun l => l pass) texts)) st R) as [Q1|(z & Q1 & _ & Q2)]; [congruence|]. rewrite E1 in Q1. injection Q1 as <-. exact Q2. }
      split.
      * constructor; cbn; auto.
        -- unfold view. cbn. rewrite N1. repeat split.
        -- rewrite firstn_length. lia.
        -- intros QS. apply SG in QS. destruct QS as (QS & _). assert (c = 0) by lia. subst c. clear E1.
           unfold csub in Q. destruct (_ <=? _); [|discriminate]. injection Q as <-. rewrite H. cbn. rewrite Nat.sub_0_r. now rewrite firstn_all.
      * unfold unwinding. cbn. left. split; [apply (room_parts y1 R1)|auto].
  - destruct T as ((TN & T1 & T2) & TB & TK). cbn [limited throwing_exec exec] in *. bstep H as [y1 x1] E1.
    destruct (IHp1 n c st y1 x1 TB ltac:(intros Q; apply SG, Q) R N D C E1) as (y1' & E1' & RE).
    rewrite (limited_fits b n c T1 T2) in E1. pose proof E1 as E2. apply (exec_same raised size_max) in E2. rewrite E2 in E1'. injection E1' as <-. rewrite E2. cbn [bind].
    pose proof (room_after _ _ _ _ _ R E1) as R1. pose proof E1 as W. apply scope_exec in W. apply scope_lens in W. destruct W as (W1 & _ & W2).
    destruct x1 as [e|].
    + destruct (accepts e).
      * subst notify. eapply IHp2; eauto; rewrite ?inf_notify, ?W1, ?W2; auto; [intros Q; apply SG, Q| |apply held_notify].
        eapply room_scope; [exact R1|apply safe_notify, R1|apply scope_inf, inf_notify].
      * injection H as <- <-. eexists. split; [reflexivity|]. left. split; [reflexivity|discriminate].
    + eapply IHp2; eauto; rewrite ?W1, ?W2; auto; [intros Q; apply SG, Q|]. destruct RE as [[_ RE]|[RE _]]; [auto|congruence].
Qed.

Lemma sim_passes p : lets_through (cf_max_nested cf) (cf_max_captures cf) p -> (sg -> single p) ->
  forall fuel pass st st' x, outermost cf st -> held st = None ->
  passes cf id (limited raised (cf_max_nested cf) (cf_max_captures cf) p) fuel pass st = Ok (st', x) ->
  exists st1, throwing_passes raised size_max cf id p fuel pass st = Ok (st1, x) /\ (st1 = st' \/ x <> None /\ alike sg st1 st').
Proof.
  intros T SG. induction fuel as [|fuel IH]; intros pass st st' x O N H; cbn [passes throwing_passes] in *; [discriminate|].
  set (st1 := set_inf st _) in *.
  assert (O1 : outermost cf st1).
  { destruct O as ((S0 & L & C) & D & L1 & C1). split; [|split; [|split]]; auto. split; [|split]; auto.
    destruct S0 as (A1 & A2 & A3 & A4). unfold safe. cbn. rewrite map_length. auto. }
  bstep H as [st2 y] E.
  destruct (sim pass p (cf_max_nested cf) (cf_max_captures cf) st1 st2 y T SG (proj1 O1) N) as (st2' & E' & RE); auto.
  { destruct O1 as (_ & -> & _). reflexivity. } { destruct O1 as (_ & _ & _ & ->). reflexivity. }
  rewrite E'. cbn [bind]. pose proof (room_after _ _ _ _ _ (proj1 O1) E) as R2. apply scope_exec in E.
  assert (O2 : outermost cf st2) by (eapply outer_scope; eauto).
  destruct y as [e|].
  - injection H as <- <-. eexists. split; [reflexivity|]. destruct RE as [[-> _]|(A & B & _)]; auto.
  - destruct RE as [[-> NO]|(A & _)]; [|congruence].
    set (st3 := set_inf st2 (after_pass (inf st2))) in *.
    assert (O3 : outermost cf st3).
    { clear H. destruct O2 as ((S0 & L & C) & D & L1 & C1). destruct S0 as (A1 & A2 & A3 & A4).
      assert (CS : current_section (inf st2) = []) by (apply length_zero_iff_nil; lia).
      unfold st3, after_pass, outermost, room, safe. destruct (levels (inf st2)) as [|c [|]] eqn:LV; cbn; rewrite ?LV; cbn; auto 9.
      destruct (_ =? _); cbn; rewrite ?LV; cbn; repeat split; auto; cbn in A1; lia. }
    destruct (_ && _); [|injection H as <- <-; eauto].
    apply (IH (S pass) st3); auto.
Qed.

(** ** The end of a test case *)
Lemma alike_report v st' st e : alike sg st' st -> alike sg (report cf v st' e) (report cf v st e).
Proof.
  intros A. unfold report. destruct (_ <=? _); [|exact A]. destruct A. constructor; cbn; auto. congruence.
Qed.
Lemma alike_raise st' st s : alike sg st' st -> alike sg (raise_state st' s) (raise_state st s).
Proof.
  intros A. unfold raise_state. rewrite (al_status _ _ _ A). destruct (_ <? _); [|exact A]. destruct A. constructor; cbn; auto.
Qed.
Lemma alike_register ok st' st : alike sg st' st -> alike sg (register_assertion ok st') (register_assertion ok st).
Proof.
  intros A. unfold register_assertion. rewrite (al_may _ _ _ A), (al_should _ _ _ A).
  assert (X : forall v, alike sg
    (match held st' with Some h => set_held (set_inf (set_asserts st' (count v (asserts st'))) (count_info v (inf st'))) (Some (count_info v h))
     | None => set_inf (set_asserts st' (count v (asserts st'))) (count_info v (inf st')) end)
    (match held st with Some h => set_held (set_inf (set_asserts st (count v (asserts st))) (count_info v (inf st))) (Some (count_info v h))
     | None => set_inf (set_asserts st (count v (asserts st))) (count_info v (inf st)) end)).
  { intros v. destruct A. unfold view, similar in *.
    destruct (held st') as [h'|] eqn:E', (held st) as [h|] eqn:E; try (specialize (al_held0 eq_refl); discriminate);
      constructor; cbn; rewrite ?E, ?E'; auto; try congruence; unfold view, similar; cbn; rewrite ?E, ?E'; cbn; intuition congruence. }
  cbn [held set_inf set_asserts inf asserts].
  destruct ok; [apply X|]. destruct (_ || _); apply alike_raise, X.
Qed.

Lemma alike_assertion ok data st' st st1 : alike sg st' st -> unhandled st = true -> report_assertion cf id ok data st = Ok st1 ->
  exists st1', report_assertion cf id ok data st' = Ok st1' /\ alike sg st1' st1 /\ unhandled st1 = true.
Proof.
  intros A U H. unfold report_assertion in *. rewrite (al_status _ _ _ A). destruct (is_skipped _); [injection H as <-; eauto|].
  pose proof (alike_register ok _ _ A) as A1.
  assert (U1 : unhandled (register_assertion ok st) = true).
  { unfold register_assertion. cbn [held set_inf set_asserts]. unfold raise_state. destruct ok; [|destruct (_ || _)]; destruct (held st); repeat destruct (_ <? _); exact U. }
  revert H A1 U1. generalize (register_assertion ok st) as z, (register_assertion ok st') as z'. intros z z' H A1 U1.
  assert (V : forall y, unhandled y = true -> match held y with Some h => if unhandled y then h else inf y | None => inf y end = view y)
    by (intros y ->; unfold view; now destruct (held y)).
  rewrite V in * by (rewrite ?(al_unhandled _ _ _ A1); exact U1). rewrite (al_check _ _ _ A1), (al_should _ _ _ A1), (al_may _ _ _ A1).
  destruct (al_view _ _ _ A1) as (V1 & V2 & V3). rewrite V1, V2, V3. bstep H as l E. rewrite ?E. cbn [bind]. injection H as <-. eexists. split; [reflexivity|].
  split; [destruct ok; apply alike_report, A1|]. unfold report. destruct ok; destruct (_ <=? _); exact U1.
Qed.
Lemma alike_assertion2 ok a b st' st st1 : alike sg st' st -> unhandled st = true -> report_assertion2 cf id ok a b st = Ok st1 ->
  exists st1', report_assertion2 cf id ok a b st' = Ok st1' /\ alike sg st1' st1 /\ unhandled st1 = true.
Proof. rewrite !report_assertion2_eq. apply alike_assertion. Qed.

(** Once nothing is held any more. *)
Record late (st' st : state) : Prop := {
  la_trace : trace st' = trace st; la_asserts : asserts st' = asserts st; la_may : may_fail st' = may_fail st;
  la_should : should_fail st' = should_fail st; la_status : status st' = status st;
  la_sections : current_section (inf st') = current_section (inf st); la_locations : locations (inf st') = locations (inf st);
  la_held' : held st' = None; la_held : held st = None; la_single : sg -> captures (inf st') = captures (inf st) }.

Lemma close_none l n : length l <= n -> forall st, close_sections cf l n st = st.
Proof. destruct l as [|s l]; intros L st; cbn [close_sections]; auto. destruct (Nat.ltb_spec n (length (s :: l))); [lia|reflexivity]. Qed.

Lemma close_alike l n : forall st' st, trace st' = trace st -> status st' = status st ->
  trace (close_sections cf l n st') = trace (close_sections cf l n st).
Proof.
  induction l as [|s l IH]; intros st' st T S; cbn [close_sections]; auto. destruct (_ <? _); auto. apply IH.
  - unfold report_section_ended, report. rewrite S. destruct (_ <=? _); cbn; congruence.
  - unfold report_section_ended. now rewrite !status_report.
Qed.
Lemma close_fields l n : forall st, asserts (close_sections cf l n st) = asserts st /\ may_fail (close_sections cf l n st) = may_fail st /\
  should_fail (close_sections cf l n st) = should_fail st /\ status (close_sections cf l n st) = status st /\ inf (close_sections cf l n st) = inf st.
Proof.
  induction l as [|s l IH]; intros st; cbn [close_sections]; auto. destruct (_ <? _); auto. destruct (IH (report_section_ended cf s st)) as (-> & -> & -> & -> & ->).
  unfold report_section_ended, report. destruct (_ <=? _); cbn; auto.
Qed.

Lemma late_notify st' st : alike sg st' st -> late (notify_exception_handled cf st') (notify_exception_handled cf st).
Proof.
  intros A. assert (F : forall y, asserts (notify_exception_handled cf y) = asserts y /\ may_fail (notify_exception_handled cf y) = may_fail y /\
    should_fail (notify_exception_handled cf y) = should_fail y /\ status (notify_exception_handled cf y) = status y).
  { intros y. unfold notify_exception_handled. destruct (held y); auto. cbn. destruct (close_fields (rev (current_section i)) (length (current_section (inf y))) y) as (-> & -> & -> & -> & _). auto. }
  destruct (F st') as (X1 & X2 & X3 & X4). destruct (F st) as (Y1 & Y2 & Y3 & Y4). destruct A.
  constructor; rewrite ?inf_notify, ?held_notify; try congruence; auto.
  unfold notify_exception_handled, view, similar in *. destruct (held st') as [h'|] eqn:E', (held st) as [h|] eqn:E; try (specialize (al_held0 eq_refl); discriminate).
  - cbn. destruct al_view0 as (-> & _ & _). rewrite al_sections0. now apply close_alike.
  - cbn. destruct al_view0 as (V & _ & _). rewrite close_none; [exact al_trace0|]. rewrite rev_length, <- V, al_sections0. auto.
  - exact al_trace0.
Qed.

Lemma late_report v st' st e : late st' st -> late (report cf v st' e) (report cf v st e).
Proof. intros A. unfold report. destruct (_ <=? _); [|exact A]. destruct A. constructor; cbn; auto. congruence. Qed.
Lemma late_raise st' st s : late st' st -> late (raise_state st' s) (raise_state st s).
Proof. intros A. unfold raise_state. rewrite (la_status _ _ A). destruct (_ <? _); [|exact A]. destruct A. constructor; cbn; auto. Qed.
Lemma late_register ok st' st : late st' st -> late (register_assertion ok st') (register_assertion ok st).
Proof.
  intros A. unfold register_assertion. rewrite (la_may _ _ A), (la_should _ _ A). cbn [held set_inf set_asserts inf asserts]. rewrite (la_held _ _ A), (la_held' _ _ A).
  assert (X : forall v, late (set_inf (set_asserts st' (count v (asserts st'))) (count_info v (inf st'))) (set_inf (set_asserts st (count v (asserts st))) (count_info v (inf st))))
    by (intros v; destruct A; constructor; cbn; auto; congruence).
  destruct ok; [apply X|]. destruct (_ || _); apply late_raise, X.
Qed.

Lemma late_assertion ok data st' st st1 : sg -> late st' st -> in_check st' = in_check st -> report_assertion cf id ok data st = Ok st1 ->
  exists st1', report_assertion cf id ok data st' = Ok st1' /\ late st1' st1.
Proof.
  intros Q A I H. unfold report_assertion in *. rewrite (la_status _ _ A). destruct (is_skipped _); [injection H as <-; eauto|].
  pose proof (late_register ok _ _ A) as A1.
  assert (I1 : forall y, in_check (register_assertion ok y) = in_check y)
    by (intros y; unfold register_assertion; cbn [held set_inf set_asserts]; unfold raise_state; destruct ok; [|destruct (_ || _)]; destruct (held y); repeat destruct (_ <? _); reflexivity).
  rewrite !I1, I in *. revert H A1. generalize (register_assertion ok st) as z, (register_assertion ok st') as z'. intros z z' H A1.
  rewrite (la_held' _ _ A1). rewrite (la_held _ _ A1) in H. rewrite (la_locations _ _ A1), (la_sections _ _ A1), (la_single _ _ A1 Q), (la_should _ _ A1), (la_may _ _ A1).
  bstep H as l E. rewrite ?E. cbn [bind]. injection H as <-. eexists. split; [reflexivity|]. destruct ok; apply late_report, A1.
Qed.

Lemma late_finish line e st' st st1 : alike sg st' st -> (should_fail st = false \/ sg) ->
  finish cf id line (Some e) st = Ok st1 -> exists st1', finish cf id line (Some e) st' = Ok st1' /\ trace st1' = trace st1 /\ asserts st1' = asserts st1 /\ status st1' = status st1.
Proof.
  intros A Q H. unfold finish in *.
  assert (AU : alike sg (set_unhandled st' true) (set_unhandled st true)) by (destruct A; constructor; cbn; auto).
  bstep H as st3 E.
  assert (X : exists st3', match e with
     | AbortExn => Ok (set_unhandled st' true)
     | StdExn what => report_assertion2 cf id false (lit "unexpected std::exception caught; message: ") what (set_unhandled st' true)
     | OtherExn => report_assertion cf id false (Message (lit "unexpected unknown exception caught")) (set_unhandled st' true)
     end = Ok st3' /\ alike sg st3' st3 /\ unhandled st3 = true).
  { destruct e as [|what|].
    - injection E as <-. eauto.
    - eapply alike_assertion2; [exact AU|reflexivity|exact E].
    - eapply alike_assertion; [exact AU|reflexivity|exact E]. }
  assert (SF : should_fail st3 = should_fail st).
  { assert (RF : forall data y y', report_assertion cf id false data y = Ok y' -> should_fail y' = should_fail y).
    { intros data y y' F. unfold report_assertion in F. destruct (is_skipped _); [now injection F as <-|]. bstep F as l G. injection F as <-. unfold report.
      assert (RG : should_fail (register_assertion false y) = should_fail y)
        by (unfold register_assertion; cbn [held set_inf set_asserts]; unfold raise_state; destruct (_ || _); destruct (held y); repeat destruct (_ <? _); reflexivity).
      destruct (_ <=? _); exact RG. }
    destruct e as [|what|].
    - injection E as <-. reflexivity.
    - rewrite report_assertion2_eq in E. exact (RF _ _ _ E).
    - exact (RF _ _ _ E). }
  destruct X as (st3' & -> & A3 & U3). cbn [bind]. rewrite (al_unhandled _ _ _ A3), U3 in *. pose proof (late_notify _ _ A3) as L.
  assert (SN : should_fail (notify_exception_handled cf st3) = should_fail st).
  { rewrite <- SF. unfold notify_exception_handled. destruct (held st3); auto. cbn. apply close_fields. }
  revert H L SN. generalize (notify_exception_handled cf st3) as z, (notify_exception_handled cf st3') as z'. intros z z' H L SN.
  assert (L5 : late (set_unhandled z' false) (set_unhandled z false)) by (destruct L; constructor; cbn; auto).
  revert H. cbn [should_fail set_unhandled]. rewrite (la_should _ _ L), SN.
  assert (X : forall st6, (if should_fail st then
       do st' <- report_assertion cf id (match status (set_unhandled z false) with IAllowedFail => true | _ => false end)
                   (Message (lit "expected test to fail")) (set_in_check (set_should_fail (set_unhandled z false) false) true) ;;
       Ok (set_should_fail (set_in_check st' false) true) else Ok (set_unhandled z false)) = Ok st6 ->
     exists st6', (if should_fail st then
       do st' <- report_assertion cf id (match status (set_unhandled z' false) with IAllowedFail => true | _ => false end)
                   (Message (lit "expected test to fail")) (set_in_check (set_should_fail (set_unhandled z' false) false) true) ;;
       Ok (set_should_fail (set_in_check st' false) true) else Ok (set_unhandled z' false)) = Ok st6' /\ late st6' st6).
  { intros st6 F. destruct (should_fail st) eqn:SH; [|injection F as <-; eauto]. destruct Q as [Q|Q]; [discriminate|].
    rewrite (la_status _ _ L5). bstep F as y G. injection F as <-.
    eapply late_assertion in G; [|exact Q| |].
    - destruct G as (y' & G & LY). rewrite G. cbn [bind]. eexists. split; [reflexivity|]. destruct LY; constructor; cbn; auto.
    - destruct L5; constructor; cbn; auto.
    - reflexivity. }
  intros H. bstep H as st6 E6. destruct (X st6 ltac:(first [reflexivity|exact E6])) as (st6' & E6' & L6). rewrite E6'. cbn [bind]. rewrite (la_status _ _ L6). bstep H as s C. rewrite ?C. cbn [bind].
  injection H as <-. rewrite (la_asserts _ _ L6). eexists. split; [reflexivity|].
  pose proof (late_report High _ _ (TestCaseEnded id line (asserts st6) s) L6) as LF. destruct LF. auto.
Qed.
End Sim.
