(** Tests divided among several runs (C99), and filters with their negation (C100). *)
From Verif.Spec Require Import TextSpec FilterSpec Events VerdictSpec SessionSpec ProgramSpec CliSpec ShardSpec.
From Verif.Model Require Import Base Vector StringUtil Print Filter Run Cli Session.
From Verif.Proofs Require Import Lists FilterProofs RunProofs ScopeProofs RunFacts SessionProofs SessionFacts ConfigProofs CliProofs CliFacts ProgramProofs ChoiceProofs NegationProofs.
From Coq Require Import Permutation Lia.
Local Open Scope list_scope.

(** ** The same events *)
Section Shards.
Variable lm : Session.limits.
Variable fuel : nat.
Let full := config_of lm Full.

Lemma in_concat_split {A} (part : list A) parts : In part parts -> exists before after, List.concat parts = before ++ part ++ after.
Proof.
  intros I. apply in_split in I as (l1 & l2 & ->). exists (List.concat l1), (List.concat l2). now rewrite concat_app.
Qed.

Lemma Forall2_in {A B} (R : A -> B -> Prop) l l' x : Forall2 R l l' -> In x l -> exists y, In y l' /\ R x y.
Proof.
  induction 1 as [|a b l l' X F IH]; intros I; [destruct I|]. destruct I as [->|I]; [exists b; split; [now left|exact X]|].
  destruct (IH I) as (y & J & K). exists y. split; [now right|exact K].
Qed.

Lemma selected_part p tests name filters events success t :
  run_selected_tests lm fuel Full tests name filters p = Ok (events, success) -> In t tests -> p (t_id t) = Ok true ->
  exists st before after, run full fuel t [] = Ok st /\ events = before ++ trace st ++ after.
Proof.
  intros R I P. destruct (summary_kept _ _ _ _ _ _ _ _ R) as (keep & parts & K & F & -> & _).
  assert (J : In t (filter keep tests)).
  { apply filter_In. split; auto. rewrite Forall_forall in K. specialize (K t I). congruence. }
  destruct (Forall2_in _ _ _ _ F J) as (part & Jp & st & body & c & s & Rt & E & Ep & _).
  destruct (in_concat_split part parts Jp) as (a & b & C). exists st.
  set (last := summary_of name filters (ended (List.concat parts))). exists ([TestRunStarted name filters] ++ a), (b ++ [last]).
  split; [exact Rt|]. rewrite C, E, Ep, <- !app_assoc. reflexivity.
Qed.

Theorem same_events p q tests tests' name name' filters filters' events events' success success' v t :
  run_selected_tests lm fuel v tests name filters p = Ok (events, success) ->
  run_selected_tests lm fuel v tests' name' filters' q = Ok (events', success') ->
  In t tests -> In t tests' -> p (t_id t) = Ok true -> q (t_id t) = Ok true ->
  exists body c s before after before' after',
    let part := filter (Events.visible v) ([TestCaseStarted (t_id t) (t_line t)] ++ body ++ [TestCaseEnded (t_id t) (t_line t) c s]) in
    Forall (fun e => inner e = true) body /\ events = before ++ part ++ after /\ events' = before' ++ part ++ after'.
Proof.
  rewrite (run_selected_verbosity lm fuel p v tests), (run_selected_verbosity lm fuel q v tests').
  destruct (run_selected_tests lm fuel Full tests name filters p) as [[ev b]|] eqn:R1; [|discriminate]. intros [= <- <-].
  destruct (run_selected_tests lm fuel Full tests' name' filters' q) as [[ev' b']|] eqn:R2; [|discriminate]. intros [= <- <-] I I' P Q.
  destruct (selected_part _ _ _ _ _ _ _ R1 I P) as (st & x & y & R & ->).
  destruct (selected_part _ _ _ _ _ _ _ R2 I' Q) as (st' & x' & y' & R' & ->). rewrite R in R'. injection R' as <-.
  destruct (run_alone lm fuel t st R) as (body & c & s & T & F & _). exists body, c, s.
  exists (filter (Events.visible v) x), (filter (Events.visible v) y), (filter (Events.visible v) x'), (filter (Events.visible v) y').
  cbv zeta. cbn [app]. rewrite <- T, !filter_app. auto.
Qed.

(** ** The same outcomes *)
Definition keeps (p : test_id -> res bool) (t : test_case) : bool := match p (t_id t) with Ok b => b | Err _ => false end.

Definition outcome (t : test_case) : list (test_id * counts * case_state) :=
  match run full fuel t [] with Ok st => ended (trace st) | Err _ => [] end.

Lemma run_selected_ok p tests name filters :
  Forall (fun t => exists b, p (t_id t) = Ok b) tests ->
  Forall (fun t => keeps p t = true -> exists st, run full fuel t [] = Ok st) tests ->
  exists events, run_selected_tests lm fuel Full tests name filters p = Ok (events, in_state Failed (flat_map outcome (filter (keeps p) tests)) =? 0) /\
    ended events = flat_map outcome (filter (keeps p) tests).
Proof.
  intros P R. assert (C : exists l, cases lm fuel p tests = Ok l /\ ended (List.concat (map (fun x => trace (snd x)) l)) = flat_map outcome (filter (keeps p) tests)).
  { induction tests as [|t tests IH]; [exists []; split; reflexivity|]. inversion P as [|? ? [b E] P']; subst. inversion R as [|? ? X R']; subst.
    destruct (IH P' R') as (l & El & O). cbn [cases filter]. unfold keeps in X |- * at 1. rewrite E in X |- *. cbn [bind]. destruct b; [|eauto].
    destruct (X eq_refl) as (st & Est). fold full. rewrite Est. cbn [bind]. rewrite El. cbn [bind]. eexists. split; [reflexivity|].
    cbn [map List.concat snd flat_map]. rewrite ended_app, O. unfold outcome at 2. now rewrite Est. }
  destruct C as (l & C & O). rewrite run_selected, C. cbv zeta. eexists. split; [rewrite O; reflexivity|].
  rewrite !ended_app, visible_full, O. unfold report_at. cbn. now rewrite app_nil_r.
Qed.

Lemma run_selected_inv p tests name filters r : run_selected_tests lm fuel Full tests name filters p = Ok r ->
  Forall (fun t => exists b, p (t_id t) = Ok b) tests /\ Forall (fun t => keeps p t = true -> exists st, run full fuel t [] = Ok st) tests.
Proof.
  rewrite run_selected. destruct (cases lm fuel p tests) as [l|] eqn:C; [|discriminate]. intros _.
  destruct (cases_select _ _ _ _ _ C) as (E & F & P). split; [exact P|]. apply Forall_forall. intros t I K.
  assert (J : In t (select p tests)) by (apply filter_In; auto). rewrite <- E in J. apply in_map_iff in J as (x & <- & J).
  rewrite Forall_forall in F. eauto.
Qed.

Lemma divided_outcomes {A} (kp : test_case -> bool) (ks : list (test_case -> bool)) (f : test_case -> list A) tests :
  Forall (fun t => count_occ Bool.bool_dec (map (fun k : test_case -> bool => k t) ks) true = if kp t then 1 else 0) tests ->
  Permutation (flat_map f (filter kp tests)) (List.concat (map (fun k => flat_map f (filter k tests)) ks)).
Proof.
  induction 1 as [|t tests C _ IH].
  - cbn [filter flat_map]. induction ks as [|k ks IHk]; [constructor|]. exact IHk.
  - transitivity ((if kp t then f t else []) ++ flat_map f (filter kp tests)).
    { cbn [filter]. destruct (kp t); reflexivity. }
    transitivity (List.concat (map (fun k : test_case -> bool => if k t then f t else []) ks) ++ List.concat (map (fun k : test_case -> bool => flat_map f (filter k tests)) ks)).
    { apply Permutation_app; [|exact IH]. clear IH.
      assert (N : forall n, count_occ Bool.bool_dec (map (fun k : test_case -> bool => k t) ks) true = n ->
                 List.concat (map (fun k : test_case -> bool => if k t then f t else []) ks) = List.concat (repeat (f t) n)).
      { clear C. induction ks as [|k ks IHk]; intros n; cbn [map count_occ List.concat]; [intros <-; reflexivity|].
        destruct (k t) eqn:E; cbn [Bool.bool_dec].
        - destruct (Bool.bool_dec true true); [|congruence]. intros <-. cbn [repeat List.concat]. now rewrite (IHk _ eq_refl).
        - destruct (Bool.bool_dec false true); [congruence|]. intros <-. cbn [app]. now apply IHk. }
      rewrite (N _ C). destruct (kp t); cbn [repeat List.concat]; [now rewrite app_nil_r|reflexivity]. }
    clear. induction ks as [|k ks IHk]; [constructor|]. cbn [map List.concat filter].
    transitivity ((if k t then f t else []) ++ flat_map f (filter k tests) ++
                  (List.concat (map (fun k : test_case -> bool => if k t then f t else []) ks) ++ List.concat (map (fun k : test_case -> bool => flat_map f (filter k tests)) ks))).
    { rewrite <- !app_assoc. apply Permutation_app_head. rewrite !app_assoc. apply Permutation_app_tail. apply Permutation_app_comm. }
    rewrite app_assoc. apply Permutation_app; [|exact IHk]. destruct (k t); reflexivity.
Qed.

Lemma in_state_perm {ID} s (l l' : list (ID * counts * case_state)) : Permutation l l' -> in_state s l = in_state s l'.
Proof.
  unfold in_state. induction 1 as [|x l l' _ IH|x y l|l l' l'' _ IH1 _ IH2]; cbn [filter]; [reflexivity| | |congruence].
  - destruct (same_state _ _); cbn [length]; congruence.
  - destruct (same_state (snd x) s), (same_state (snd y) s); reflexivity.
Qed.
Lemma in_state_concat {ID} s (l : list (list (ID * counts * case_state))) : (in_state s (List.concat l) =? 0) = forallb (fun x => in_state s x =? 0) l.
Proof.
  induction l as [|x l IH]; [reflexivity|]. cbn [List.concat forallb]. rewrite <- IH. unfold in_state. rewrite filter_app, app_length.
  destruct (length (filter _ x)); reflexivity.
Qed.

Theorem divided p (qs : list (list text * (test_id -> res bool))) tests name filters :
  Forall (fun t => exists (b : bool) (bs : list bool), p (t_id t) = Ok b /\ Forall2 (fun q c => snd q (t_id t) = Ok c) qs bs /\
            once b bs) tests ->
  ((exists r, run_selected_tests lm fuel Full tests name filters p = Ok r) <->
   Forall (fun q => exists r, run_selected_tests lm fuel Full tests name (fst q) (snd q) = Ok r) qs) /\
  forall events success results,
  run_selected_tests lm fuel Full tests name filters p = Ok (events, success) ->
  Forall2 (fun q r => run_selected_tests lm fuel Full tests name (fst q) (snd q) = Ok r) qs results ->
  success = forallb snd results /\ Permutation (ended events) (List.concat (map (fun r => ended (fst r)) results)).
Proof.
  intros D.
  assert (P : Forall (fun t => exists b, p (t_id t) = Ok b) tests).
  { eapply Forall_impl; [|exact D]. intros t (b & _ & E & _). eauto. }
  assert (Q : Forall (fun q => Forall (fun t => exists b, snd q (t_id t) = Ok b) tests) qs).
  { apply Forall_forall. intros q I. eapply Forall_impl; [|exact D]. intros t (b & bs & _ & F & _).
    destruct (Forall2_in _ _ _ _ F I) as (c & _ & E). eauto. }
  assert (C : Forall (fun t => count_occ Bool.bool_dec (map (fun k : test_case -> bool => k t) (map (fun q => keeps (snd q)) qs)) true = if keeps p t then 1 else 0) tests).
  { eapply Forall_impl; [|exact D]. intros t (b & bs & E & F & N). unfold once in N. unfold keeps at 2. rewrite E, <- N. f_equal. rewrite map_map.
    clear - F. induction F as [|q c qs bs X F IH]; [reflexivity|]. cbn [map]. unfold keeps at 1. now rewrite X, IH. }
  split.
  - split.
    + intros (r & R). destruct (run_selected_inv _ _ _ _ _ R) as (_ & K). apply Forall_forall. intros q I.
      rewrite Forall_forall in Q. destruct (run_selected_ok (snd q) tests name (fst q) (Q q I)) as (ev & E & _); [|eauto].
      rewrite Forall_forall in K, C |- *. intros t It Kt. apply K; auto. specialize (C t It). destruct (keeps p t); [reflexivity|].
      exfalso. apply (count_occ_not_In Bool.bool_dec) in C. apply C. apply in_map_iff. exists (keeps (snd q)). split; [exact Kt|]. apply in_map_iff. eauto.
    + intros R. destruct (run_selected_ok p tests name filters P) as (ev & E & _); [|eauto].
      rewrite Forall_forall in C |- *. intros t It Kt. specialize (C t It). rewrite Kt in C.
      assert (I : In true (map (fun k : test_case -> bool => k t) (map (fun q => keeps (snd q)) qs))) by (apply (count_occ_In Bool.bool_dec); lia).
      apply in_map_iff in I as (k & Ek & I). apply in_map_iff in I as (q & <- & I). rewrite Forall_forall in R.
      destruct (R q I) as (r & Er). destruct (run_selected_inv _ _ _ _ _ Er) as (_ & K). rewrite Forall_forall in K. auto.
  - intros events success results R RS. destruct (run_selected_inv _ _ _ _ _ R) as (_ & K).
    destruct (run_selected_ok p tests name filters P K) as (ev & E & O). rewrite E in R. injection R as <- <-.
    assert (X : map (fun r => ended (fst r)) results = map (fun k : test_case -> bool => flat_map outcome (filter k tests)) (map (fun q => keeps (snd q)) qs) /\
                forallb snd results = forallb (fun x => in_state Failed x =? 0) (map (fun k : test_case -> bool => flat_map outcome (filter k tests)) (map (fun q => keeps (snd q)) qs))).
    { clear - RS. induction RS as [|q r qs results Y RS [IH1 IH2]]; [split; reflexivity|]. cbn [map forallb]. rewrite IH1, IH2.
      destruct (run_selected_inv _ _ _ _ _ Y) as (P & K). destruct (run_selected_ok (snd q) tests name (fst q) P K) as (ev & E & O).
      rewrite E in Y. injection Y as <-. cbn [fst snd]. now rewrite O. }
    destruct X as [X1 X2]. pose proof (divided_outcomes _ _ outcome tests C) as PM.
    rewrite X1, X2, O, <- in_state_concat. split; [|exact PM]. now rewrite (in_state_perm Failed _ _ PM).
Qed.

(** ** Exit codes *)
Lemma parts_outcome tests parts : Forall2 (case_part lm fuel) tests parts -> ended (List.concat parts) = flat_map outcome tests.
Proof.
  induction 1 as [|t part tests parts (st & body & c & s & R & T & _) _ IH]; [reflexivity|]. cbn [List.concat flat_map].
  rewrite ended_app, IH. f_equal. unfold outcome, full. now rewrite R, T.
Qed.

Lemma no_failure {ID} (l : list (ID * counts * case_state)) : (in_state Failed l =? 0) = true <-> forall x, In x l -> same_state (snd x) Failed = false.
Proof.
  rewrite Nat.eqb_eq. unfold in_state. split.
  - intros H x I. destruct (same_state (snd x) Failed) eqn:E; [|reflexivity]. exfalso.
    assert (J : In x (filter (fun x => same_state (snd x) Failed) l)) by (apply filter_In; auto). destruct (filter _ l); [destruct J|discriminate].
  - intros H. induction l as [|x l IH]; [reflexivity|]. cbn [filter]. rewrite (H x) by now left. apply IH. intros y I. apply H. now right.
Qed.

Definition passing (t : test_case) : Prop := forall x, In x (outcome t) -> same_state (snd x) Failed = false.

Lemma exit_code can_open r path argv (tagged_tests : list (test_case * list text)) out code :
  length argv <= l_max_command_line_args lm -> acceptable argv -> asks_run (setting (read argv)) ->
  g_tests r = map fst tagged_tests ->
  Forall (fun x => id_tags (t_id (fst x)) = tag_string (snd x) /\ well_formed (l_max_tag_length lm) (snd x) /\
                   length (full_name_of (id_name (t_id (fst x))) (id_type (t_id (fst x)))) <= l_max_test_name_length lm) tagged_tests ->
  main lm fuel can_open r path argv = Ok (out, code) ->
  (code = 0 <-> forall x, In x tagged_tests ->
     chosen (full_name_of (id_name (t_id (fst x))) (id_type (t_id (fst x)))) (snd x) (filters (read argv)) -> passing (fst x)).
Proof.
  intros L ACC AR G W M. unfold main in M. destruct (parse_arguments_spec (cli_of lm) path argv L) as (printed & args & P & A & _). rewrite P in M. cbn [bind] in M.
  destruct (A ACC) as (E & _). rewrite E in *. clear E A. match type of P with _ = Ok (_, Some ?a) => set (ar := a) in * end. clearbody ar.
  destruct (configure lm can_open r ar) as [[r1 out1]|] eqn:C; cbn [bind] in M; [|discriminate].
  destruct (run_tests lm fuel r1 ar) as [[[r2 out2] su]|] eqn:R; cbn [bind] in M; [|discriminate]. injection M as <- <-.
  destruct (choice lm (fun _ => []) (fun _ => None) can_open r path argv printed ar r1 out1 L P C) as (T & _).
  destruct (parsed_options (cli_of lm) _ _ _ _ L P) as [GO FE].
  assert (NA : forall n, In n (quote "--list-tests" :: actions) -> get_option ar n = None).
  { intros n Hn. assert (NE : n <> []) by (cbn in Hn; intuition (subst; discriminate)). specialize (GO n NE). rewrite (AR n Hn) in GO. destruct (get_option ar n); [discriminate|reflexivity]. }
  destruct (session_runs lm fuel r1 ar (filters (read argv)) tagged_tests r2 out2 su (fun n H => NA n (or_intror H)) (NA _ (or_introl eq_refl)) FE) as (keep & parts & K & PS & _ & SU); [congruence|exact W|exact R|].
  rewrite (parts_outcome _ _ PS) in SU.
  assert (X : su = true <-> forall x, In x tagged_tests -> keep x = true -> passing (fst x)).
  { rewrite SU, no_failure. split.
    - intros H x I KE y J. apply H. apply in_flat_map. exists (fst x). split; [|exact J]. apply in_map. apply filter_In. auto.
    - intros H y J. apply in_flat_map in J as (t & I & J). apply in_map_iff in I as (x & <- & I). apply filter_In in I as (I & KE). exact (H x I KE y J). }
  transitivity (su = true); [destruct su; split; congruence|]. rewrite X. split; intros H x I KE; apply H; auto.
  - apply (K x I). exact KE.
  - apply (K x I) in KE. exact KE.
Qed.

Theorem exit_divided can_open r path argv argvs (tagged_tests : list (test_case * list text)) out code codes :
  Forall (fun a => length a <= l_max_command_line_args lm /\ acceptable a /\ asks_run (setting (read a))) (argv :: argvs) ->
  g_tests r = map fst tagged_tests ->
  Forall (fun x => id_tags (t_id (fst x)) = tag_string (snd x) /\ well_formed (l_max_tag_length lm) (snd x) /\
                   length (full_name_of (id_name (t_id (fst x))) (id_type (t_id (fst x)))) <= l_max_test_name_length lm) tagged_tests ->
  (forall x, In x tagged_tests ->
     let picks a := chosen (full_name_of (id_name (t_id (fst x))) (id_type (t_id (fst x)))) (snd x) (filters (read a)) in
     picks argv <-> Exists picks argvs) ->
  main lm fuel can_open r path argv = Ok (out, code) ->
  Forall2 (fun a c => exists out, main lm fuel can_open r path a = Ok (out, c)) argvs codes ->
  (code = 0 <-> Forall (fun c => c = 0) codes).
Proof.
  intros A G W D M F. inversion A as [|? ? (A1 & A2 & A3) A']; subst. rewrite (exit_code _ _ _ _ _ _ _ A1 A2 A3 G W M).
  assert (X : Forall (fun c => c = 0) codes <-> forall x a, In x tagged_tests -> In a argvs ->
     chosen (full_name_of (id_name (t_id (fst x))) (id_type (t_id (fst x)))) (snd x) (filters (read a)) -> passing (fst x)).
  { clear D A. induction F as [|a c argvs codes (o & E) F IH]; [split; [intros _ x a _ []|constructor]|].
    inversion A' as [|? ? (B1 & B2 & B3) B']; subst. specialize (IH B'). pose proof (exit_code _ _ _ _ _ _ _ B1 B2 B3 G W E) as EC. split.
    - intros H. inversion H; subst. intros x b I [<-|J]; [now apply EC|]. now apply IH.
    - intros H. constructor; [apply EC; intros x I; apply H; auto; now left|]. apply IH. intros x b I J. apply H; auto. now right. }
  rewrite X. split.
  - intros H x a I J CH. apply H; auto. apply (D x I). apply Exists_exists. eauto.
  - intros H x I CH. apply (D x I) in CH. apply Exists_exists in CH as (a & J & CH). eauto.
Qed.

(** One run without filters, or with some, is as good as two: one with a filter added, one with its negation added. *)
Lemma chosen_add name tags fs g : ~ hidden tags -> (chosen name tags (fs ++ [g]) <-> chosen name tags fs /\ filter_holds name tags g).
Proof.
  intros NH. assert (E : chosen name tags (fs ++ [g]) <-> selected name tags (fs ++ [g])) by (destruct fs; reflexivity).
  assert (E' : chosen name tags fs <-> Forall (filter_holds name tags) fs).
  { destruct fs; cbn [chosen]; [split; auto|]. unfold selected. tauto. }
  rewrite E, E'. unfold selected. rewrite Forall_app. split; [intros ((F & X) & _); inversion X; auto|]. intros (F & X). split; [auto|contradiction].
Qed.

Theorem exit_complement can_open r path argv argv1 argv2 f (tagged_tests : list (test_case * list text)) out out1 out2 code code1 code2 :
  Forall (fun a => length a <= l_max_command_line_args lm /\ acceptable a /\ asks_run (setting (read a))) [argv; argv1; argv2] ->
  in_one_piece f -> filters (read argv1) = filters (read argv) ++ [f] -> filters (read argv2) = filters (read argv) ++ [quote "~" ++ f] ->
  g_tests r = map fst tagged_tests ->
  Forall (fun x => id_tags (t_id (fst x)) = tag_string (snd x) /\ well_formed (l_max_tag_length lm) (snd x) /\ ~ hidden (snd x) /\
                   length (full_name_of (id_name (t_id (fst x))) (id_type (t_id (fst x)))) <= l_max_test_name_length lm) tagged_tests ->
  main lm fuel can_open r path argv = Ok (out, code) ->
  main lm fuel can_open r path argv1 = Ok (out1, code1) ->
  main lm fuel can_open r path argv2 = Ok (out2, code2) ->
  (code = 0 <-> code1 = 0 /\ code2 = 0).
Proof.
  intros A (S & N & T) F1 F2 G W M M1 M2. rewrite (exit_divided can_open r path argv [argv1; argv2] tagged_tests out code [code1; code2] A G).
  - split; [intros H; inversion H as [|? ? ? H']; subst; now inversion H'|]. intros (-> & ->). auto.
  - eapply Forall_impl; [|exact W]. intros x (X1 & X2 & _ & X4). auto.
  - intros x I. rewrite Forall_forall in W. destruct (W x I) as (X1 & X2 & X3 & X4). cbv zeta.
    destruct (complement _ (l_max_test_name_length lm) f (t_id (fst x)) (snd x) X1 X2 X4 S N T) as (b & b' & B & B' & NH & _). specialize (NH X3).
    set (name := full_name_of (id_name (t_id (fst x))) (id_type (t_id (fst x)))) in *.
    assert (D : filter_holds name (snd x) f \/ filter_holds name (snd x) (quote "~" ++ f)).
    { destruct (cli_selects_spec _ _ [f] _ _ X1 X2 ltac:(discriminate) X4) as (c & C & J). rewrite B in C. injection C as <-.
      destruct (cli_selects_spec _ _ [quote "~" ++ f] _ _ X1 X2 ltac:(discriminate) X4) as (c & C & J'). rewrite B' in C. injection C as <-.
      destruct b; [left; destruct (proj1 J eq_refl) as (Q & _); now inversion Q|right]. cbn in NH. destruct (proj1 J' NH) as (Q & _). now inversion Q. }
    split.
    + intros C. destruct D as [D|D]; [left; rewrite F1|right; left; rewrite F2]; now apply chosen_add.
    + intros C. inversion C as [? ? Y|? ? Y]; subst; [rewrite F1 in Y; now apply chosen_add in Y|].
      inversion Y as [? ? Z|? ? Z]; subst; [rewrite F2 in Z; now apply chosen_add in Z|inversion Z].
  - exact M.
  - constructor; [eauto|]. constructor; [eauto|constructor].
Qed.
End Shards.
