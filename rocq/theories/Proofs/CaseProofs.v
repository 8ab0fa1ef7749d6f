(** Execution of a whole test case: passes, escaping exceptions, final verdict. *)
From Verif.Spec Require Import TextSpec FilterSpec Events RunSpec.
From Verif.Model Require Import Base Vector StringUtil Filter Run.
From Verif.Proofs Require Import Lists VectorProofs AppendProofs LevelProofs RunProofs.

Section Case.
Variable cf : config.
Hypothesis verbose : cf_verbosity cf = Full.
Variable id : test_id.
Variables may should : bool.
Notation normal := (normal may should).
Notation mcl := (cf_max_capture_length cf).
Notation mml := (cf_max_message_length cf).
Notation B := (behave id may should mcl mml).
Notation BP := (behave_passes id may should mcl mml).

(** Levels before pass number [j]. *)
Definition progress (p : prog) (lv : list level) (j : nat) : Prop :=
  (lv = [] /\ j = 0) \/
  (lv <> [] /\ max_id (top lv) = length (secs p) /\ Inv (secs p) (prev_id (top lv)) (tl lv) j).

Lemma cleared i : current_section i = [] -> with_current_section (with_levels i []) [] = with_levels i [].
Proof. destruct i; simpl; now intros ->. Qed.

Lemma with_levels_same i lv : levels i = lv -> i = with_levels i lv.
Proof. intros <-. now destruct i. Qed.

Lemma pass_levels p st n j ev s' lvo' lf' : current_section (inf st) = [] -> progress p (levels (inf st)) j ->
  number_of_passes p = j + S n ->
  reached (Some j) (secs p) [] (map reset_level (levels (inf st))) false lvo' lf' ->
  let st2 := upd st ev s' lvo' lf' None in
  exists lv', after_pass (inf st2) = with_levels (inf st2) lv' /\
    (if n =? 0 then lv' = [] else lv' <> [] /\ max_id (top lv') = length (secs p) /\ Inv (secs p) (prev_id (top lv')) (tl lv') (S j)).
Proof.
  intros ES PR NP R st2.
  assert (EC : current_section (inf st2) = []) by (cbn [st2 upd inf current_section]; now rewrite ES).
    cbn [reached] in R. rewrite app_nil_r, <- leaves_total in R. unfold number_of_passes in NP.
    unfold after_pass. change (levels (inf st2)) with lvo'.
    destruct (Nat.ltb_spec j (leaves p)) as [J|J].
    - destruct R as (-> & pv & rest & -> & PV & IV).
      assert (C0 : cur_id (top (map reset_level (levels (inf st)))) = 0) by (destruct (levels (inf st)); reflexivity).
      rewrite C0 in *. cbn [Nat.add] in *. rewrite Nat.sub_0_r in IV.
      assert (MX : Nat.max (max_id (top (map reset_level (levels (inf st))))) (length (secs p)) = length (secs p)).
      { destruct PR as [[-> ->]|(P1 & P2 & P3)]; [reflexivity|]. destruct (levels (inf st)); [congruence|].
        cbn [map top reset_level max_id] in *. lia. }
      rewrite MX in *. destruct (Inv_complete _ _ _ _ IV) as [IC1 IC2]. rewrite <- leaves_total in *.
      destruct (Nat.eqb_spec n 0) as [N0|N0].
      + rewrite (IC2 ltac:(lia)) in *. cbn [forallb] in IC1. cbn [prev_id max_id].
        rewrite andb_true_r in IC1. rewrite IC1. destruct (Nat.eqb_spec (S j) (leaves p)); [|lia].
        rewrite cleared by exact EC. exists []. auto.
      + exists (mklevel (length (secs p)) pv (length (secs p)) :: rest). split.
        * assert (WL : inf st2 = with_levels (inf st2) (mklevel (length (secs p)) pv (length (secs p)) :: rest)).
          { apply with_levels_same. cbn [st2 upd inf levels]. rewrite C0. cbn [Nat.add]. now rewrite MX. }
          destruct rest as [|]; [|exact WL]. cbn [prev_id max_id]. cbn [forallb] in IC1. rewrite andb_true_r in IC1.
          rewrite IC1. destruct (Nat.eqb_spec (S j) (leaves p)); [lia|exact WL].
        * cbn [top max_id prev_id tl]. repeat split; auto. discriminate.
    - assert (NS : secs p = []).
      { pose proof (total_pos (secs p)) as Q. rewrite <- leaves_total in Q. apply length_zero_iff_nil. lia. }
      destruct R as (-> & ->). rewrite NS. cbn [length meet].
      destruct PR as [[PE ->]|(P1 & P2 & P3)].
      + exists []. destruct (Nat.eqb_spec n 0); [|lia]. split; [|auto]. rewrite PE. cbn [map].
        apply with_levels_same. cbn [st2 upd inf levels]. rewrite NS, PE. reflexivity.
      + rewrite NS in P3. destruct (tl (levels (inf st))) as [|l1 rest] eqn:TL; cbn [Inv] in P3.
        * destruct (levels (inf st)) as [|l0 lv] eqn:LE; [congruence|]. rewrite NS in P2. cbn [top max_id map length] in *.
          destruct P3 as [P3 _]. exists [].
          destruct (Nat.eqb_spec n 0); [|lia]. split; auto.
          cbn [tl] in TL. subst lv.
          cbn [map reset_level prev_id max_id]. destruct (Nat.eqb_spec (prev_id l0) (max_id l0)); [|lia]. now rewrite cleared.
        * destruct P3 as (m & b & ? & _ & P3 & _). destruct m; discriminate.
Qed.

Lemma passes_eq p : regular p -> nesting p <= cf_max_nested cf -> scopes p <= S (cf_max_nested cf) -> capturing p <= cf_max_captures cf ->
  forall n j fuel st cx s, normal st cx s -> length (locations (inf st)) = 1 -> in_check st = false -> enclosing cx = [] -> captured cx = [] ->
  number_of_passes p = j + S n -> n < fuel -> progress p (levels (inf st)) j ->
  let '(ev, s', x) := BP cx p (S n) j s in
  match x with
  | Finished => exists lv lf, passes cf id p fuel j st = Ok (upd st ev s' lv lf None, None)
  | Threw e from gone => exists lv lf h, passes cf id p fuel j st = Ok (upd st ev s' lv lf h, Some e) /\ held_ok st cx ev from gone h
  end.
Proof using verbose.
  intros RG NE SC CA. induction n as [n IH] using lt_wf_ind. intros j fuel st cx s N LO I EN CP NP FU PR.
  destruct fuel as [|fuel]; [lia|]. cbn [passes].
  set (st1 := set_inf st _).
  assert (ES : current_section (inf st) = []) by (apply map_eq_nil with (f := sd_id); rewrite (n_sections _ _ _ _ _ N); auto).
  assert (E1 : st1 = upd st [] s (map reset_level (levels (inf st))) false None).
  { unfold st1, upd. rewrite <- (n_held _ _ _ _ _ N), <- (n_status _ _ _ _ _ N). change (tally []) with (mkcounts 0 0 0).
    rewrite bump_0, plus_0, app_nil_r. destruct st as [[] ? ? ? ? ? ? ? ?]; reflexivity. }
  assert (N1 : normal st1 cx s) by (rewrite E1; apply normal_upd with (s := s); auto).
  assert (SK : seek (Some j) (secs p ++ []) (map reset_level (levels (inf st))) false).
  { rewrite app_nil_r. cbn [seek]. destruct PR as [[-> ->]|(P1 & P2 & P3)].
    - cbn. repeat split; auto; try lia. constructor.
    - destruct (levels (inf st)) as [|l0 lv]; [congruence|]. cbn [map top tl reset_level cur_id prev_id max_id] in *.
      repeat split; auto; try lia. + apply idle_reset. + rewrite Nat.sub_0_r. now apply Inv_reset. }
  assert (D0 : depth (inf st) = 0) by (rewrite (n_depth _ _ _ _ _ N), ES; reflexivity).
  assert (CL : captures (inf st) = []) by (rewrite (n_captures _ _ _ _ _ N); auto).
  assert (G := exec_behave cf verbose id may should p RG j st1 cx s (Some j) [] (map reset_level (levels (inf st))) [] N1 I
    ltac:(cbn [inf st1 set_inf with_levels with_leaf_executed current_section]; rewrite ES; exact NE)
    ltac:(cbn [inf st1 set_inf with_levels with_leaf_executed locations]; rewrite LO; lia)
    ltac:(cbn [inf st1 set_inf with_levels with_leaf_executed captures]; rewrite CL; exact CA) eq_refl
    ltac:(cbn [inf st1 set_inf with_levels with_leaf_executed depth length]; auto) SK).
  unfold good in G. change (leaf_executed (inf st1)) with false in G.
  cbn [behave_passes]. destruct (B j cx (Some j) p s) as [[ev s'] x].
  destruct x as [|e from gone]; cbn [after].
  2:{ destruct G as (lv & lf & h & E & HO & _). rewrite E. cbn [bind]. exists lv, lf, h.
      rewrite E1, upd_upd. split; [reflexivity|]. rewrite E1 in HO. apply held_ok_upd in HO. exact HO. }
  destruct G as (lvo' & lf' & E & R). rewrite E. cbn [bind app].
  rewrite E1, upd_upd. cbn [app].
  set (st2 := upd st ev s' lvo' lf' None).
  destruct (pass_levels p st n j ev s' lvo' lf' ES PR NP R) as (lv' & AP1 & AP2). fold st2 in AP1. rewrite AP1.
  assert (E3 : set_inf st2 (with_levels (inf st2) lv') = upd st ev s' lv' lf' None) by reflexivity.
  rewrite E3. clear E3. cbn [inf upd levels status].
  rewrite is_skipped_intern. destruct (Nat.eqb_spec n 0) as [N0|N0].
  - subst n lv'. cbn [length negb andb behave_passes]. destruct (skipped s'); cbn [Nat.eqb negb andb]; exists [], lf'; rewrite app_nil_r; reflexivity.
  - destruct (Nat.eqb_spec (length lv') 0) as [L0|L0]; [destruct lv'; [tauto|discriminate]|]. cbn [negb andb].
    destruct (skipped s') eqn:SKP; cbn [negb].
    + exists lv', lf'. now rewrite app_nil_r.
    + destruct n as [|n]; [congruence|].
      assert (H := IH n ltac:(lia) (S j) fuel (upd st ev s' lv' lf' None) cx s' (normal_upd _ _ _ _ _ _ _ _ _ N) LO I EN CP
                   ltac:(lia) ltac:(lia) (or_intror AP2)).
      destruct (BP cx p (S n) (S j) s') as [[ev2 s2] x2]. destruct x2 as [|e from gone].
      * destruct H as (lv2 & lf2 & H). exists lv2, lf2. now rewrite H, upd_upd.
      * destruct H as (lv2 & lf2 & h & H & HO). exists lv2, lf2, h. rewrite H, upd_upd. split; [reflexivity|].
        eapply held_ok_upd; eauto.
Qed.

(** ** After the passes *)
Lemma close_all l : forall st,
  close_sections cf l 0 st =
  mkstate (inf st) (held st) (asserts st) (may_fail st) (should_fail st) (in_check st) (unhandled st) (status st)
    (trace st ++ map (fun d => SectionEnded (sd_id d) (is_skipped (status st)) (sd_counts d)) l).
Proof using verbose.
  induction l as [|d l IH]; intros st; cbn [close_sections].
  - cbn [map]. rewrite app_nil_r. destruct st; reflexivity.
  - cbn [length Nat.ltb Nat.leb]. rewrite IH. unfold report_section_ended. rewrite (report_full _ verbose).
    cbn [inf held asserts may_fail should_fail in_check unhandled status trace map]. rewrite <- app_assoc. reflexivity.
Qed.

Definition base (line : nat) (tr : list event) : state :=
  mkstate (mkinfo [] [] 0 false [] [mkloc line TestCaseScope]) None (mkcounts 0 0 0) may should false false ISuccess tr.
Definition top_ctx (line : nat) : context := mkctx [] [] (mkloc line TestCaseScope).

Lemma base_normal line tr : normal (base line tr) (top_ctx line) Success.
Proof. constructor; try reflexivity. exists []. reflexivity. Qed.

Lemma upd_in_check st b ev s lv lf h : set_in_check (upd st ev s lv lf h) b = upd (set_in_check st b) ev s lv lf h.
Proof. reflexivity. Qed.

(** A final assertion, at the location of the test case. *)
Lemma final_assertion line tr ev s lv lf ok what sh :
  let '(ea, sa, _) := assertion id may sh (mkctx [] [] (mkloc line Exact)) ok what s in
  report_assertion cf id ok what (set_in_check (set_should_fail (upd (base line tr) ev s lv lf None) sh) true) =
  Ok (set_in_check (set_should_fail (upd (base line tr) (ev ++ ea) sa lv lf None) sh) true).
Proof using verbose.
  unfold assertion. destruct (skipped s) eqn:SK.
  - destruct s; try discriminate. rewrite report_assertion_skipped by reflexivity. now rewrite app_nil_r.
  - rewrite (report_assertion_eq cf verbose id _ s ok what (inf (upd (base line tr) ev s lv lf None)) (top_ctx line)).
    + f_equal. unfold upd, set_in_check, set_should_fail, assertion_event, base. cbn -[tally plus_counts].
      rewrite tally_app, !plus_0_l, <- app_assoc. reflexivity.
    + reflexivity.
    + intros ->; discriminate.
    + cbn. reflexivity.
    + exists []. reflexivity.
    + reflexivity.
    + reflexivity.
Qed.

(** An exception escaped. *)
Definition escape_report (x : exn) (st : state) : res state :=
  match x with
  | AbortExn => Ok st
  | StdExn what => report_assertion2 cf id false (lit "unexpected std::exception caught; message: ") what st
  | OtherExn => report_assertion cf id false (Message (lit "unexpected unknown exception caught")) st
  end.

Lemma escape_assertion line tr ev s lv lf h from gone ok what :
  held_ok (base line tr) (top_ctx line) ev from gone h ->
  let '(ea, sa, _) := assertion id may should from ok what s in
  exists h', report_assertion cf id ok what (set_unhandled (upd (base line tr) ev s lv lf h) true) =
    Ok (set_unhandled (upd (base line tr) (ev ++ ea) sa lv lf h') true) /\
    match h' with
    | None => gone = []
    | Some i => current_section i = map (fun sc => mksd (fst sc) (fold_right tally1 (snd sc) ea)) gone
    end.
Proof using verbose.
  intros [H1 H2]. unfold assertion. destruct (skipped s) eqn:SK.
  - destruct s; try discriminate. exists h. rewrite report_assertion_skipped by reflexivity. rewrite app_nil_r. split; auto.
    destruct h as [i|]; [|apply H2]. destruct H2 as [H2 _]. rewrite H2. reflexivity.
  - exists (option_map (count_info (tag_of (base line tr) ok)) h). split.
    + rewrite (report_assertion_eq cf verbose id _ s ok what
        (match h with Some i => i | None => inf (upd (base line tr) ev s lv lf h) end) from).
      * f_equal. unfold upd, set_unhandled, assertion_event, base. cbn -[tally plus_counts].
        rewrite tally_app, !plus_0_l, <- app_assoc. destruct from; reflexivity.
      * reflexivity.
      * intros ->; discriminate.
      * cbn. reflexivity.
      * destruct h as [i|]; [apply H2|]. destruct H2 as [_ ->]. exists []. reflexivity.
      * destruct h as [i|]; [|destruct H2 as [_ ->]; reflexivity]. destruct H2 as [H2 _]. rewrite H2, H1. cbn.
        rewrite map_map. reflexivity.
      * destruct h as [i|]; [apply H2|destruct H2 as [_ ->]; reflexivity].
    + destruct h as [i|]; [|apply H2]. destruct H2 as [H2 _]. cbn [option_map]. unfold count_info.
      cbn [current_section with_current_section]. rewrite H2. cbn [base inf current_section bump map app].
      rewrite map_map. apply map_ext. intros [a c]. unfold count_section. cbn [fst snd sd_id sd_counts]. f_equal.
      rewrite <- (tally_assertion id (base line tr) from ok what). rewrite <- tally_from. cbn [fold_right].
      unfold assertion_event. cbn [base should_fail may_fail]. reflexivity.
Qed.

Lemma escape_eq line tr ev s lv lf h x from gone :
  held_ok (base line tr) (top_ctx line) ev from gone h ->
  let '(e2, s2, _) := escaped id may should mml line (Threw x from gone) s in
  exists st3, escape_report x (set_unhandled (upd (base line tr) ev s lv lf h) true) = Ok st3 /\ unhandled st3 = true /\
    set_unhandled (notify_exception_handled cf st3) false = upd (base line tr) (ev ++ e2) s2 lv lf None.
Proof using verbose.
  intros HO. unfold escaped.
  assert (NT : forall ea sa h', match h' with
    | None => gone = []
    | Some i => current_section i = map (fun sc => mksd (fst sc) (fold_right tally1 (snd sc) ea)) gone
    end -> set_unhandled (notify_exception_handled cf (set_unhandled (upd (base line tr) (ev ++ ea) sa lv lf h') true)) false =
    upd (base line tr) (ev ++ ea ++ map (fun sc => SectionEnded (fst sc) (skipped sa) (fold_right tally1 (snd sc) ea)) (rev gone)) sa lv lf None).
  { intros ea sa h' H. unfold notify_exception_handled. cbn [held set_unhandled upd].
    destruct h' as [i|].
    - rewrite close_all, H, <- map_rev, map_map. unfold upd, set_held, set_unhandled. cbn -[tally plus_counts]. rewrite is_skipped_intern.
      assert (T : forall l : list (section_id * counts), tally (map (fun x : section_id * counts => SectionEnded (fst x) (skipped sa) (fold_right tally1 (snd x) ea)) l : list event) = mkcounts 0 0 0).
      { induction l as [|y l IH]; [reflexivity|]. cbn. exact IH. }
      rewrite !tally_app, T, plus_0, <- !app_assoc. reflexivity.
    - subst gone. cbn [rev map]. rewrite app_nil_r. reflexivity. }
  destruct x as [|what|]; cbn [escape_report].
  - eexists. split; [reflexivity|]. split; [reflexivity|]. specialize (NT [] s h). cbn [app] in NT. rewrite app_nil_r in NT.
    apply NT. destruct HO as [_ HO]. destruct h as [i|]; [|apply HO]. destruct HO as [HO _]. rewrite HO. reflexivity.
  - rewrite report_assertion2_eq.
    pose proof (escape_assertion line tr ev s lv lf h from gone false (Message (fit mml (quote "unexpected std::exception caught; message: " ++ what))) HO) as EA.
    destruct (assertion id may should from false _ s) as [[ea sa] xa]. destruct EA as (h' & EA & H).
    eexists. split; [exact EA|]. split; [reflexivity|]. now apply NT.
  - pose proof (escape_assertion line tr ev s lv lf h from gone false (Message (quote "unexpected unknown exception caught")) HO) as EA.
    destruct (assertion id may should from false _ s) as [[ea sa] xa]. destruct EA as (h' & EA & H).
    eexists. split; [exact EA|]. split; [reflexivity|]. now apply NT.
Qed.

Lemma convert_intern s : convert_to_public_state (intern s) = Ok s.
Proof. destruct s; reflexivity. Qed.

Definition finish (line : nat) (st5 : state) : res state :=
  do st6 <-
    (if should_fail st5 then
       do st' <- report_assertion cf id (match status st5 with IAllowedFail => true | _ => false end)
                   (Message (lit "expected test to fail"))
                   (set_in_check (set_should_fail st5 false) true) ;;
       Ok (set_should_fail (set_in_check st' false) true)
     else Ok st5) ;;
  do s <- convert_to_public_state (status st6) ;;
  Ok (report cf High st6 (TestCaseEnded id line (asserts st6) s)).

Lemma run_eq line p fuel tr0 tags :
  id_tags id = tags -> fail_flags (cf_max_tag_length cf) tags = Ok (may, should) ->
  regular p -> nesting p <= cf_max_nested cf -> scopes p <= S (cf_max_nested cf) -> capturing p <= cf_max_captures cf -> number_of_passes p <= fuel ->
  let '(ev, s) := behave_case id may should mcl mml line p in
  exists st, run cf fuel (mktest id line p) tr0 = Ok st /\ trace st = tr0 ++ ev /\ status st = intern s /\ asserts st = tally ev.
Proof using verbose.
  intros TG FF RG NE SC CA NP. unfold run. cbn [t_id t_line t_body]. rewrite TG, FF. cbn [bind].
  rewrite (report_full _ verbose). unfold push_location. cbn [inf set_status locations].
  rewrite push_back_ok by (simpl; lia). cbn [bind app].
  unfold set_inf. cbn [inf set_status with_locations current_section levels depth leaf_executed captures locations held asserts
    may_fail should_fail in_check unhandled status trace].
  change (mkstate _ _ _ _ _ _ _ _ (tr0 ++ [TestCaseStarted id line])) with (base line (tr0 ++ [TestCaseStarted id line])).
  set (tr := tr0 ++ [TestCaseStarted id line]).
  unfold behave_case. change (mkctx [] [] (mkloc line TestCaseScope)) with (top_ctx line).
  assert (PE := passes_eq p RG NE SC CA (number_of_passes p - 1) 0 fuel (base line tr) (top_ctx line) Success (base_normal line tr)
    eq_refl eq_refl eq_refl eq_refl ltac:(unfold number_of_passes; lia) ltac:(unfold number_of_passes in *; lia) ltac:(left; auto)).
  replace (S (number_of_passes p - 1)) with (number_of_passes p) in PE by (unfold number_of_passes; lia).
  destruct (BP (top_ctx line) p (number_of_passes p) 0 Success) as [[e1 s1] x].
  assert (ST5 : exists lv lf, let '(e2, s2, _) := escaped id may should mml line x s1 in
    forall (A : Type) (f : state -> res A),
    (do (st2, x0) <- passes cf id p fuel 0 (base line tr) ;;
     do st3 <- (match x0 with
     | None =>
       do st' <- report_assertion cf id true (Message (lit "no exception caught")) (set_in_check st2 true) ;;
       Ok (set_in_check st' false)
     | Some AbortExn => Ok (set_unhandled st2 true)
     | Some (StdExn what) =>
       report_assertion2 cf id false (lit "unexpected std::exception caught; message: ") what (set_unhandled st2 true)
     | Some OtherExn =>
       report_assertion cf id false (Message (lit "unexpected unknown exception caught")) (set_unhandled st2 true)
     end) ;; f (set_unhandled (if unhandled st3 then notify_exception_handled cf st3 else st3) false)) =
    f (upd (base line tr) (e1 ++ e2) s2 lv lf None)).
  { destruct x as [|y from gone].
    - destruct PE as (lv & lf & PE). exists lv, lf. cbn [escaped].
      pose proof (final_assertion line tr e1 s1 lv lf true (Message (quote "no exception caught")) should) as FA.
      destruct (assertion _ _ _ _ _ _ _) as [[ea sa] xa]. intros A f. rewrite PE. cbn [bind].
      change (set_should_fail (upd (base line tr) e1 s1 lv lf None) should) with (upd (base line tr) e1 s1 lv lf None) in FA.
      change (lit "no exception caught") with (quote "no exception caught"). rewrite FA. reflexivity.
    - destruct PE as (lv & lf & h & PE & HO). exists lv, lf.
      pose proof (escape_eq line tr e1 s1 lv lf h y from gone HO) as EE.
      destruct (escaped id may should mml line (Threw y from gone) s1) as [[e2 s2] x2]. destruct EE as (st3 & E3 & U3 & EE).
      intros A f. rewrite PE. cbn [bind].
      replace (match y with AbortExn => _ | StdExn _ => _ | OtherExn => _ end) with (Ok st3) by (rewrite <- E3; destruct y; reflexivity).
      cbn [bind]. rewrite U3, EE. reflexivity. }
  destruct ST5 as (lv & lf & ST5). destruct (escaped id may should mml line x s1) as [[e2 s2] x2].
  set (st5 := upd (base line tr) (e1 ++ e2) s2 lv lf None) in ST5.
  destruct (if should then _ else _) as [[e3 s3] x3] eqn:E3.
  enough (H : exists st, finish line st5 = Ok st /\
    trace st = tr0 ++ [TestCaseStarted id line] ++ e1 ++ e2 ++ e3 ++ [TestCaseEnded id line (tally (e1 ++ e2 ++ e3)) s3] /\
    status st = intern s3 /\
    asserts st = tally ([TestCaseStarted id line] ++ e1 ++ e2 ++ e3 ++ [TestCaseEnded id line (tally (e1 ++ e2 ++ e3)) s3])).
  { destruct H as (st & H & R). exists st. split; [|exact R]. rewrite <- H. exact (ST5 _ (finish line)). }
  clear ST5 PE. unfold finish, st5. cbn [upd should_fail base].
  destruct should.
  - pose proof (final_assertion line tr (e1 ++ e2) s2 lv lf (match s2 with AllowedFail => true | _ => false end)
      (Message (quote "expected test to fail")) false) as FA. rewrite E3 in FA.
    replace (match status _ with IAllowedFail => true | _ => false end) with (match s2 with AllowedFail => true | _ => false end)
      by (destruct s2; reflexivity).
    change (lit "expected test to fail") with (quote "expected test to fail").
    rewrite FA. cbn [bind].
    cbn [status set_should_fail set_in_check upd]. rewrite convert_intern. cbn [bind].
    eexists. split; [reflexivity|]. rewrite (report_full _ verbose). cbn [trace status asserts]. split; [|split].
    + cbn -[tally plus_counts]. unfold tr. rewrite plus_0_l, <- !app_assoc. reflexivity.
    + reflexivity.
    + cbn -[tally plus_counts]. rewrite plus_0_l. change (?x :: ?l) with ([x] ++ l). rewrite !tally_app.
      cbn [tally fold_right tally1]. rewrite plus_0_l, plus_0, !plus_assoc. reflexivity.
  - cbn [bind upd status]. rewrite convert_intern. cbn [bind]. injection E3 as <- <- <-.
    eexists. split; [reflexivity|]. rewrite (report_full _ verbose). cbn [trace status asserts]. split; [|split].
    + cbn -[tally plus_counts]. unfold tr. rewrite plus_0_l, !app_nil_r, <- !app_assoc. reflexivity.
    + reflexivity.
    + cbn -[tally plus_counts]. rewrite plus_0_l, app_nil_r. change (TestCaseStarted id line :: ?l) with ([TestCaseStarted id line] ++ l). rewrite !tally_app.
      change (tally [TestCaseStarted id line]) with (mkcounts 0 0 0).
      change (tally [TestCaseEnded id line (plus_counts (tally e1) (tally e2)) s2]) with (mkcounts 0 0 0).
      rewrite plus_0_l, plus_0. reflexivity.
Qed.
End Case.
