(** Within the limits, no assertion of the framework fails, whatever the test body (C25). *)
From Verif.Spec Require Import TextSpec FilterSpec Events RunSpec TreeSpec.
From Verif.Model Require Import Base Vector StringUtil Filter Run.
From Verif.Proofs Require Import Lists AppendProofs LevelProofs RunProofs InvariantProofs ScopeProofs.

Section Safety.
Variable cf : config.
Variable id : test_id.
Notation maxn := (cf_max_nested cf).

Definition held_safe (st : state) := forall h, held st = Some h -> locations h <> [].
Definition safe (st : state) := depth (inf st) <= length (levels (inf st)) <= maxn /\ locations (inf st) <> [] /\ held_safe st /\
  length (current_section (inf st)) = depth (inf st).

Lemma held_report v st e : held (report cf v st e) = held st.
Proof. unfold report. now destruct (_ <=? _). Qed.
Lemma safe_inf_held st st' : inf st' = inf st -> held st' = held st -> safe st -> safe st'.
Proof. unfold safe, held_safe. now intros -> ->. Qed.
Lemma safe_report v st e : safe st -> safe (report cf v st e).
Proof. apply safe_inf_held; [apply inf_report|apply held_report]. Qed.
Lemma safe_notify st : safe st -> safe (notify_exception_handled cf st).
Proof.
  intros (H1 & H2 & H3 & H4). unfold safe. rewrite inf_notify. repeat split; auto; try apply H1.
  unfold held_safe, notify_exception_handled. destruct (held st) eqn:E; [discriminate|]. rewrite E. discriminate.
Qed.
Lemma safe_hold u st : safe st -> safe (hold u st).
Proof.
  intros (H1 & H2 & H3 & H4). unfold safe. rewrite inf_hold. repeat split; auto; try apply H1.
  unfold hold. unfold held_safe in *. destruct (held st) eqn:E; [now rewrite E|]. destruct u; [|now rewrite E].
  cbn. now intros h [= <-].
Qed.
Lemma safe_raise st s : safe st -> safe (raise_state st s).
Proof. apply safe_inf_held; unfold raise_state; now destruct (_ <? _). Qed.

Lemma safe_register ok st : safe st -> safe (register_assertion ok st).
Proof.
  intros (H1 & H2 & H3 & H4). unfold register_assertion. cbn [held set_inf set_asserts].
  assert (X : forall v, safe (match held st with
    | Some h => set_held (set_inf (set_asserts st (count v (asserts st))) (count_info v (inf st))) (Some (count_info v h))
    | None => set_inf (set_asserts st (count v (asserts st))) (count_info v (inf st)) end)).
  { intros v. unfold held_safe in H3. destruct (held st) as [h|] eqn:E; unfold safe, held_safe; cbn; rewrite map_length; repeat split; auto; try apply H1.
    - intros h' [= <-]. cbn. auto.
    - now rewrite E. }
  destruct ok; [|destruct (_ || _)]; cbn [count]; try apply safe_raise; apply X.
Qed.

Lemma back_ok {A} (l : list A) : l <> [] -> exists x, back l = Ok x.
Proof. unfold back. destruct l as [|x l] using rev_ind; [congruence|]. rewrite rev_app_distr. cbn. eauto. Qed.

Lemma safe_assertion ok data st : safe st -> exists st', report_assertion cf id ok data st = Ok st' /\ safe st'.
Proof.
  intros H. unfold report_assertion. destruct (is_skipped _); [eauto|].
  apply (safe_register ok) in H. revert H. generalize (register_assertion ok st) as z. intros z H.
  set (i := match held z with Some h => if unhandled z then h else inf z | None => inf z end).
  assert (L : locations i <> []).
  { unfold i. destruct H as (H1 & H2 & H3 & H4). unfold held_safe in H3. destruct (held z); auto. destruct (unhandled z); auto. }
  destruct (back_ok _ L) as [l ->]. cbn [bind]. eexists. split; [reflexivity|]. destruct ok; now apply safe_report.
Qed.
Lemma safe_assertion2 ok a b st : safe st -> exists st', report_assertion2 cf id ok a b st = Ok st' /\ safe st'.
Proof. rewrite report_assertion2_eq. apply safe_assertion. Qed.

Lemma safe_skipped m st : safe st -> exists st', report_skipped cf id m st = Ok st' /\ safe st'.
Proof.
  intros H. unfold report_skipped. apply (safe_raise _ ISkipped) in H. destruct (back_ok (locations (inf (raise_state st ISkipped)))) as [l ->]; [exact (proj1 (proj2 H))|].
  cbn [bind]. eexists. split; [reflexivity|]. now apply safe_report.
Qed.

Lemma safe_conclude pass w abort x st : safe st -> exists st' y, conclude cf id pass w abort x st = Ok (st', y) /\ safe st'.
Proof.
  intros H. unfold conclude.
  destruct w as [what outcome|type accepts|type accepts matches describe|source]; destruct x as [e|];
    repeat match goal with
    | |- context[if accepts ?e then _ else _] => destruct (accepts e)
    | |- context[if matches ?e then _ else _] => destruct (matches e)
    | |- context[match ?e with AbortExn => _ | StdExn _ => _ | OtherExn => _ end] => destruct e
    end;
    try match goal with
    | |- context[report_assertion cf id ?a ?b ?c] => destruct (safe_assertion a b c H) as (st1 & -> & S1)
    | |- context[report_assertion2 cf id ?a ?b ?d ?c] => destruct (safe_assertion2 a b d c H) as (st1 & -> & S1)
    end; cbn [bind]; do 2 eexists; (split; [reflexivity|]); auto using safe_notify.
Qed.

Lemma safe_push l st : safe st -> length (locations (inf st)) < maxn + 2 -> exists st', push_location cf st l = Ok st' /\ safe st'.
Proof.
  intros (H1 & H2 & H3 & H4) L. unfold push_location, push_back. destruct (Nat.eqb_spec (length (locations (inf st))) (maxn + 2)); [lia|].
  cbn [bind]. eexists. split; [reflexivity|]. unfold safe, held_safe. cbn. repeat split; auto; try apply H1. now destruct (locations (inf st)).
Qed.
Lemma safe_pop st l x : safe st -> locations (inf st) = l ++ [x] -> l <> [] -> exists st', pop_location st = Ok st' /\ safe st'.
Proof.
  intros (H1 & H2 & H3 & H4) L N. unfold pop_location, pop_back. rewrite L. destruct (l ++ [x]) eqn:E; [now destruct l|]. rewrite <- E, removelast_last.
  cbn [bind]. eexists. split; [reflexivity|]. unfold safe, held_safe. cbn. repeat split; auto; apply H1.
Qed.

Lemma safe_check_begin line st : safe st -> length (locations (inf st)) < maxn + 2 -> exists st', check_begin cf line st = Ok st' /\ safe st'.
Proof.
  intros H L. unfold check_begin. destruct (safe_push (mkloc line InCheck) (notify_exception_handled cf st)) as (st1 & -> & S1).
  - now apply safe_notify.
  - now rewrite inf_notify.
  - cbn [bind]. eauto.
Qed.
Lemma safe_check_end u st l x : safe st -> locations (inf st) = l ++ [x] -> l <> [] -> exists st', check_end u st = Ok st' /\ safe st'.
Proof.
  intros H L N. unfold check_end. apply (safe_pop _ l x); auto. now apply safe_hold. now rewrite inf_hold.
Qed.

Lemma nth_ok {A} (l : list A) i : i < length l -> exists x, nth_error l i = Some x.
Proof. intros H. destruct (nth_error l i) eqn:E; eauto. apply nth_error_None in E. lia. Qed.

Lemma put_length {A} (l l' : list A) i x : put_index l i x = Ok l' -> length l' = length l.
Proof.
  unfold put_index. destruct (Nat.ltb_spec i (length l)); [|discriminate]. set (t := skipn (S i) l). intros [= <-]. subst t.
  rewrite app_length. cbn [length]. rewrite firstn_length, skipn_length. lia.
Qed.
Lemma put_ok {A} (l : list A) i x : i < length l -> exists l', put_index l i x = Ok l' /\ length l' = length l.
Proof.
  intros H. destruct (put_index l i x) eqn:E; [exists a; split; auto; eapply put_length; eauto|].
  unfold put_index in E. destruct (Nat.ltb_spec i (length l)); [discriminate|lia].
Qed.

Lemma safe_section_enter s st : safe st -> depth (inf st) < maxn -> length (locations (inf st)) < maxn + 2 ->
  exists st' e, section_enter cf s st = Ok (st', e) /\
    ((e = true /\ safe st') \/
     (e = false /\ held_safe st' /\ S (depth (inf st)) <= length (levels (inf st')) <= maxn /\ length (current_section (inf st')) = depth (inf st))).
Proof.
  intros H D L. apply safe_notify in H. unfold section_enter. rewrite inf_notify in *.
  destruct H as (H1 & H2 & H3 & H4). rewrite inf_notify in *.
  assert (X : exists lv, (if length (levels (inf st)) <=? depth (inf st)
      then if maxn <=? depth (inf st) then Err Assert else push_back maxn (levels (inf st)) (mklevel 0 0 0)
      else Ok (levels (inf st))) = Ok lv /\ S (depth (inf st)) <= length lv <= maxn).
  { destruct (Nat.leb_spec (length (levels (inf st))) (depth (inf st))).
    - destruct (Nat.leb_spec maxn (depth (inf st))); [lia|]. unfold push_back.
      destruct (Nat.eqb_spec (length (levels (inf st))) maxn); [lia|]. eexists. split; [reflexivity|]. rewrite app_length. cbn. lia.
    - eexists. split; [reflexivity|]. lia. }
  destruct X as (lv & -> & X1). cbn [bind]. replace (S (depth (inf st)) - 1) with (depth (inf st)) by lia.
  destruct (nth_ok lv (depth (inf st))) as [lev E]; [lia|]. unfold at_index. rewrite E. cbn [bind].
  destruct (put_ok lv (depth (inf st)) (mklevel (S (cur_id lev)) (prev_id lev) (if max_id lev <? S (cur_id lev) then S (cur_id lev) else max_id lev)))
    as (lv1 & -> & L1); [lia|]. cbn [bind].
  assert (N : forall y : bool, exists st' e, Ok (set_inf (notify_exception_handled cf st) (with_depth (with_levels (inf st) lv1) (S (depth (inf st)))), false) = Ok (st', e) /\
    ((e = true /\ safe st') \/
     (e = false /\ held_safe st' /\ S (depth (inf st)) <= length (levels (inf st')) <= maxn /\ length (current_section (inf st')) = depth (inf st)))).
  { intros _. do 2 eexists. split; [reflexivity|]. right. repeat split; auto; cbn; lia. }
  destruct (leaf_executed _); [exact (N true)|]. destruct (negb _ && negb _); [exact (N true)|].
  match goal with |- context[put_index lv1 ?i ?x] => destruct (put_ok lv1 i x) as (lv2 & -> & L2); [lia|] end. cbn [bind].
  unfold push_back at 1. cbn [inf set_inf with_depth with_levels current_section].
  destruct (Nat.eqb_spec (length (current_section (inf st))) maxn); [lia|]. cbn [bind].
  match goal with |- context[push_location cf ?x ?l] => destruct (safe_push l x) as (st3 & -> & S3) end.
  - unfold safe. cbn. rewrite app_length. cbn. repeat split; auto; try lia. 
  - cbn. exact L.
  - cbn [bind]. do 2 eexists. split; [reflexivity|]. left. split; [reflexivity|]. destruct (_ =? _); auto. now apply safe_report.
Qed.

Lemma safe_section_exit u st n l x d : safe st -> scope st = (n, captures (inf st), l ++ [x], S d) -> l <> [] ->
  exists st', section_exit cf true u st = Ok st' /\ safe st'.
Proof.
  intros H SC N. unfold section_exit. unfold scope in SC. injection SC as _ SC2 SC3.
  destruct (safe_pop (hold u st) l x) as (st1 & E1 & S1); auto; [now apply safe_hold|now rewrite inf_hold|].
  rewrite E1. cbn [bind].
  assert (D1 : depth (inf st1) = S d).
  { unfold pop_location in E1. bstep E1 as ls P. injection E1 as <-. cbn. now rewrite inf_hold. }
  destruct S1 as (H1 & H2 & H3 & H4).
  assert (X : exists i2 last, (if depth (inf st1) =? length (levels (inf st1)) then Ok (with_leaf_executed (inf st1) true, true)
          else if forallb (fun child => prev_id child =? max_id child) (skipn (depth (inf st1)) (levels (inf st1)))
          then do lv <- pop_back (levels (inf st1)) ;; Ok (with_levels (inf st1) lv, true)
          else Ok (inf st1, false)) = Ok (i2, last) /\ S d <= length (levels i2) <= maxn /\ locations i2 <> [] /\ current_section i2 = current_section (inf st1) /\ depth i2 = S d).
  { destruct (Nat.eqb_spec (depth (inf st1)) (length (levels (inf st1)))) as [Q|Q].
    - do 2 eexists. split; [reflexivity|]. cbn. repeat split; auto; lia.
    - destruct (forallb _ _).
      + unfold pop_back. destruct (levels (inf st1)) as [|a lv] eqn:LV using rev_ind; [cbn in *; lia|].
        destruct (lv ++ [a]) eqn:F; [now destruct lv|]. rewrite <- F, removelast_last. cbn [bind]. do 2 eexists. split; [reflexivity|].
        rewrite <- F in H1, Q. rewrite app_length in *. cbn in *. repeat split; auto; lia.
      + do 2 eexists. split; [reflexivity|]. repeat split; auto; lia. }
  destruct X as (i2 & last & -> & X1 & X2 & X3 & X4). cbn [bind].
  assert (CS : current_section i2 <> []) by (rewrite X3; intros Q; rewrite Q in H4; cbn in H4; lia).
  assert (Y : exists st3, (if last && negb u then do s <- back (current_section (inf (set_inf st1 i2))) ;; Ok (report_section_ended cf s (set_inf st1 i2))
      else Ok (set_inf st1 i2)) = Ok st3 /\ inf st3 = i2 /\ held st3 = held st1).
  { destruct (last && negb u); [|eauto]. destruct (back_ok (current_section (inf (set_inf st1 i2))) CS) as [s ->]. cbn [bind].
    eexists. split; [reflexivity|]. unfold report_section_ended. rewrite inf_report, held_report. auto. }
  destruct Y as (st3 & -> & I3 & K3). cbn [bind].
  unfold pop_back. rewrite I3. destruct (current_section i2) as [|a cs] eqn:F using rev_ind; [congruence|].
  destruct (cs ++ [a]) eqn:G; [now destruct cs|]. rewrite <- G, removelast_last. cbn [bind inf set_inf with_current_section depth].
  rewrite X4, csub_ok by lia. cbn [bind]. eexists. split; [reflexivity|].
  replace (S d - 1) with d by lia.
  assert (LC : length cs = d) by (apply (f_equal (@length _)) in G; rewrite X3, H4, D1, app_length in G; cbn in G; lia).
  unfold safe, held_safe. cbn. rewrite K3. repeat split; auto; lia.
Qed.

Lemma safe_section_skip st d : held_safe st -> locations (inf st) <> [] -> depth (inf st) = S d -> S d <= length (levels (inf st)) <= maxn ->
  length (current_section (inf st)) = d -> exists st', section_exit cf false false st = Ok st' /\ safe st'.
Proof.
  intros H1 H2 H3 H4 H5. unfold section_exit. cbn [bind]. rewrite H3. cbn [csub Nat.leb bind]. eexists. split; [reflexivity|].
  unfold safe. cbn. repeat split; auto; lia.
Qed.

Lemma safe_add_captures l : forall st, safe st -> length (captures (inf st)) + length l <= cf_max_captures cf ->
  exists st', add_captures cf l st = Ok st' /\ safe st'.
Proof.
  induction l as [|c l IH]; intros st H L; cbn [add_captures]; [eauto|].
  unfold add_capture. cbn [length] in L. destruct (Nat.eqb_spec (length (captures (inf st))) (cf_max_captures cf)); [lia|].
  destruct (append_or_truncate_spec (new_string (cf_max_capture_length cf)) c (wf_new _)) as (m & E1 & _). rewrite E1. cbn [bind].
  apply IH.
  - apply safe_notify in H. exact H.
  - cbn. rewrite inf_notify, app_length. cbn. lia.
Qed.

Lemma scope_lens st st' : scope st' = scope st -> depth (inf st') = depth (inf st) /\ locations (inf st') = locations (inf st) /\ captures (inf st') = captures (inf st).
Proof. unfold scope. intros [= _ -> -> ->]. auto. Qed.

Lemma safe_exec pass p : forall st, safe st -> depth (inf st) + nesting p <= maxn ->
  length (locations (inf st)) + scopes p <= maxn + 2 -> length (captures (inf st)) + capturing p <= cf_max_captures cf ->
  exists st' x, exec cf id pass p st = Ok (st', x) /\ safe st'.
Proof.
  induction p as [|n k IHp|when y k IHp|line w abort e IHe k IHp|line message abort k IHp|sec b IHp1 k IHp2|texts b IHp1 k IHp2|accepts notify b IHp1 k IHp2];
    intros st S0 D L C; cbn [nesting scopes capturing] in *; cbn [exec].
  - eauto.
  - apply IHp; rewrite ?inf_report; auto using safe_report.
  - destruct (when pass); eauto.
  - destruct (safe_check_begin line st S0) as (st1 & E1 & S1); [lia|]. rewrite E1. cbn [bind].
    apply scope_check_begin in E1. unfold scope, names, locs in E1. injection E1 as _ EC EL ED.
    destruct (IHe st1 S1) as (st2 & x & E2 & S2); try (rewrite ?ED, ?EL, ?EC, ?app_length; cbn [length]; lia). rewrite E2. cbn [bind].
    apply scope_exec, scope_lens in E2. destruct E2 as (D2 & L2 & C2).
    destruct (safe_conclude pass w abort x st2 S2) as (st3 & z & E3 & S3). rewrite E3. cbn [bind].
    apply scope_conclude, scope_lens in E3. destruct E3 as (D3 & L3 & C3). cbn [fst] in *.
    destruct (safe_check_end (is_some z) st3 (locations (inf st)) (mkloc line InCheck) S3) as (st4 & E4 & S4); [congruence|exact (proj1 (proj2 S0))|].
    rewrite E4. cbn [bind]. destruct z; [eauto|].
    eapply scope_check_end in E4; [|unfold scope; rewrite L3, L2, EL; reflexivity].
    unfold scope in E4. injection E4 as _ C4 L4 D4. apply IHp; auto; rewrite ?D4, ?L4, ?C4, ?D3, ?D2, ?ED, ?C3, ?C2, ?EC; lia.
  - destruct (safe_check_begin line st S0) as (st1 & E1 & S1); [lia|]. rewrite E1. cbn [bind].
    apply scope_check_begin in E1. unfold scope, names, locs in E1. injection E1 as _ EC EL ED.
    destruct (safe_skipped (message pass) st1 S1) as (st3 & E3 & S3). rewrite E3. cbn [bind].
    apply scope_skipped, scope_lens in E3. destruct E3 as (D3 & L3 & C3).
    destruct (safe_check_end abort st3 (locations (inf st)) (mkloc line InCheck) S3) as (st4 & E4 & S4); [congruence|exact (proj1 (proj2 S0))|].
    rewrite E4. cbn [bind]. destruct abort; [eauto|].
    eapply scope_check_end in E4; [|unfold scope; rewrite L3, EL; reflexivity].
    unfold scope in E4. injection E4 as _ C4 L4 D4. apply IHp; auto; rewrite ?D4, ?L4, ?C4, ?D3, ?ED, ?C3, ?EC; lia.
  - destruct (safe_section_enter sec st S0) as (st1 & entered & E1 & S1); [lia|lia|]. rewrite E1. cbn [bind].
    apply scope_section_enter in E1. destruct S1 as [[-> S1]|(-> & S1 & S2 & S3)]; unfold scope, names, locs in E1; injection E1 as EN EC EL ED.
    + destruct (IHp1 st1 S1) as (st2 & x & E2 & S2); try (rewrite ?ED, ?EL, ?EC, ?app_length; cbn [length]; lia). rewrite E2. cbn [bind].
      apply scope_exec in E2. pose proof (scope_lens _ _ E2) as (D2 & L2 & C2).
      assert (SC : scope st2 = (map sd_id (current_section (inf st)) ++ [sec], captures (inf st2), locations (inf st) ++ [mkloc (sec_line sec) SectionScope], S (depth (inf st)))).
      { rewrite E2. unfold scope. rewrite EN, EL, ED, C2. reflexivity. }
      destruct (safe_section_exit (is_some x) st2 _ _ _ _ S2 SC) as (st3 & E3 & S3); [exact (proj1 (proj2 S0))|]. rewrite E3. cbn [bind].
      destruct x; [eauto|]. eapply (scope_section_exit cf true) in E3; [|exact SC]. unfold scope in E3. injection E3 as _ C4 L4 D4.
      apply IHp2; auto; rewrite ?D4, ?L4, ?C4, ?C2, ?EC; lia.
    + destruct (safe_section_skip st1 (depth (inf st)) S1) as (st3 & E3 & S4); auto; [rewrite EL; exact (proj1 (proj2 S0))|]. rewrite E3. cbn [bind].
      apply (scope_section_exit cf false false _ _ (map sd_id (current_section (inf st))) sec (captures (inf st)) (locations (inf st)) (mkloc 0 Exact) (depth (inf st))) in E3;
        [|unfold scope; rewrite EN, EC, EL, ED; reflexivity].
      unfold scope in E3. injection E3 as _ C4 L4 D4. apply IHp2; auto; rewrite ?D4, ?L4, ?C4; lia.
  - destruct (safe_add_captures (map (fun l => l pass) texts) st S0) as (st1 & E1 & S1); [rewrite map_length; unfold text, str in *; lia|]. rewrite E1. cbn [bind].
    apply scope_add_captures in E1. unfold scope, names, locs in E1. injection E1 as EN EC EL ED.
    destruct (IHp1 st1 S1) as (st2 & x & E2 & S2); try (rewrite ?ED, ?EL, ?EC, ?app_length, ?map_length; unfold text, str in *; lia). rewrite E2. cbn [bind].
    apply scope_exec in E2. pose proof (scope_lens _ _ E2) as (D2 & L2 & C2).
    unfold capture_end. rewrite inf_hold, C2, EC, app_length, !map_length.
    rewrite csub_ok by (unfold text, str in *; lia). cbn [bind].
    rewrite Nat.add_sub, firstn_app, firstn_all, Nat.sub_diag, firstn_O, app_nil_r.
    assert (S3 : safe (set_inf (hold (is_some x) st2) (with_captures (inf st2) (captures (inf st))))).
    { apply (safe_hold (is_some x)) in S2. destruct S2 as (A1 & A2 & A3 & A4). rewrite inf_hold in *. unfold safe. cbn. auto. }
    destruct x; [eauto|]. apply IHp2; auto; cbn; rewrite ?D2, ?L2, ?ED, ?EL; lia.
  - destruct (IHp1 st S0) as (st1 & x & E1 & S1); [lia|lia|lia|]. rewrite E1. cbn [bind].
    apply scope_exec, scope_lens in E1. destruct E1 as (D1 & L1 & C1).
    destruct x as [e|]; [|apply IHp2; auto; rewrite ?D1, ?L1, ?C1; lia].
    destruct (accepts e); [|eauto]. apply IHp2.
    + destruct notify; auto using safe_notify.
    + destruct notify; rewrite ?inf_notify, D1; lia.
    + destruct notify; rewrite ?inf_notify, L1; lia.
    + destruct notify; rewrite ?inf_notify, C1; lia.
Qed.

(** The test case never goes back to the state before its run. *)
Definition ran (st : state) : Prop := status st <> INotRun.
Lemma ran_status st st' : status st' = status st -> ran st -> ran st'.
Proof. unfold ran. now intros ->. Qed.
Lemma status_report v st e : status (report cf v st e) = status st.
Proof. unfold report. now destruct (_ <=? _). Qed.
Lemma status_close l n : forall st, status (close_sections cf l n st) = status st.
Proof. induction l as [|s l IH]; intros st; cbn [close_sections]; auto. destruct (_ <? _); auto. rewrite IH. apply status_report. Qed.
Lemma status_notify st : status (notify_exception_handled cf st) = status st.
Proof. unfold notify_exception_handled. destruct (held st); auto. apply status_close. Qed.
Lemma status_hold u st : status (hold u st) = status st.
Proof. unfold hold. destruct (held st); auto. now destruct u. Qed.
Lemma ran_raise st s : ran st -> ran (raise_state st s).
Proof. unfold ran, raise_state. destruct (Nat.ltb_spec (irank (status st)) (irank s)); auto. cbn. intros _ ->. cbn in *. lia. Qed.
Lemma ran_register ok st : ran st -> ran (register_assertion ok st).
Proof.
  intros H. unfold register_assertion. cbn [held set_inf set_asserts].
  assert (X : forall v, ran (match held st with
    | Some h => set_held (set_inf (set_asserts st (count v (asserts st))) (count_info v (inf st))) (Some (count_info v h))
    | None => set_inf (set_asserts st (count v (asserts st))) (count_info v (inf st)) end)) by (intros; destruct (held st); exact H).
  destruct ok; [|destruct (_ || _)]; cbn [count]; try apply ran_raise; apply X.
Qed.
Lemma ran_assertion ok data st st' : ran st -> report_assertion cf id ok data st = Ok st' -> ran st'.
Proof.
  intros R. unfold report_assertion. intros H. destruct (is_skipped _); [now injection H as <-|]. bstep H as l E. injection H as <-.
  apply (ran_register ok) in R. destruct ok; (eapply ran_status; [apply status_report|exact R]).
Qed.
Lemma ran_assertion2 ok a b st st' : ran st -> report_assertion2 cf id ok a b st = Ok st' -> ran st'.
Proof. rewrite report_assertion2_eq. apply ran_assertion. Qed.
Lemma ran_skipped m st st' : ran st -> report_skipped cf id m st = Ok st' -> ran st'.
Proof.
  intros R. unfold report_skipped. intros H. bstep H as l E. injection H as <-.
  eapply ran_status; [apply status_report|]. now apply ran_raise.
Qed.
Lemma ran_conclude pass w abort x st r : ran st -> conclude cf id pass w abort x st = Ok r -> ran (fst r).
Proof.
  intros R H. unfold conclude in H.
  destruct w as [what outcome|type accepts|type accepts matches describe|source]; destruct x as [e|];
    repeat match type of H with
    | Ok _ = Ok _ => injection H as <-; cbn [fst]
    | (if ?c then _ else _) = Ok _ => destruct c
    | bind (match ?e with AbortExn => _ | StdExn _ => _ | OtherExn => _ end) _ = _ => destruct e
    | bind _ _ = Ok _ => step H
    end;
    repeat match goal with
    | E : report_assertion _ _ _ _ _ = Ok _ |- _ => apply ran_assertion in E; [|exact R]
    | E : report_assertion2 _ _ _ _ _ _ = Ok _ |- _ => apply ran_assertion2 in E; [|exact R]
    end; auto; (eapply ran_status; [apply status_notify|]; auto).
Qed.
Lemma ran_push l st st' : push_location cf st l = Ok st' -> status st' = status st.
Proof. unfold push_location. intros H. bstep H as ls E. now injection H as <-. Qed.
Lemma ran_pop st st' : pop_location st = Ok st' -> status st' = status st.
Proof. unfold pop_location. intros H. bstep H as ls E. now injection H as <-. Qed.
Lemma ran_check_begin line st st' : check_begin cf line st = Ok st' -> status st' = status st.
Proof.
  unfold check_begin. intros H. bstep H as ls E. injection H as <-. cbn. apply ran_push in E. now rewrite E, status_notify.
Qed.
Lemma ran_check_end u st st' : check_end u st = Ok st' -> status st' = status st.
Proof. unfold check_end. intros H. apply ran_pop in H. now rewrite H, status_hold. Qed.
Lemma ran_section_enter s st st' e : section_enter cf s st = Ok (st', e) -> status st' = status st.
Proof.
  unfold section_enter. intros H. bstep H as lv E1. bstep H as lev E2. bstep H as lv1 E3.
  destruct (leaf_executed _); [injection H as <- <-; apply status_notify|].
  destruct (negb _ && negb _); [injection H as <- <-; apply status_notify|].
  bstep H as lv2 E4. bstep H as cs E5. bstep H as st3 E6. injection H as <- <-. apply ran_push in E6. cbn in E6. rewrite status_notify in E6.
  destruct (_ =? _); auto. unfold report_section_started. now rewrite status_report.
Qed.
Lemma ran_section_exit e u st st' : section_exit cf e u st = Ok st' -> status st' = status st.
Proof.
  unfold section_exit. intros H. bstep H as st1 E. bstep H as d E1. injection H as <-. cbn. destruct e; [|now injection E as <-].
  bstep E as st2 E2. bstep E as [i2 last] E3. bstep E as st3 E4. bstep E as cs E5. injection E as <-. cbn.
  apply ran_pop in E2. rewrite status_hold in E2. rewrite <- E2. destruct (last && negb u).
  - bstep E4 as s E6. injection E4 as <-. unfold report_section_ended. now rewrite status_report.
  - now injection E4 as <-.
Qed.
Lemma ran_add_captures l : forall st st', add_captures cf l st = Ok st' -> status st' = status st.
Proof.
  induction l as [|c l IH]; intros st st' H; cbn [add_captures] in H; [now injection H as <-|].
  bstep H as st1 E. apply IH in H. rewrite H. unfold add_capture in E. destruct (_ =? _); [discriminate|]. bstep E as [m y] E1. injection E as <-.
  cbn. apply status_notify.
Qed.
Lemma ran_capture_end u n st st' : capture_end u n st = Ok st' -> status st' = status st.
Proof. unfold capture_end. intros H. bstep H as s E. injection H as <-. cbn. apply status_hold. Qed.

Lemma ran_exec pass p : forall st st' x, ran st -> exec cf id pass p st = Ok (st', x) -> ran st'.
Proof.
  induction p as [|n k IHp|when y k IHp|line w abort e IHe k IHp|line message abort k IHp|sec b IHp1 k IHp2|texts b IHp1 k IHp2|accepts notify b IHp1 k IHp2];
    intros st st' x R H; cbn [exec] in H.
  - now injection H as <- <-.
  - apply IHp in H; [exact H|]. eapply ran_status; [apply status_report|exact R].
  - destruct (when pass); [now injection H as <- <-|eauto].
  - bstep H as st1 E1. bstep H as [st2 y] E2. bstep H as [st3 z] E3. bstep H as st4 E4.
    apply ran_check_begin in E1. apply IHe in E2; [|eapply ran_status; eauto]. apply ran_conclude in E3; auto. apply ran_check_end in E4.
    apply (ran_status _ _ E4) in E3. destruct z; [now injection H as <- <-|eauto].
  - bstep H as st1 E1. bstep H as st2 E2. bstep H as st3 E3. apply ran_check_begin in E1. apply ran_skipped in E2; [|eapply ran_status; eauto].
    apply ran_check_end in E3. apply (ran_status _ _ E3) in E2. destruct abort; [now injection H as <- <-|eauto].
  - bstep H as [st1 en] E1. apply ran_section_enter in E1. apply (ran_status _ _ E1) in R. destruct en.
    + bstep H as [st2 y] E2. bstep H as st3 E3. apply IHp1 in E2; auto. apply ran_section_exit in E3. apply (ran_status _ _ E3) in E2.
      destruct y; [now injection H as <- <-|eauto].
    + bstep H as st3 E3. apply ran_section_exit in E3. apply (ran_status _ _ E3) in R. eauto.
  - bstep H as st1 E1. bstep H as [st2 y] E2. bstep H as st3 E3. apply ran_add_captures in E1. apply (ran_status _ _ E1) in R.
    apply IHp1 in E2; auto. apply ran_capture_end in E3. apply (ran_status _ _ E3) in E2. destruct y; [now injection H as <- <-|eauto].
  - bstep H as [st1 y] E1. apply IHp1 in E1; auto. destruct y as [e|]; [|eauto]. destruct (accepts e); [|now injection H as <- <-].
    apply IHp2 in H; auto. destruct notify; auto. eapply ran_status; [apply status_notify|exact E1].
Qed.

Lemma ran_passes p : forall fuel pass st st' x, ran st -> passes cf id p fuel pass st = Ok (st', x) -> ran st'.
Proof.
  induction fuel as [|fuel IH]; intros pass st st' x R H; cbn [passes] in H; [discriminate|].
  bstep H as [st2 y] E. apply ran_exec in E; auto. destruct y; [now injection H as <- <-|].
  destruct (_ && _); [|now injection H as <- <-]. apply IH in H; auto.
Qed.
End Safety.
