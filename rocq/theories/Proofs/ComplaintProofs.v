From Verif.Spec Require Import TextSpec FilterSpec PrintSpec CliSpec ConsoleSpec HelpSpec.
From Verif.Model Require Import Base Vector StringUtil Run Print Cli.
From Verif.Proofs Require Import Lists VectorProofs AppendProofs PrintProofs CliProofs CliFacts HelpProofs.

(** ** Complaints, for any table *)
Fixpoint gcomplaints (find : text -> option (text * option text)) (swallow : text -> bool) (seen : list text) (argv : list text) : list complaint :=
  match argv with
  | [] => []
  | arg :: rest =>
    if dashed arg then
      match find arg with
      | Some (long, value) =>
        if existsb (seqb long) seen then Repeated arg :: gcomplaints find swallow seen rest
        else
          match value, rest with
          | None, _ => gcomplaints find swallow (long :: seen) rest
          | Some _, _ :: rest' => gcomplaints find swallow (long :: seen) rest'
          | Some called, [] => [ValueMissing arg called]
          end
      | None =>
        UnknownOption arg ::
        (if swallow arg then match rest with _ :: rest' => gcomplaints find swallow seen rest' | [] => [] end
         else gcomplaints find swallow seen rest)
      end
    else gcomplaints find swallow seen rest
  end.

Lemma gcomplaints_ext f g s t : (forall a, f a = g a) -> (forall a, s a = t a) -> forall argv seen, gcomplaints f s seen argv = gcomplaints g t seen argv.
Proof.
  intros F G. induction argv as [argv IH] using short_induction. intros seen. destruct argv as [|a rest]; [reflexivity|]. cbn [gcomplaints].
  rewrite F, G. assert (R : forall s0, gcomplaints f s s0 rest = gcomplaints g t s0 rest) by (intros; apply IH; cbn [length]; lia).
  assert (R' : forall x rest' s0, rest = x :: rest' -> gcomplaints f s s0 rest' = gcomplaints g t s0 rest') by (intros; apply IH; subst; cbn [length]; lia).
  destruct (dashed a); [|apply R]. destruct (g a) as [[l [v|]]|].
  - destruct (existsb (seqb l) seen); [now rewrite R|]. destruct rest as [|y rest]; [reflexivity|]. now apply (R' y rest).
  - destruct (existsb (seqb l) seen); now rewrite R.
  - f_equal. destruct (t a); [|apply R]. destruct rest as [|y rest]; [reflexivity|]. now apply (R' y rest).
Qed.

Lemma gcomplaints_seen f s : (forall a long v, f a = Some (long, v) -> long <> []) -> forall argv seen seen',
  (forall x, x <> [] -> existsb (seqb x) seen = existsb (seqb x) seen') -> gcomplaints f s seen argv = gcomplaints f s seen' argv.
Proof.
  intros F. induction argv as [argv IH] using short_induction. intros seen seen' H. destruct argv as [|a rest]; [reflexivity|]. cbn [gcomplaints].
  assert (R : forall l, gcomplaints f s (l :: seen) rest = gcomplaints f s (l :: seen') rest).
  { intros l. apply IH; [cbn [length]; lia|]. intros x Hx. cbn [existsb]. now rewrite H. }
  assert (R0 : gcomplaints f s seen rest = gcomplaints f s seen' rest) by (apply IH; auto; cbn [length]; lia).
  destruct (dashed a); [|apply R0]. destruct (f a) as [[l v]|] eqn:E.
  - rewrite (H l) by eauto. destruct (existsb (seqb l) seen'); [now rewrite R0|]. destruct v as [v|]; [|apply R]. destruct rest as [|y rest]; [reflexivity|].
    apply IH; [cbn [length]; lia|]. intros x Hx. cbn [existsb]. now rewrite H.
  - f_equal. destruct (s a); [|exact R0]. destruct rest as [|y rest]; [reflexivity|]. apply IH; auto. cbn [length]; lia.
Qed.

Definition pieces_of (color : bool) (c : complaint) : list piece :=
  match c with
  | UnknownOption arg => [warning_prefix color; Text (lit " unknown command line argument '"); Text arg; Text (lit "'" ++ newline)]
  | Repeated arg => [error_prefix color; Text (lit " duplicate command line argument '"); Text arg; Text (lit "'" ++ newline)]
  | ValueMissing arg called =>
    [error_prefix color; Text (lit " missing value '<"); Text called; Text (lit ">' for command line argument '"); Text arg; Text (lit "'" ++ newline)]
  end.

Section Loop.
Variable cc : cli_config.
Variable exp : list expected.
Variable settings : parser_settings.
Hypothesis once : forall e, In e exp -> active e = true -> e_repeatable e = false.
Hypothesis distinct : forall i j e e', nth_error exp i = Some e -> nth_error exp j = Some e' -> active e = true -> active e' = true ->
  long e = long e' -> i = j.
Hypothesis disjoint : forall i e arg, find_option 0 exp arg = Some (i, e) -> ignored_values exp arg = 0.
Variable positional : expected.
Hypothesis positional_there : positional_of exp = Some positional.
Hypothesis positional_fine : e_repeatable positional = true /\ exists v, e_value_name positional = Some v.
Hypothesis named_well : forall e, In e exp -> Forall (fun n => n <> []) (e_names e).
Hypothesis aloud : silent settings = false.

Notation gc := (gcomplaints (find_active exp) (swallows exp)).
Notation said := (fun c m => cli_print (c_max_message cc) (pieces_of (with_color settings) c) = Ok m).

Lemma find_active_nonempty a lo v : find_active exp a = Some (lo, v) -> lo <> [].
Proof using named_well.
  unfold find_active. destruct (find_option 0 exp a) as [[i e]|] eqn:F; [|discriminate]. cbn. intros [= <- _].
  destruct (find_option_spec _ _ _ _ _ F) as (_ & N & A & _). apply long_nonempty; auto. apply named_well. eapply nth_error_In; eauto.
Qed.

Lemma say_aloud st l : exists s, say (c_max_message cc) (silent settings) st l = Ok (mkparser (p_found st) (p_args st) (p_bad st) (p_out st ++ [s])) /\
  cli_print (c_max_message cc) l = Ok s.
Proof using aloud.
  unfold say. rewrite aloud. destruct (cli_print_total (c_max_message cc) l) as (s & E & _). exists s. rewrite E. auto.
Qed.

Lemma parse_loop_complaints argv : forall st, inv exp st -> length (p_args st) + length argv <= c_max_args cc ->
  exists st' errors, parse_loop cc exp settings 0 argv st = Ok st' /\ p_out st' = p_out st ++ errors /\
    Forall2 said (gc (map a_name (p_args st)) argv) errors /\ length (p_found st') = length exp.
Proof using once distinct disjoint positional_there positional_fine named_well aloud.
  induction argv as [argv IH] using short_induction. intros st Hinv C.
  destruct argv as [|arg rest].
  { exists st, []. cbn. rewrite app_nil_r. destruct Hinv. auto. }
  pose proof Hinv as [L HF]. cbn [length] in C. cbn [gcomplaints parse_loop]. rewrite <- dashed_starts.
  destruct (starts_with arg dash) eqn:D.
  - unfold parse_option. destruct (find_option 0 exp arg) as [[i e]|] eqn:F.
    + assert (FA : find_active exp arg = Some (long e, e_value_name e)) by (unfold find_active; now rewrite F). rewrite FA.
      pose proof (disjoint _ _ _ F) as IG. rewrite IG.
      destruct (find_option_spec _ _ _ _ _ F) as (_ & N & A & _). rewrite Nat.sub_0_r in N.
      assert (I0 : i < length exp) by (apply nth_error_Some; congruence).
      assert (O : is_option e = true).
      { unfold active in A. apply negb_true_iff, orb_false_iff in A as [_ A]. now apply negb_false_iff in A. }
      assert (R : e_repeatable e = false) by (apply once; [eapply nth_error_In; eauto|exact A]).
      pose proof (HF i e N A) as FI. unfold at_index. rewrite FI. cbn [bind]. rewrite R. cbn [negb]. rewrite andb_true_r.
      destruct (existsb (seqb (long e)) (map a_name (p_args st))) eqn:DUP.
      * match goal with |- context [say _ _ st ?l] => destruct (say_aloud st l) as (s & Es & Ps) end. rewrite Es. cbn [bind Nat.add].
        destruct (IH rest ltac:(cbn [length]; lia) (set_bad (mkparser (p_found st) (p_args st) (p_bad st) (p_out st ++ [s])))) as (st' & errors & E' & O' & F' & L').
        { split; cbn [p_found p_args set_bad]; auto. }
        { cbn [p_args set_bad]. lia. }
        exists st', (s :: errors). cbn [set_bad p_args p_out] in *. split; [exact E'|]. split; [rewrite O', <- app_assoc; reflexivity|]. split; [|exact L'].
        constructor; [exact Ps|exact F'].
      * destruct (put_index_ok (p_found st) i true) as (found & Ep & Lp & Pi & Pj); [lia|]. rewrite Ep. cbn [bind].
        rewrite (back_names e O). cbn [bind].
        assert (P : forall a, push_back (c_max_args cc) (p_args st) a = Ok (p_args st ++ [a])).
        { intros a. unfold push_back. destruct (Nat.eqb_spec (length (p_args st)) (c_max_args cc)); [lia|reflexivity]. }
        assert (INV : forall a, a_name a = long e -> inv exp (mkparser found (p_args st ++ [a]) (p_bad st) (p_out st))).
        { intros a Ea. split; cbn [p_found p_args]; [congruence|]. intros j e' N' A'. rewrite map_app, existsb_app. cbn [map existsb]. rewrite Ea, orb_false_r.
          destruct (Nat.eq_dec j i) as [->|NE].
          - rewrite N in N'. injection N' as <-. rewrite Pi, seqb_refl, orb_true_r. reflexivity.
          - rewrite (Pj j NE), (HF j e' N' A').
            replace (seqb (long e') (long e)) with false; [now rewrite orb_false_r|]. symmetry. apply seqb_neq. intros Q. apply NE.
            eapply distinct; eauto. }
        assert (GO : forall a rest', a_name a = long e -> length rest' <= length rest -> exists st' errors,
          parse_loop cc exp settings 0 rest' (mkparser found (p_args st ++ [a]) (p_bad st) (p_out st)) = Ok st' /\
          p_out st' = p_out st ++ errors /\ Forall2 said (gc (long e :: map a_name (p_args st)) rest') errors /\ length (p_found st') = length exp).
        { intros a rest' Ea Lr. destruct (IH rest' ltac:(cbn [length]; lia) _ (INV a Ea)) as (st' & errors & E' & O' & F' & L').
          { cbn [p_args]. rewrite app_length. cbn [length]. lia. }
          exists st', errors. split; [exact E'|]. split; [exact O'|]. split; [|exact L']. cbn [p_args] in F'.
          rewrite (gcomplaints_seen _ _ find_active_nonempty _ _ (long e :: map a_name (p_args st))) in F'; [exact F'|].
          intros x _. rewrite map_app, existsb_app. cbn [map existsb]. rewrite Ea, orb_false_r. apply orb_comm. }
        destruct (e_value_name e) as [v|] eqn:EV.
        -- destruct rest as [|x rest'].
           ++ match goal with |- context [say _ _ ?st1 ?l] => destruct (say_aloud st1 l) as (s & Es & Ps) end. rewrite Es. cbn [bind parse_loop Nat.add].
              eexists; exists [s]. split; [reflexivity|]. cbn [set_bad p_out p_found]. split; [reflexivity|]. split; [|congruence]. constructor; [exact Ps|constructor].
           ++ cbn [p_args p_found p_bad p_out]. rewrite P. cbn [bind Nat.add parse_loop].
              apply (GO (mkargument (long e) (Some v) (Some x)) rest' eq_refl). cbn [length]. lia.
        -- cbn [p_args p_found p_bad p_out]. rewrite P. cbn [bind Nat.add].
           apply (GO (mkargument (long e) None None) rest eq_refl). lia.
    + assert (FA : find_active exp arg = None) by (unfold find_active; now rewrite F). rewrite FA.
      match goal with |- context [say _ _ st ?l] => destruct (say_aloud st l) as (s & Es & Ps) end. rewrite Es. cbn [bind Nat.add].
      set (st1 := mkparser (p_found st) (p_args st) (p_bad st) (p_out st ++ [s])).
      assert (GO : forall rest', length rest' <= length rest -> exists st' errors, parse_loop cc exp settings 0 rest' st1 = Ok st' /\
        p_out st' = p_out st ++ s :: errors /\ Forall2 said (gc (map a_name (p_args st)) rest') errors /\ length (p_found st') = length exp).
      { intros rest' Lr. destruct (IH rest' ltac:(cbn [length]; lia) st1) as (st' & errors & E' & O' & F' & L').
        { split; auto. }
        { cbn [p_args st1]. lia. }
        exists st', errors. split; [exact E'|]. split; [rewrite O'; unfold st1; cbn [p_out]; now rewrite <- app_assoc|]. split; [exact F'|exact L']. }
      change (swallows exp arg) with (0 <? ignored_values exp arg). pose proof (ignored_values_le exp arg) as LE.
      destruct (ignored_values exp arg) as [|[|n]] eqn:IG; [| |lia].
      * destruct (GO rest (le_n _)) as (st' & errors & E' & O' & F' & L'). exists st', (s :: errors). split; [exact E'|]. split; [exact O'|]. split; [|exact L'].
        constructor; [exact Ps|exact F'].
      * destruct rest as [|x rest']; cbn [parse_loop].
        -- exists st1, [s]. split; [reflexivity|]. split; [reflexivity|]. split; [constructor; [exact Ps|constructor]|exact L].
        -- destruct (GO rest') as (st' & errors & E' & O' & F' & L'); [cbn [length]; lia|]. exists st', (s :: errors). split; [exact E'|]. split; [exact O'|]. split; [|exact L'].
           constructor; [exact Ps|exact F'].
  - unfold parse_positional.
    assert (PF : forall e, positional_of exp = Some e -> e_repeatable e = true /\ exists v, e_value_name e = Some v).
    { intros e E. rewrite positional_there in E. injection E as <-. exact positional_fine. }
    pose proof (find_positional_spec exp PF (p_found st) L) as F. rewrite positional_there in F.
    destruct F as (i & F & N & A). rewrite F. cbn [bind].
    assert (I0 : i < length exp) by (apply nth_error_Some; congruence).
    unfold push_back. destruct (Nat.eqb_spec (length (p_args st)) (c_max_args cc)); [lia|]. cbn [bind].
    destruct (put_index_ok (p_found st) i true) as (found & Ep & Lp & Pi & Pj); [lia|]. rewrite Ep. cbn [bind].
    match goal with |- context [mkparser found ?l _ _] => set (args' := l) end.
    assert (INV : inv exp (mkparser found args' (p_bad st) (p_out st))).
    { split; cbn [p_found p_args]; [congruence|]. intros j e' N' A'. unfold args'. rewrite map_app, existsb_app. cbn [map existsb a_name]. rewrite orb_false_r.
      destruct (Nat.eq_dec j i) as [->|NE]; [congruence|]. rewrite (Pj j NE), (HF j e' N' A').
      replace (seqb (long e') []) with false; [now rewrite orb_false_r|]. symmetry. apply seqb_neq.
      apply long_nonempty; auto. apply named_well. eapply nth_error_In; eauto. }
    destruct (IH rest ltac:(cbn [length]; lia) _ INV) as (st' & errors & E' & O' & F' & L').
    { cbn [p_args]. unfold args'. rewrite app_length. cbn [length]. lia. }
    exists st', errors. split; [exact E'|]. split; [exact O'|]. split; [|exact L']. cbn [p_args] in F'. unfold args' in F'.
    rewrite (gcomplaints_seen _ _ find_active_nonempty _ _ (map a_name (p_args st))) in F'; [exact F'|].
    intros x Hx. rewrite map_app, existsb_app. cbn [map existsb a_name]. replace (seqb x []) with false; [now rewrite !orb_false_r|].
    symmetry. now apply seqb_neq.
Qed.
End Loop.

Lemma existsb_same x l : existsb (same_text x) l = existsb (seqb x) l.
Proof.
  induction l as [|y l IH]; cbn [existsb]; [reflexivity|]. rewrite IH. f_equal. rewrite same_text_seqb.
  destruct (seqb y x) eqn:E, (seqb x y) eqn:F; auto.
  - apply seqb_eq in E. subst. now rewrite seqb_refl in F.
  - apply seqb_eq in F. subst. now rewrite seqb_refl in E.
Qed.

Notation swallowed := (fun a => existsb (same_text a) catch2_with_value).
Lemma complaints_gc argv : forall seen, complaints seen argv = gcomplaints (lookup options) swallowed seen argv.
Proof.
  induction argv as [argv IH] using short_induction. intros seen. destruct argv as [|a rest]; [reflexivity|]. cbn [complaints gcomplaints].
  assert (R : forall s0, complaints s0 rest = gcomplaints (lookup options) swallowed s0 rest) by (intros; apply IH; cbn [length]; lia).
  assert (R' : forall x rest' s0, rest = x :: rest' -> complaints s0 rest' = gcomplaints (lookup options) swallowed s0 rest') by (intros; apply IH; subst; cbn [length]; lia).
  destruct (dashed a); [|apply R]. destruct (lookup options a) as [[l v]|].
  - match goal with |- (if ?x then _ else _) = (if ?y then _ else _) => replace x with y by (symmetry; apply existsb_same); destruct y end; [f_equal; apply R|].
    destruct v; [|apply R].
    destruct rest as [|y rest]; [reflexivity|]. now apply (R' y rest).
  - f_equal. destruct (existsb (same_text a) catch2_with_value); [|apply R]. destruct rest as [|y rest]; [reflexivity|]. now apply (R' y rest).
Qed.

Lemma gcomplaints_accepted f s argv : forall seen,
  (accepted seen (gread f s argv) = true -> gcomplaints f s seen argv = map UnknownOption (unknown (gread f s argv))) /\
  (accepted seen (gread f s argv) = false -> Exists fatal (gcomplaints f s seen argv)).
Proof.
  induction argv as [argv IH] using short_induction. intros seen. destruct argv as [|a rest]; [split; [reflexivity|discriminate]|]. cbn [gread gcomplaints].
  assert (R : forall s0, (accepted s0 (gread f s rest) = true -> gcomplaints f s s0 rest = map UnknownOption (unknown (gread f s rest))) /\
    (accepted s0 (gread f s rest) = false -> Exists fatal (gcomplaints f s s0 rest))) by (intros; apply IH; cbn [length]; lia).
  assert (R' : forall x rest' s0, rest = x :: rest' -> (accepted s0 (gread f s rest') = true -> gcomplaints f s s0 rest' = map UnknownOption (unknown (gread f s rest'))) /\
    (accepted s0 (gread f s rest') = false -> Exists fatal (gcomplaints f s s0 rest'))) by (intros; apply IH; subst; cbn [length]; lia).
  destruct (dashed a).
  - destruct (f a) as [[l [v|]]|].
    + destruct rest as [|y rest]; cbn [accepted unknown flat_map app].
      * destruct (existsb (seqb l) seen); (split; [discriminate|intros _; constructor; exact I]).
      * destruct (existsb (seqb l) seen) eqn:E; cbn [negb andb].
        -- split; [discriminate|]. intros _. constructor. exact I.
        -- apply (R' y rest (l :: seen) eq_refl).
    + cbn [accepted unknown flat_map app]. destruct (existsb (seqb l) seen) eqn:E; cbn [negb andb].
      * split; [discriminate|]. intros _. constructor. exact I.
      * apply (R (l :: seen)).
    + destruct (s a).
      * destruct rest as [|y rest]; cbn [accepted unknown flat_map app map]; [split; [reflexivity|discriminate]|].
        destruct (R' y rest seen eq_refl) as [R1 R2]. split; intros H; [now rewrite (R1 H)|now apply Exists_cons_tl, R2].
      * cbn [accepted unknown flat_map app map]. destruct (R seen) as [R1 R2]. split; intros H; [now rewrite (R1 H)|now apply Exists_cons_tl, R2].
  - cbn [accepted unknown flat_map app]. apply R.
Qed.

Lemma complaints_acceptable argv :
  (acceptable argv -> complaints [] argv = map UnknownOption (unknown (read argv))) /\ (~ acceptable argv -> Exists fatal (complaints [] argv)).
Proof.
  pose proof (accepted_acceptable argv) as A. rewrite complaints_gc. rewrite read_gread in *. destruct (gcomplaints_accepted (lookup options) swallowed argv []) as [G1 G2].
  split; intros H.
  - now apply G1, A.
  - apply G2. destruct (accepted [] _); auto. destruct H. now apply A.
Qed.

Lemma pieces_spoken color c : Forall solid (pieces_of color c) /\ whole (pieces_of color c) = spoken (painted color) c.
Proof.
  assert (S1 : solid (error_prefix color)) by discriminate. assert (S2 : solid (warning_prefix color)) by discriminate.
  split; [destruct c; repeat constructor; assumption|].
  assert (E1 : rendered (error_prefix color) = painted color Bad (quote "error:")) by (apply rendered_painted; reflexivity).
  assert (E2 : rendered (warning_prefix color) = painted color Warning (quote "warning:")) by (apply rendered_painted; reflexivity).
  destruct c; unfold whole, pieces_of, spoken; cbn [map List.concat rendered]; rewrite ?E1, ?E2, app_nil_r; reflexivity.
Qed.

Lemma said_spoken mm color c m : cli_print mm (pieces_of color c) = Ok m -> length (spoken (painted color) c) <= mm -> m = spoken (painted color) c.
Proof. destruct (pieces_spoken color c) as [S0 W]. intros E L. rewrite <- W in *. rewrite (cli_print_fit mm _ S0 L) in E. congruence. Qed.

Lemma with_complaints cc exp settings path argv out r : good_table exp = true -> positional_of exp <> None -> silent settings = false ->
  length argv <= c_max_args cc -> parse_with cc exp settings path argv = Ok (out, r) ->
  Forall2 (fun c m => cli_print (c_max_message cc) (pieces_of (with_color settings) c) = Ok m) (gcomplaints (find_active exp) (swallows exp) [] argv) out.
Proof.
  intros G PO SI C E. unfold good_table in G. repeat (apply andb_true_iff in G as [G ?]). destruct (positional_of exp) as [p|] eqn:P; [|congruence].
  destruct (parse_loop_complaints cc exp settings) with (positional := p)
    (argv := argv) (st := mkparser (map (fun _ => false) exp) [] false []) as (st & errors & El & O & F & L); auto.
  - intros e He Ac. apply (forallb_in _ _ _ G) in He. rewrite Ac in He. now apply negb_true_iff in He.
  - now apply long_once_spec.
  - now apply apart_spec.
  - apply andb_true_iff in H1 as [H1 HV]. split; auto. unfold has_value in HV. destruct (e_value_name p); [eauto|discriminate].
  - intros e He. apply (forallb_in _ _ _ H) in He. apply Forall_forall. intros n Hn. apply (forallb_in _ _ _ He) in Hn.
    apply negb_true_iff in Hn. now apply seqb_neq in Hn.
  - split; cbn [p_found p_args]; [now rewrite map_length|]. intros i e N _. rewrite nth_error_map. rewrite N. reflexivity.
  - unfold parse_with in E. destruct (check_expected exp); cbn [bind] in E; [|discriminate]. rewrite El in E. cbn [bind] in E.
    rewrite check_mandatory_skip in E.
    + cbn [bind] in E. injection E as <- _. rewrite O. cbn [p_out app]. exact F.
    + intros e He. apply (forallb_in _ _ _ H0) in He. now apply negb_true_iff in He.
    + rewrite L. lia.
Qed.

Lemma parse_complains cc path argv : length argv <= c_max_args cc ->
  exists color messages result, parse_color_options cc path argv = Ok ([], color) /\
    Forall2 (fun c m => length (spoken (painted color) c) <= c_max_message cc -> m = spoken (painted color) c) (complaints [] argv) messages /\
    ((acceptable argv /\ parse_arguments cc path argv = Ok (messages, Some result)) \/
     (~ acceptable argv /\ exists help blank, print_help cc path color = Ok help /\ (1 <= c_max_message cc -> blank = feed) /\
        parse_arguments cc path argv = Ok (messages ++ blank :: help, None))).
Proof.
  intros C. unfold parse_arguments. destruct (parse_colors_total cc path argv C) as (color & EC). rewrite EC. cbn [bind app].
  destruct (parse_good cc expected_args (mksettings false false color) path argv) as (out & r & E & _ & A & B & _); [vm_compute; reflexivity..|exact C|].
  assert (M : Forall2 (fun c m => cli_print (c_max_message cc) (pieces_of color c) = Ok m) (complaints [] argv) out).
  { rewrite complaints_gc. erewrite gcomplaints_ext; [refine (with_complaints cc expected_args (mksettings false false color) path argv out r _ _ _ _ E)| |].
    - vm_compute; reflexivity.
    - vm_compute; discriminate.
    - reflexivity.
    - exact C.
    - intros a. rewrite find_active_lookup. reflexivity.
    - intros a. rewrite swallows_valued by (vm_compute; reflexivity). reflexivity. }
  assert (M' : Forall2 (fun c m => length (spoken (painted color) c) <= c_max_message cc -> m = spoken (painted color) c) (complaints [] argv) out).
  { clear - M. induction M as [|c m cs ms M1 M2 IH]; constructor; auto. intros L. now apply (said_spoken (c_max_message cc)). }
  rewrite E. cbn [bind]. rewrite items_read in *. pose proof (accepted_acceptable argv) as AA.
  destruct (accepted [] (read argv)) eqn:ACC.
  - destruct (A eq_refl) as [_ A2]. rewrite A2 by (right; reflexivity). exists color, out. eexists. split; [reflexivity|]. split; [exact M'|]. left. split; [now apply AA|reflexivity].
  - exists color, out, (mkinput [] []). split; [reflexivity|]. split; [exact M'|]. right. split; [intros X; apply AA in X; discriminate|].
    rewrite (B eq_refl eq_refl). destruct (cli_print_total (c_max_message cc) [Text newline]) as (s & Es & _). rewrite Es. cbn [bind].
    destruct (print_help_total cc path color) as (h & Eh). rewrite Eh. cbn [bind]. exists h, s. split; [reflexivity|]. split; [|reflexivity].
    intros L. rewrite cli_print_fit in Es; [now injection Es|repeat constructor|exact L].
Qed.

(** ** The help and the parser agree *)
Definition listed : list text := flat_map fst options.
Lemma listed_lines : flat_map spellings_on (option_lines (painted false)) = listed.
Proof. vm_compute. reflexivity. Qed.

Lemma lookup_listed l arg : (exists o, lookup l arg = Some o) <-> In arg (flat_map fst l).
Proof.
  induction l as [|[spellings v] l IH]; cbn [lookup flat_map fst].
  - split; [intros (o & E); discriminate|intros []].
  - destruct (existsb (same_text arg) spellings) eqn:E.
    + split; [|eauto]. intros _. apply existsb_exists in E as (n & Hn & E). apply same_text_eq in E. subst. apply in_or_app. now left.
    + rewrite IH, in_app_iff. split; [now right|]. intros [H|H]; auto.
      assert (X : existsb (same_text arg) spellings = true) by (apply existsb_exists; exists arg; split; auto; apply same_text_refl). congruence.
Qed.

Lemma help_agrees cc path arg value : dashed arg = true -> dashed value = false -> 2 <= c_max_args cc ->
  ((exists inp, parse_arguments cc path [arg; value] = Ok ([], Some inp)) <-> In arg (flat_map spellings_on (option_lines (painted false)))).
Proof.
  intros D V C. rewrite listed_lines. unfold listed. rewrite <- lookup_listed.
  destruct (parse_complains cc path [arg; value]) as (color & ms & result & _ & F & R); [exact C|].
  cbn [complaints] in F. rewrite D, V in F. cbn [existsb] in F. split.
  - intros (inp & E). destruct R as [(_ & E')|(_ & help & blank & _ & _ & E')]; rewrite E in E'; [|discriminate]. injection E' as <- _.
    destruct (lookup options arg); [eauto|]. inversion F.
  - intros (o & E). rewrite E in F. destruct o as [lo v]. assert (ms = []) as -> by (destruct v; inversion F; reflexivity).
    destruct R as [(_ & E')|(NA & _)]; [eauto|]. destruct NA. apply accepted_acceptable. cbn [read]. rewrite D, E. destruct v; cbn [read accepted existsb negb andb]; [reflexivity|].
    rewrite V. reflexivity.
Qed.
