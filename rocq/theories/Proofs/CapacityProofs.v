(** Proofs about command lines of any length. *)
From Verif.Spec Require Import TextSpec FilterSpec PrintSpec CliSpec HelpSpec CapacitySpec.
From Verif.Model Require Import Base Vector StringUtil Run Print Cli Session Program.
From Verif.Proofs Require Import Lists VectorProofs AppendProofs PrintProofs CliProofs CliFacts HelpProofs ComplaintProofs.

(** ** The capacity matters only when it is exceeded *)
Section Capacity.
Variable cc cc' : cli_config.
Variable exp : list expected.
Variable settings : parser_settings.
Hypothesis same_message : c_max_message cc' = c_max_message cc.
Hypothesis larger : c_max_args cc <= c_max_args cc'.

(** A result in the small parser, given the one in the large parser. *)
Definition limited {A} (size : A -> nat) (big small : res A) : Prop :=
  match big with
  | Ok x => if size x <=? c_max_args cc then small = Ok x else small = Err Assert
  | Err e => small = Err e \/ small = Err Assert
  end.

Definition args_in (st : parser) : nat := length (p_args st).

Lemma say_args mm s st l st' : say mm s st l = Ok st' -> p_args st' = p_args st.
Proof. unfold say. destruct s; [now intros [= <-]|]. destruct (cli_print mm l); cbn [bind]; [|discriminate]. now intros [= <-]. Qed.

Lemma push_limited {B} st a (k : list argument -> B) (size : B -> nat) : args_in st <= c_max_args cc ->
  (forall l, size (k l) = length l) ->
  limited size (do args <- push_back (c_max_args cc') (p_args st) a ;; Ok (k args)) (do args <- push_back (c_max_args cc) (p_args st) a ;; Ok (k args)).
Proof using larger same_message.
  intros L K. unfold args_in in L. unfold push_back.
  destruct (Nat.eqb_spec (length (p_args st)) (c_max_args cc')) as [E|N]; destruct (Nat.eqb_spec (length (p_args st)) (c_max_args cc)) as [E'|N']; cbn [bind limited]; auto.
  - lia.
  - rewrite K, app_length. cbn [length]. destruct (Nat.leb_spec (length (p_args st) + 1) (c_max_args cc)); [lia|reflexivity].
  - rewrite K, app_length. cbn [length]. destruct (Nat.leb_spec (length (p_args st) + 1) (c_max_args cc)); [reflexivity|lia].
Qed.

Lemma limited_same {A} (size : A -> nat) (r : res A) : (forall x, r = Ok x -> size x <= c_max_args cc) -> limited size r r.
Proof. intros H. destruct r as [x|]; cbn; [|auto]. specialize (H x eq_refl). destruct (Nat.leb_spec (size x) (c_max_args cc)); [reflexivity|lia]. Qed.

Lemma parse_option_limited st arg rest : args_in st <= c_max_args cc ->
  limited (fun p => args_in (fst p)) (parse_option cc' exp settings st arg rest) (parse_option cc exp settings st arg rest).
Proof using larger same_message.
  intros L. unfold parse_option. rewrite same_message. destruct (find_option 0 exp arg) as [[i e]|].
  - destruct (at_index (p_found st) i) as [f|]; cbn [bind]; [|cbn; auto].
    destruct (f && negb (e_repeatable e)).
    + apply limited_same. intros x H. match type of H with bind ?s _ = _ => destruct s as [st'|] eqn:E end; cbn [bind] in H; [|discriminate].
      injection H as <-. apply say_args in E. unfold args_in in *. cbn [fst set_bad p_args]. now rewrite E.
    + destruct (put_index (p_found st) i true) as [found|]; cbn [bind]; [|cbn; auto]. destruct (back (e_names e)) as [name|]; cbn [bind]; [|cbn; auto].
      destruct (e_value_name e) as [v|].
      * destruct rest as [|x rest].
        -- apply limited_same. intros x H. match type of H with bind ?s _ = _ => destruct s as [st'|] eqn:E end; cbn [bind] in H; [|discriminate].
           injection H as <-. apply say_args in E. unfold args_in in *. cbn [fst set_bad p_args] in *. now rewrite E.
        -- cbn [p_args p_found p_bad p_out].
           apply (push_limited st _ (fun args => (mkparser found args (p_bad st) (p_out st), 1))); [exact L|reflexivity].
      * cbn [p_args p_found p_bad p_out].
        apply (push_limited st _ (fun args => (mkparser found args (p_bad st) (p_out st), 0))); [exact L|reflexivity].
  - apply limited_same. intros x H. match type of H with bind ?s _ = _ => destruct s as [st'|] eqn:E end; cbn [bind] in H; [|discriminate].
    injection H as <-. apply say_args in E. unfold args_in in *. cbn [fst]. now rewrite E.
Qed.

Lemma parse_positional_limited st arg : args_in st <= c_max_args cc ->
  limited args_in (parse_positional cc' exp settings st arg) (parse_positional cc exp settings st arg).
Proof using larger same_message.
  intros L. unfold parse_positional. rewrite same_message. destruct (find_positional 0 exp (p_found st)) as [[[i e]|]|]; cbn [bind]; [| |cbn; auto].
  - destruct (put_index (p_found st) i true) as [found|er] eqn:P.
    + cbn [bind]. apply (push_limited st _ (fun args => mkparser found args (p_bad st) (p_out st))); [exact L|reflexivity].
    + unfold push_back. unfold args_in in L. destruct (Nat.eqb_spec (length (p_args st)) (c_max_args cc')), (Nat.eqb_spec (length (p_args st)) (c_max_args cc)); cbn [bind limited]; auto. lia.
  - apply limited_same. intros x H. match type of H with bind ?s _ = _ => destruct s as [st'|] eqn:E end; cbn [bind] in H; [|discriminate].
    injection H as <-. apply say_args in E. unfold args_in in *. cbn [set_bad p_args]. now rewrite E.
Qed.

Lemma push_grows {A} m (l : list A) a l' : push_back m l a = Ok l' -> length l <= length l'.
Proof. unfold push_back. destruct (_ =? _); [discriminate|]. intros [= <-]. rewrite app_length. lia. Qed.

Lemma parse_option_grows c st arg rest st' n : parse_option c exp settings st arg rest = Ok (st', n) -> args_in st <= args_in st'.
Proof.
  unfold parse_option, args_in. destruct (find_option 0 exp arg) as [[i e]|].
  - destruct (at_index (p_found st) i) as [f|]; cbn [bind]; [|discriminate].
    destruct (f && negb (e_repeatable e)).
    + match goal with |- bind ?s _ = _ -> _ => destruct s as [st1|] eqn:E end; cbn [bind]; [|discriminate].
      intros [= <- <-]. apply say_args in E. cbn [set_bad p_args]. now rewrite E.
    + destruct (put_index (p_found st) i true) as [found|]; cbn [bind]; [|discriminate]. destruct (back (e_names e)) as [name|]; cbn [bind]; [|discriminate].
      destruct (e_value_name e) as [v|].
      * destruct rest as [|x rest].
        -- match goal with |- bind ?s _ = _ -> _ => destruct s as [st1|] eqn:E end; cbn [bind]; [|discriminate].
           intros [= <- <-]. apply say_args in E. cbn [set_bad p_args] in *. now rewrite E.
        -- cbn [p_args]. destruct (push_back _ _ _) as [l|] eqn:P; cbn [bind]; [|discriminate]. intros [= <- <-]. now apply push_grows in P.
      * cbn [p_args]. destruct (push_back _ _ _) as [l|] eqn:P; cbn [bind]; [|discriminate]. intros [= <- <-]. now apply push_grows in P.
  - match goal with |- bind ?s _ = _ -> _ => destruct s as [st1|] eqn:E end; cbn [bind]; [|discriminate].
    intros [= <- <-]. apply say_args in E. now rewrite E.
Qed.

Lemma parse_positional_grows c st arg st' : parse_positional c exp settings st arg = Ok st' -> args_in st <= args_in st'.
Proof.
  unfold parse_positional, args_in. destruct (find_positional 0 exp (p_found st)) as [[[i e]|]|]; cbn [bind]; [| |discriminate].
  - destruct (push_back _ _ _) as [l|] eqn:P; cbn [bind]; [|discriminate]. destruct (put_index _ _ _) as [f|]; cbn [bind]; [|discriminate].
    intros [= <-]. now apply push_grows in P.
  - match goal with |- bind ?s _ = _ -> _ => destruct s as [st1|] eqn:E end; cbn [bind]; [|discriminate].
    intros [= <-]. apply say_args in E. cbn [set_bad p_args]. now rewrite E.
Qed.

Lemma parse_loop_grows c argv : forall skip st st', parse_loop c exp settings skip argv st = Ok st' -> args_in st <= args_in st'.
Proof.
  induction argv as [|arg rest IH]; intros skip st st'; cbn [parse_loop]; [intros [= <-]; lia|].
  destruct skip; [|apply IH]. destruct (starts_with arg dash).
  - destruct (parse_option c exp settings st arg rest) as [[st1 n]|] eqn:E; cbn [bind]; [|discriminate]. intros H. apply IH in H. apply parse_option_grows in E. lia.
  - destruct (parse_positional c exp settings st arg) as [st1|] eqn:E; cbn [bind]; [|discriminate]. intros H. apply IH in H. apply parse_positional_grows in E. lia.
Qed.

Lemma parse_loop_limited argv : forall skip st, args_in st <= c_max_args cc ->
  limited args_in (parse_loop cc' exp settings skip argv st) (parse_loop cc exp settings skip argv st).
Proof using larger same_message.
  induction argv as [|arg rest IH]; intros skip st L; cbn [parse_loop].
  - apply limited_same. now intros x [= <-].
  - destruct skip; [|now apply IH]. destruct (starts_with arg dash).
    + pose proof (parse_option_limited st arg rest L) as H. destruct (parse_option cc' exp settings st arg rest) as [[st1 n]|]; cbn [bind limited fst] in *.
      * destruct (Nat.leb_spec (args_in st1) (c_max_args cc)) as [L1|L1]; rewrite H; cbn [bind]; [now apply IH|].
        destruct (parse_loop cc' exp settings _ rest st1) as [st2|] eqn:E; cbn [limited]; [|auto]. apply parse_loop_grows in E.
        destruct (Nat.leb_spec (args_in st2) (c_max_args cc)); [lia|reflexivity].
      * destruct H as [-> | ->]; cbn [bind]; auto.
    + pose proof (parse_positional_limited st arg L) as H. destruct (parse_positional cc' exp settings st arg) as [st1|]; cbn [bind limited] in *.
      * destruct (Nat.leb_spec (args_in st1) (c_max_args cc)) as [L1|L1]; rewrite H; cbn [bind]; [now apply IH|].
        destruct (parse_loop cc' exp settings _ rest st1) as [st2|] eqn:E; cbn [limited]; [|auto]. apply parse_loop_grows in E.
        destruct (Nat.leb_spec (args_in st2) (c_max_args cc)); [lia|reflexivity].
      * destruct H as [-> | ->]; cbn [bind]; auto.
Qed.
End Capacity.

(** ** How many are stored, for any table *)
Fixpoint gstored (find : text -> option (text * option text)) (swallow : text -> bool) (positional : bool) (seen : list text) (argv : list text) : nat :=
  match argv with
  | [] => 0
  | arg :: rest =>
    if dashed arg then
      match find arg with
      | Some (long, value) =>
        if existsb (seqb long) seen then gstored find swallow positional seen rest
        else
          match value, rest with
          | None, _ => S (gstored find swallow positional (long :: seen) rest)
          | Some _, _ :: rest' => S (gstored find swallow positional (long :: seen) rest')
          | Some _, [] => 0
          end
      | None =>
        if swallow arg then match rest with _ :: rest' => gstored find swallow positional seen rest' | [] => 0 end
        else gstored find swallow positional seen rest
      end
    else (if positional then 1 else 0) + gstored find swallow positional seen rest
  end.

Lemma gstored_ext f g s t p : (forall a, f a = g a) -> (forall a, s a = t a) -> forall argv seen, gstored f s p seen argv = gstored g t p seen argv.
Proof.
  intros F G. induction argv as [argv IH] using short_induction. intros seen. destruct argv as [|a rest]; [reflexivity|]. cbn [gstored].
  rewrite F, G. assert (R : forall s0, gstored f s p s0 rest = gstored g t p s0 rest) by (intros; apply IH; cbn [length]; lia).
  assert (R' : forall x rest' s0, rest = x :: rest' -> gstored f s p s0 rest' = gstored g t p s0 rest') by (intros; apply IH; subst; cbn [length]; lia).
  destruct (dashed a); [|now rewrite R]. destruct (g a) as [[l [v|]]|].
  - destruct (existsb (seqb l) seen); [now rewrite R|]. destruct rest as [|y rest]; [reflexivity|]. f_equal. now apply (R' y rest).
  - destruct (existsb (seqb l) seen); now rewrite R.
  - destruct (t a); [|apply R]. destruct rest as [|y rest]; [reflexivity|]. now apply (R' y rest).
Qed.

Lemma gstored_seen f s p : (forall a long v, f a = Some (long, v) -> long <> []) -> forall argv seen seen',
  (forall x, x <> [] -> existsb (seqb x) seen = existsb (seqb x) seen') -> gstored f s p seen argv = gstored f s p seen' argv.
Proof.
  intros F. induction argv as [argv IH] using short_induction. intros seen seen' H. destruct argv as [|a rest]; [reflexivity|]. cbn [gstored].
  assert (R : forall l, gstored f s p (l :: seen) rest = gstored f s p (l :: seen') rest).
  { intros l. apply IH; [cbn [length]; lia|]. intros x Hx. cbn [existsb]. now rewrite H. }
  assert (R0 : gstored f s p seen rest = gstored f s p seen' rest) by (apply IH; auto; cbn [length]; lia).
  destruct (dashed a); [|now rewrite R0]. destruct (f a) as [[l v]|] eqn:E.
  - rewrite (H l) by eauto. destruct (existsb (seqb l) seen'); [now rewrite R0|]. destruct v as [v|]; [|now rewrite R]. destruct rest as [|y rest]; [reflexivity|].
    f_equal. apply IH; [cbn [length]; lia|]. intros x Hx. cbn [existsb]. now rewrite H.
  - destruct (s a); [|exact R0]. destruct rest as [|y rest]; [reflexivity|]. apply IH; auto. cbn [length]; lia.
Qed.

Section Loop.
Variable cc : cli_config.
Variable exp : list expected.
Variable settings : parser_settings.
Hypothesis once : forall e, In e exp -> active e = true -> e_repeatable e = false.
Hypothesis distinct : forall i j e e', nth_error exp i = Some e -> nth_error exp j = Some e' -> active e = true -> active e' = true ->
  long e = long e' -> i = j.
Hypothesis disjoint : forall i e arg, find_option 0 exp arg = Some (i, e) -> ignored_values exp arg = 0.
Hypothesis positional_fine : forall e, positional_of exp = Some e -> e_repeatable e = true /\ exists v, e_value_name e = Some v.
Hypothesis named_well : forall e, In e exp -> Forall (fun n => n <> []) (e_names e).

Definition takes_positional : bool := match positional_of exp with Some _ => true | None => false end.
Notation gs := (gstored (find_active exp) (swallows exp) takes_positional).

Lemma say_keeps st l : exists st', say (c_max_message cc) (silent settings) st l = Ok st' /\ p_found st' = p_found st /\ p_args st' = p_args st.
Proof. destruct (say_total (c_max_message cc) (silent settings) st l) as (st' & E & X1 & X2 & _). eauto. Qed.

Lemma parse_loop_stored argv : forall st, inv exp st -> length (p_args st) + length argv <= c_max_args cc ->
  exists st', parse_loop cc exp settings 0 argv st = Ok st' /\ length (p_args st') = length (p_args st) + gs (map a_name (p_args st)) argv.
Proof using once distinct disjoint positional_fine named_well.
  induction argv as [argv IH] using short_induction. intros st Hinv C.
  destruct argv as [|arg rest].
  { exists st. cbn. split; [reflexivity|lia]. }
  pose proof Hinv as [L HF]. cbn [length] in C. cbn [gstored parse_loop]. rewrite <- dashed_starts.
  destruct (starts_with arg dash) eqn:D.
  - unfold parse_option. destruct (find_option 0 exp arg) as [[i e]|] eqn:F.
    + assert (FA : find_active exp arg = Some (long e, e_value_name e)) by (unfold find_active; now rewrite F). rewrite FA.
      pose proof (disjoint _ _ _ F) as IG. rewrite IG.
      destruct (find_option_spec _ _ _ _ _ F) as (_ & N & A & _). rewrite Nat.sub_0_r in N.
      assert (I0 : i < length exp) by (apply nth_error_Some; congruence).
      assert (O : is_option e = true).
      { unfold active in A. apply negb_true_iff, orb_false_iff in A as [_ A]. now apply negb_false_iff in A. }
      assert (R : e_repeatable e = false) by (apply once; [eapply nth_error_In; eauto|exact A]).
      pose proof (HF i e N A) as FI. unfold at_index. rewrite FI. cbn [bind]. rewrite R. cbn [negb]. rewrite andb_true_r.
      destruct (existsb (seqb (long e)) (map a_name (p_args st))) eqn:DUP.
      * match goal with |- context [say _ _ st ?l] => destruct (say_keeps st l) as (st1 & Es & X1 & X2) end. rewrite Es. cbn [bind Nat.add].
        destruct (IH rest ltac:(cbn [length]; lia) (set_bad st1)) as (st' & E' & L').
        { split; cbn [p_found p_args set_bad]; rewrite ?X1, ?X2; auto. }
        { cbn [p_args set_bad]. rewrite X2. lia. }
        exists st'. split; [exact E'|]. cbn [set_bad p_args] in L'. now rewrite X2 in L'.
      * destruct (put_index_ok (p_found st) i true) as (found & Ep & Lp & Pi & Pj); [lia|]. rewrite Ep. cbn [bind].
        rewrite (back_names e O). cbn [bind].
        assert (P : forall a, push_back (c_max_args cc) (p_args st) a = Ok (p_args st ++ [a])).
        { intros a. unfold push_back. destruct (Nat.eqb_spec (length (p_args st)) (c_max_args cc)); [lia|reflexivity]. }
        assert (INV : forall a, a_name a = long e -> inv exp (mkparser found (p_args st ++ [a]) (p_bad st) (p_out st))).
        { intros a Ea. split; cbn [p_found p_args]; [congruence|]. intros j e' N' A'. rewrite map_app, existsb_app. cbn [map existsb]. rewrite Ea, orb_false_r.
          destruct (Nat.eq_dec j i) as [->|NE].
          - rewrite N in N'. injection N' as <-. rewrite Pi, seqb_refl, orb_true_r. reflexivity.
          - rewrite (Pj j NE), (HF j e' N' A').
            replace (seqb (long e') (long e)) with false; [now rewrite orb_false_r|]. symmetry. apply seqb_neq. intros Q. apply NE.
            eapply distinct; eauto. }
        assert (GO : forall a rest', a_name a = long e -> length rest' <= length rest -> exists st',
          parse_loop cc exp settings 0 rest' (mkparser found (p_args st ++ [a]) (p_bad st) (p_out st)) = Ok st' /\
          length (p_args st') = length (p_args st) + S (gs (long e :: map a_name (p_args st)) rest')).
        { intros a rest' Ea Lr. destruct (IH rest' ltac:(cbn [length]; lia) _ (INV a Ea)) as (st' & E' & L').
          { cbn [p_args]. rewrite app_length. cbn [length]. lia. }
          exists st'. split; [exact E'|]. cbn [p_args] in L'.
          rewrite (gstored_seen _ _ _ (find_active_nonempty exp named_well) _ _ (long e :: map a_name (p_args st))) in L'; [rewrite L', app_length; cbn [length]; lia|].
          intros x _. rewrite map_app, existsb_app. cbn [map existsb]. rewrite Ea, orb_false_r. apply orb_comm. }
        destruct (e_value_name e) as [v|] eqn:EV.
        -- destruct rest as [|x rest'].
           ++ match goal with |- context [say _ _ ?st1 ?l] => destruct (say_keeps st1 l) as (st' & Es & X1 & X2) end. rewrite Es. cbn [bind parse_loop Nat.add].
              eexists. split; [reflexivity|]. cbn [set_bad p_args] in *. rewrite X2. lia.
           ++ cbn [p_args p_found p_bad p_out]. rewrite P. cbn [bind Nat.add parse_loop].
              apply (GO (mkargument (long e) (Some v) (Some x)) rest' eq_refl). cbn [length]. lia.
        -- cbn [p_args p_found p_bad p_out]. rewrite P. cbn [bind Nat.add].
           apply (GO (mkargument (long e) None None) rest eq_refl). lia.
    + assert (FA : find_active exp arg = None) by (unfold find_active; now rewrite F). rewrite FA.
      match goal with |- context [say _ _ st ?l] => destruct (say_keeps st l) as (st1 & Es & X1 & X2) end. rewrite Es. cbn [bind Nat.add].
      assert (GO : forall rest', length rest' <= length rest -> exists st', parse_loop cc exp settings 0 rest' st1 = Ok st' /\
        length (p_args st') = length (p_args st) + gs (map a_name (p_args st)) rest').
      { intros rest' Lr. destruct (IH rest' ltac:(cbn [length]; lia) st1) as (st' & E' & L').
        { split; rewrite ?X1, ?X2; auto. }
        { rewrite X2. lia. }
        exists st'. split; [exact E'|]. now rewrite X2 in L'. }
      change (swallows exp arg) with (0 <? ignored_values exp arg). pose proof (ignored_values_le exp arg) as LE.
      destruct (ignored_values exp arg) as [|[|n]] eqn:IG; [| |lia].
      * exact (GO rest (le_n _)).
      * destruct rest as [|x rest']; cbn [parse_loop].
        -- exists st1. split; [reflexivity|]. rewrite X2. cbn. lia.
        -- apply GO. cbn [length]. lia.
  - unfold parse_positional. unfold takes_positional in *.
    pose proof (find_positional_spec exp positional_fine (p_found st) L) as F. destruct (positional_of exp) as [e|] eqn:PO.
    + destruct F as (i & F & N & A). rewrite F. cbn [bind].
      assert (I0 : i < length exp) by (apply nth_error_Some; congruence).
      unfold push_back. destruct (Nat.eqb_spec (length (p_args st)) (c_max_args cc)); [lia|]. cbn [bind].
      destruct (put_index_ok (p_found st) i true) as (found & Ep & Lp & Pi & Pj); [lia|]. rewrite Ep. cbn [bind].
      match goal with |- context [mkparser found ?l _ _] => set (args' := l) end.
      assert (INV : inv exp (mkparser found args' (p_bad st) (p_out st))).
      { split; cbn [p_found p_args]; [congruence|]. intros j e' N' A'. unfold args'. rewrite map_app, existsb_app. cbn [map existsb a_name]. rewrite orb_false_r.
        destruct (Nat.eq_dec j i) as [->|NE]; [congruence|]. rewrite (Pj j NE), (HF j e' N' A').
        replace (seqb (long e') []) with false; [now rewrite orb_false_r|]. symmetry. apply seqb_neq.
        apply long_nonempty; auto. apply named_well. eapply nth_error_In; eauto. }
      destruct (IH rest ltac:(cbn [length]; lia) _ INV) as (st' & E' & L').
      { cbn [p_args]. unfold args'. rewrite app_length. cbn [length]. lia. }
      exists st'. split; [exact E'|]. cbn [p_args] in L'. unfold args' in L'.
      rewrite (gstored_seen _ _ _ (find_active_nonempty exp named_well) _ _ (map a_name (p_args st))) in L'; [rewrite L', app_length; cbn [length]; lia|].
      intros x Hx. rewrite map_app, existsb_app. cbn [map existsb a_name]. replace (seqb x []) with false; [now rewrite !orb_false_r|].
      symmetry. now apply seqb_neq.
    + rewrite F. cbn [bind].
      match goal with |- context [say _ _ st ?l] => destruct (say_keeps st l) as (st1 & Es & X1 & X2) end. rewrite Es. cbn [bind].
      destruct (IH rest ltac:(cbn [length]; lia) (set_bad st1)) as (st' & E' & L').
      { split; cbn [p_found p_args set_bad]; rewrite ?X1, ?X2; auto. }
      { cbn [p_args set_bad]. rewrite X2. lia. }
      exists st'. split; [exact E'|]. cbn [set_bad p_args] in L'. rewrite X2 in L'. exact L'.
Qed.
End Loop.

(** ** The whole parser *)
Lemma check_mandatory_same cc cc' settings : c_max_message cc' = c_max_message cc -> forall l i st,
  check_mandatory cc' settings i l st = check_mandatory cc settings i l st.
Proof.
  intros E. induction l as [|e l IH]; intros i st; cbn [check_mandatory]; [reflexivity|]. destruct (at_index (p_found st) i) as [f|]; cbn [bind]; [|reflexivity].
  rewrite E. destruct (_ && _); cbn [bind]; [|apply IH].
  match goal with |- bind ?x _ = bind ?y _ => destruct x; cbn [bind]; [|reflexivity] end. apply IH.
Qed.

Lemma with_limited cc cc' exp settings path argv : good_table exp = true -> check_expected exp = Ok tt ->
  c_max_message cc' = c_max_message cc -> c_max_args cc <= c_max_args cc' -> length argv <= c_max_args cc' ->
  let n := gstored (find_active exp) (swallows exp) (takes_positional exp) [] argv in
  (n <= c_max_args cc -> parse_with cc exp settings path argv = parse_with cc' exp settings path argv) /\
  (c_max_args cc < n -> parse_with cc exp settings path argv = Err Assert).
Proof.
  intros G T SM LA C n. unfold good_table in G. repeat (apply andb_true_iff in G as [G ?]).
  set (st0 := mkparser (map (fun _ => false) exp) [] false []).
  destruct (parse_loop_stored cc' exp settings) with (argv := argv) (st := st0) as (st & El & Ln); auto.
  - intros e He A. apply (forallb_in _ _ _ G) in He. rewrite A in He. now apply negb_true_iff in He.
  - now apply long_once_spec.
  - now apply apart_spec.
  - intros e E. rewrite E in *. apply andb_true_iff in H1 as [H1 HV]. split; auto. unfold has_value in HV. destruct (e_value_name e); [eauto|discriminate].
  - intros e He. apply (forallb_in _ _ _ H) in He. apply Forall_forall. intros x Hx. apply (forallb_in _ _ _ He) in Hx.
    apply negb_true_iff in Hx. now apply seqb_neq in Hx.
  - split; cbn [st0 p_found p_args]; [now rewrite map_length|]. intros i e N _. rewrite nth_error_map. rewrite N. reflexivity.
  - cbn [st0 p_args map length Nat.add] in Ln. fold n in Ln.
    pose proof (parse_loop_limited cc cc' exp settings SM LA argv 0 st0 (Nat.le_0_l _)) as R. rewrite El in R. cbn [limited] in R. unfold args_in in R. rewrite Ln in R.
    unfold parse_with. rewrite T. cbn [bind]. fold st0. rewrite El. destruct (Nat.leb_spec n (c_max_args cc)) as [X|X]; rewrite R; cbn [bind].
    + split; [|intros; lia]. intros _. rewrite (check_mandatory_same cc cc') by exact SM. reflexivity.
    + split; [intros; lia|reflexivity].
Qed.

Lemma gstored_bounded f s names : (forall a l v, f a = Some (l, v) -> In l names) -> forall argv seen, NoDup seen -> incl seen names ->
  length seen + gstored f s false seen argv <= length names.
Proof.
  intros F. induction argv as [argv IH] using short_induction. intros seen ND I. destruct argv as [|a rest].
  { cbn. rewrite Nat.add_0_r. now apply NoDup_incl_length. }
  cbn [gstored Nat.add]. assert (R : length seen + gstored f s false seen rest <= length names) by (apply IH; auto; cbn [length]; lia).
  assert (Z : length seen + 0 <= length names) by lia.
  destruct (dashed a); [|exact R]. destruct (f a) as [[l v]|] eqn:E.
  - destruct (existsb (seqb l) seen) eqn:X; [exact R|].
    assert (ND' : NoDup (l :: seen)).
    { constructor; auto. intros Q. assert (existsb (seqb l) seen = true) by (apply existsb_exists; exists l; split; auto; apply seqb_refl). congruence. }
    assert (I' : incl (l :: seen) names) by (intros x [<-|Q]; [eapply F; eauto|auto]).
    assert (GO : forall rest', length rest' <= length rest -> length seen + S (gstored f s false (l :: seen) rest') <= length names).
    { intros rest' Lr. pose proof (IH rest' ltac:(cbn [length]; lia) (l :: seen) ND' I') as Q. cbn [length] in Q. lia. }
    destruct v; [|now apply GO]. destruct rest as [|x rest]; [exact Z|]. apply GO. cbn [length]. lia.
  - destruct (s a); [|exact R]. destruct rest as [|x rest]; [exact Z|]. apply IH; auto. cbn [length]. lia.
Qed.

Lemma lookup_in_longs l a x v : lookup l a = Some (x, v) -> In x (map (fun o => last (fst o) []) l).
Proof.
  induction l as [|[names v'] l IH]; cbn [lookup map fst]; [discriminate|]. destruct (existsb (same_text a) names).
  - intros [= <- _]. now left.
  - intros E. right. now apply IH.
Qed.

Lemma colours_few argv : gstored (find_active output_args) (swallows output_args) (takes_positional output_args) [] argv <= 2.
Proof.
  replace (takes_positional output_args) with false by (vm_compute; reflexivity).
  assert (T : length (map (fun o => last (fst o) []) (table output_args)) = 2) by (vm_compute; reflexivity).
  rewrite <- T. apply (gstored_bounded _ _ _) with (seen := []); [|constructor|intros x []].
  intros a l v E. rewrite find_active_lookup in E. now apply lookup_in_longs in E.
Qed.

Lemma stored_gs argv : forall seen, stored seen argv = gstored (lookup options) swallowed true seen argv.
Proof.
  induction argv as [argv IH] using short_induction. intros seen. destruct argv as [|a rest]; [reflexivity|]. cbn [stored gstored].
  assert (R : forall s0, stored s0 rest = gstored (lookup options) swallowed true s0 rest) by (intros; apply IH; cbn [length]; lia).
  assert (R' : forall x rest' s0, rest = x :: rest' -> stored s0 rest' = gstored (lookup options) swallowed true s0 rest') by (intros; apply IH; subst; cbn [length]; lia).
  destruct (dashed a); [|now rewrite R]. destruct (lookup options a) as [[l v]|].
  - match goal with |- (if ?x then _ else _) = (if ?y then _ else _) => replace x with y by (symmetry; apply existsb_same); destruct y end; [apply R|].
    destruct v; [|now rewrite R].
    destruct rest as [|y rest]; [reflexivity|]. f_equal. now apply (R' y rest).
  - destruct (existsb (same_text a) catch2_with_value); [|apply R]. destruct rest as [|y rest]; [reflexivity|]. now apply (R' y rest).
Qed.

Lemma stored_table argv : stored [] argv = gstored (find_active expected_args) (swallows expected_args) (takes_positional expected_args) [] argv.
Proof.
  rewrite stored_gs. replace (takes_positional expected_args) with true by (vm_compute; reflexivity). symmetry. apply gstored_ext.
  - intros a. rewrite find_active_lookup. reflexivity.
  - intros a. rewrite swallows_valued by (vm_compute; reflexivity). reflexivity.
Qed.

Lemma capacity_spec cc path argv m : 2 <= c_max_args cc -> c_max_args cc <= m -> length argv <= m ->
  (stored [] argv <= c_max_args cc ->
     parse_arguments cc path argv = parse_arguments (mkcli (c_max_message cc) m (c_default_color cc) (c_version cc)) path argv) /\
  (c_max_args cc < stored [] argv -> parse_arguments cc path argv = Err Assert).
Proof.
  intros C2 CM CL. set (cc' := mkcli _ _ _ _).
  assert (EC : parse_color_options cc path argv = parse_color_options cc' path argv).
  { unfold parse_color_options.
    destruct (with_limited cc cc' output_args (mksettings true true true) path argv) as [E _]; [vm_compute; reflexivity..|reflexivity|exact CM|exact CL|].
    rewrite E; [reflexivity|]. pose proof (colours_few argv). lia. }
  assert (LC : length argv <= c_max_args cc') by exact CL.
  destruct (parse_colors_total cc' path argv LC) as (color & E'). rewrite stored_table.
  destruct (with_limited cc cc' expected_args (mksettings false false color) path argv) as [E1 E2]; [vm_compute; reflexivity..|reflexivity|exact CM|exact CL|].
  split; intros H.
  - specialize (E1 H). unfold parse_arguments. rewrite EC, E'. cbn [bind]. rewrite E1. unfold print_help, cc'. cbn [c_max_message c_version]. reflexivity.
  - specialize (E2 H). unfold parse_arguments. rewrite EC, E'. cbn [bind]. rewrite E2. reflexivity.
Qed.

Lemma gstored_accepted f s argv : forall seen, accepted seen (gread f s argv) = true ->
  gstored f s true seen argv = length (recorded (Some (quote "test regex")) (gread f s argv)).
Proof.
  induction argv as [argv IH] using short_induction. intros seen. destruct argv as [|a rest]; [reflexivity|]. cbn [gread gstored].
  assert (R : forall s0, accepted s0 (gread f s rest) = true -> gstored f s true s0 rest = length (recorded (Some (quote "test regex")) (gread f s rest)))
    by (intros s0; apply IH; cbn [length]; lia).
  assert (R' : forall x rest' s0, rest = x :: rest' -> accepted s0 (gread f s rest') = true ->
    gstored f s true s0 rest' = length (recorded (Some (quote "test regex")) (gread f s rest'))) by (intros x rest' s0 ->; apply IH; cbn [length]; lia).
  unfold recorded in *. destruct (dashed a).
  - destruct (f a) as [[l [v|]]|].
    + destruct rest as [|y rest]; cbn [accepted flat_map record_item app length]; [discriminate|].
      destruct (existsb (seqb l) seen) eqn:E; cbn [negb andb]; [discriminate|]. intros H. f_equal. now apply (R' y rest).
    + cbn [accepted flat_map record_item app length]. destruct (existsb (seqb l) seen) eqn:E; cbn [negb andb]; [discriminate|]. intros H. f_equal. now apply R.
    + destruct (s a); [destruct rest as [|y rest]|]; cbn [accepted flat_map record_item app length]; intros H; [reflexivity|now apply (R' y rest)|now apply R].
  - cbn [accepted flat_map record_item app length Nat.add]. intros H. f_equal. now apply R.
Qed.

Lemma stored_acceptable argv : acceptable argv -> stored [] argv = length (recorded (Some (quote "test regex")) (read argv)).
Proof. intros A. apply accepted_acceptable in A. rewrite stored_gs. rewrite read_gread in *. now apply gstored_accepted. Qed.

Lemma stored_le argv : forall seen, stored seen argv <= length argv.
Proof.
  induction argv as [argv IH] using short_induction. intros seen. destruct argv as [|a rest]; [reflexivity|]. cbn [stored length].
  assert (R : forall s0, stored s0 rest <= length rest) by (intros; apply IH; cbn [length]; lia).
  assert (R' : forall x rest' s0, rest = x :: rest' -> stored s0 rest' <= length rest') by (intros; apply IH; subst; cbn [length]; lia).
  destruct (dashed a); [|pose proof (R seen); lia]. destruct (lookup options a) as [[l v]|].
  - match goal with |- (if ?x then _ else _) <= _ => destruct x end; [pose proof (R seen); lia|].
    destruct v as [v|]; [|pose proof (R (l :: seen)); lia]. destruct rest as [|y rest]; [lia|]. pose proof (R' y rest (l :: seen) eq_refl). cbn [length]. lia.
  - destruct (existsb (same_text a) catch2_with_value); [|pose proof (R seen); lia]. destruct rest as [|y rest]; [lia|].
    pose proof (R' y rest seen eq_refl). cbn [length]. lia.
Qed.

Lemma main_capacity lm fuel file duration can_open r path argv : 2 <= l_max_command_line_args lm -> l_max_command_line_args lm < stored [] argv ->
  Session.main lm fuel can_open r path argv = Err Assert /\ Program.main_program lm fuel file duration can_open r path argv = Err Assert.
Proof.
  intros C H. destruct (capacity_spec (cli_of lm) path argv (l_max_command_line_args lm + length argv) C) as [_ E]; [cbn [cli_of c_max_args]; lia..|].
  unfold Session.main, Program.main_program. rewrite (E H). split; reflexivity.
Qed.

(** ** The rest of the program does not depend on the room *)
Definition with_room (lm : limits) (n : nat) : limits :=
  mklimits (l_max_nested lm) (l_max_captures lm) (l_max_capture_length lm) (l_max_message_length lm) (l_max_tag_length lm)
    (l_max_test_name_length lm) (l_max_unique_tags lm) n (l_max_reporters lm) (l_max_path_length lm) (l_default_with_color lm) (l_version lm).
Lemma configure_room lm n can_open r args : configure (with_room lm n) can_open r args = configure lm can_open r args.
Proof. destruct lm. reflexivity. Qed.
Lemma help_room lm n a b : print_help (cli_of (with_room lm n)) a b = print_help (cli_of lm) a b.
Proof. destruct lm. unfold print_help. cbn [cli_of c_max_message c_version with_room]. reflexivity. Qed.
Lemma impl_room lm n fuel r args : run_tests_impl (with_room lm n) fuel r args = run_tests_impl lm fuel r args.
Proof. unfold run_tests_impl. rewrite help_room. set (h := print_help (cli_of lm)). clearbody h. destruct lm. reflexivity. Qed.
Lemma run_room lm n fuel r args : run_tests (with_room lm n) fuel r args = run_tests lm fuel r args.
Proof. unfold run_tests. now rewrite impl_room. Qed.
Lemma program_room lm n fuel file duration r args : run_program (with_room lm n) fuel file duration r args = run_program lm fuel file duration r args.
Proof. unfold run_program. rewrite run_room. set (h := run_tests _ _ _ _). clearbody h. destruct lm. reflexivity. Qed.

Lemma main_room lm fuel file duration can_open r path argv room :
  2 <= l_max_command_line_args lm -> l_max_command_line_args lm <= room -> length argv <= room -> stored [] argv <= l_max_command_line_args lm ->
  Session.main lm fuel can_open r path argv = Session.main (with_room lm room) fuel can_open r path argv /\
  Program.main_program lm fuel file duration can_open r path argv = Program.main_program (with_room lm room) fuel file duration can_open r path argv.
Proof.
  intros C R L H. destruct (capacity_spec (cli_of lm) path argv room C R L) as [E _]. specialize (E H).
  change (mkcli (c_max_message (cli_of lm)) room (c_default_color (cli_of lm)) (c_version (cli_of lm))) with (cli_of (with_room lm room)) in E.
  unfold Session.main, Program.main_program. rewrite E. destruct (parse_arguments (cli_of (with_room lm room)) path argv) as [[printed [args|]]|]; cbn [bind]; [|split; reflexivity..].
  rewrite configure_room. destruct (configure lm can_open r args) as [[r1 out1]|]; cbn [bind]; [|split; reflexivity]. now rewrite run_room, program_room.
Qed.
