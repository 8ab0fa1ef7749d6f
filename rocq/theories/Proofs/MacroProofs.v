(** Tests written with macros (C67, C68). *)
From Verif.Spec Require Import TextSpec FilterSpec ExpressionSpec CaptureSpec Events MacroSpec.
From Verif.Model Require Import Base Vector StringUtil Filter Run Expression Capture Macros.
From Verif.Proofs Require Import Lists VectorProofs AppendProofs ExpressionProofs CaptureProofs.
Local Open Scope list_scope.

(** ** Labels *)
Lemma is_blank_spec c : is_blank c = true <-> blank c.
Proof.
  unfold is_blank, blank. rewrite existsb_exists. split.
  - intros (d & I & E). apply Ascii.eqb_eq in E. now subst.
  - intros I. exists c. split; auto. apply Ascii.eqb_refl.
Qed.
Lemma unindented_spec s : Exists (fun c => ~ blank c) s ->
  exists b c s', s = b ++ c :: s' /\ unindented s = c :: s' /\ Forall blank b /\ ~ blank c.
Proof.
  intros H. induction s as [|c s IH]; [now apply Exists_nil in H|]. cbn [unindented]. destruct (is_blank c) eqn:B.
  - apply is_blank_spec in B. apply Exists_cons in H as [H|H]; [contradiction|]. destruct (IH H) as (b & d & s' & E & U & F & N).
    exists (c :: b), d, s'. rewrite U, E. repeat split; auto.
  - exists [], c, s. repeat split; auto. intros X. apply is_blank_spec in X. congruence.
Qed.
Lemma stripped_spec s : Exists (fun c => ~ blank c) s -> trimmed s (stripped s).
Proof.
  intros H. destruct (unindented_spec s H) as (b & c & s' & E & U & F & N). unfold stripped. rewrite U.
  destruct (unindented_spec (rev (c :: s'))) as (b2 & c2 & s2 & E2 & U2 & F2 & N2).
  { apply Exists_exists. exists c. split; auto. apply in_rev. rewrite rev_involutive. now left. }
  rewrite U2. apply (f_equal (@rev _)) in E2. rewrite rev_involutive, rev_app_distr in E2.
  exists b, (rev b2). rewrite <- E2. repeat split; auto.
  - apply Forall_rev, F2.
  - destruct (rev (c2 :: s2)) as [|d t] eqn:R.
    + cbn in R. destruct (rev s2); discriminate.
    + exists d, t. split; auto. cbn in E2. injection E2 as -> _. exact N.
  - exists c2, (rev s2). split; auto.
Qed.

Lemma labels_stripped args values pass : length args = length values -> Forall label_known args ->
  capture_texts (joined args) (map (fun v : nat -> text => v pass) values) =
  Ok (map (fun l => l pass) (map (fun x pass => [stripped (fst x); quote " := "; snd x pass]) (List.combine args values))).
Proof.
  intros L F. destruct (labels args (map (fun v => v pass) values)) as (names & T & E); [now rewrite map_length|exact F|].
  rewrite E. f_equal. rewrite map_map. clear E.
  assert (S : names = map stripped args).
  { clear L values. revert names T. induction args as [|a args IH]; intros names T; inversion T; subst; auto.
    cbn [map]. inversion F; subst. f_equal; auto. apply (trimmed_unique a); auto. apply stripped_spec, H2. }
  subst names. clear F T. revert values L. induction args as [|a args IH]; intros [|v values] L; try discriminate; auto.
  cbn [map List.combine fst snd]. f_equal. apply IH. now injection L.
Qed.

Section Macros.
Variable cf : config.
Variable max : nat.
Variable all : bool.
Variable id : test_id.
Variable pass : nat.

Notation X := (exec cf id pass).
Notation XC := (exec_code cf max all id pass).

Lemma bind_assoc {A B C} (r : res A) (f : A -> res B) (g : B -> res C) : bind (bind r f) g = bind r (fun a => bind (f a) g).
Proof. now destruct r. Qed.
Lemma bind_ext {A B} (r : res A) (f g : A -> res B) : (forall a, f a = g a) -> bind r f = bind r g.
Proof. intros H. destruct r; cbn [bind]; auto. Qed.
Lemma next_ext f g r : (forall st, f st = g st) -> next f r = next g r.
Proof. intros H. apply bind_ext. intros [st [x|]]; auto. Qed.

Lemma next_next f g r : next (fun st => next g (f st)) r = next g (next f r).
Proof. destruct r as [[st [x|]]|]; reflexivity. Qed.

(** ** A check, one statement at a time *)
Definition judged (w : expectation) (abort : bool) (e : prog) (st : state) : res (state * option exn) :=
  do (st1, x) <- X e st ;; conclude cf id pass w abort x st1.

Lemma exec_check line w abort e k st : X (Check line w abort e k) st = next (X k) (scoped_check cf line (judged w abort e) st).
Proof.
  cbn [exec]. unfold next, scoped_check, judged. rewrite bind_assoc. apply bind_ext. intros st1. rewrite !bind_assoc. apply bind_ext.
  intros [st2 x]. apply bind_ext. intros [st3 y]. rewrite bind_assoc. apply bind_ext. intros st4. now destruct y.
Qed.
Lemma exec_skip line message abort k st : X (Skip line message abort k) st =
  next (X k) (scoped_check cf line (fun st1 => do st2 <- report_skipped cf id (message pass) st1 ;; Ok (st2, maybe_abort abort)) st).
Proof.
  cbn [exec]. unfold next, scoped_check. rewrite bind_assoc. apply bind_ext. intros st1. rewrite !bind_assoc. apply bind_ext.
  intros st2. cbn [bind]. rewrite bind_assoc. replace (is_some (maybe_abort abort)) with abort by (destruct abort; reflexivity).
  apply bind_ext. intros st3. destruct abort; reflexivity.
Qed.

Lemma scoped_ext line f g st : (forall st, f st = g st) -> scoped_check cf line f st = scoped_check cf line g st.
Proof. intros H. apply bind_ext. intros st1. now rewrite H. Qed.

(** Two checks on the same line, in one scope or in two. *)
Lemma report_keeps ok what st st' : report_assertion cf id ok what st = Ok st' ->
  locations (inf st') = locations (inf st) /\ in_check st' = in_check st /\ (held st = None -> held st' = None).
Proof.
  unfold report_assertion. destruct (is_skipped (status st)); [intros H; injection H as <-; auto|].
  assert (K : locations (inf (register_assertion ok st)) = locations (inf st) /\ in_check (register_assertion ok st) = in_check st /\
              (held st = None -> held (register_assertion ok st) = None)).
  { unfold register_assertion. destruct (held st) as [h|] eqn:E; cbn [held set_asserts set_inf]; rewrite ?E; destruct ok, (may_fail st || should_fail st); cbn;
      unfold raise_state; repeat match goal with |- context [if ?b then _ else _] => destruct b end; cbn; rewrite ?E; auto; repeat split; auto; discriminate. }
  destruct (back _) as [l|]; cbn [bind]; [|discriminate]. intros H. injection H as <-.
  destruct ok; unfold report; destruct (_ <=? _); cbn; auto.
Qed.

Lemma reopened line st st1 st2 : check_begin cf line st = Ok st1 ->
  locations (inf st2) = locations (inf st1) -> in_check st2 = in_check st1 -> (held st1 = None -> held st2 = None) ->
  exists st3, check_end false st2 = Ok st3 /\ check_begin cf line st3 = Ok st2.
Proof.
  unfold check_begin, push_location, push_back. intros H L C HH.
  set (st0 := notify_exception_handled cf st) in *. assert (HN : held st0 = None).
  { subst st0. unfold notify_exception_handled. destruct (held st) eqn:E; auto. }
  destruct (length (locations (inf st0)) =? cf_max_nested cf + 2) eqn:F; [discriminate|]. cbn [bind] in H. injection H as <-.
  cbn [inf locations set_inf with_locations set_in_check in_check held] in *. specialize (HH HN).
  unfold check_end, hold, pop_location. cbn [held set_in_check]. rewrite HH. cbn [inf set_in_check]. rewrite L. unfold pop_back.
  destruct (locations (inf st0) ++ _) as [|a t] eqn:E at 1; [destruct (locations (inf st0)); discriminate|]. clear a t E.
  cbn [bind]. rewrite removelast_last. eexists. split; [reflexivity|].
  unfold notify_exception_handled. cbn [held set_inf set_in_check]. rewrite HH. cbn [inf set_inf locations with_locations]. rewrite F. cbn [bind].
  destruct st2 as [[cs lv d lf cp ls] hd ac mf sf ic un stt tr]. cbn in *. subst. reflexivity.
Qed.

Lemma two_checks line A B st :
  (forall st1 st2, B st1 = Ok (st2, None) -> locations (inf st2) = locations (inf st1) /\ in_check st2 = in_check st1 /\ (held st1 = None -> held st2 = None)) ->
  scoped_check cf line (fun st => next A (B st)) st = next (scoped_check cf line A) (scoped_check cf line B st).
Proof.
  intros K. unfold scoped_check at 1 3. destruct (check_begin cf line st) as [st1|] eqn:E; cbn [bind]; [|reflexivity].
  destruct (B st1) as [[st2 x]|] eqn:EB; cbn [bind next]; [|reflexivity]. destruct x as [x|].
  - cbn [bind]. destruct (check_end _ _); reflexivity.
  - destruct (K _ _ EB) as (K1 & K2 & K3). destruct (reopened line st st1 st2 E K1 K2 K3) as (st3 & E3 & E4).
    cbn [is_some]. rewrite E3. cbn [bind next]. unfold scoped_check. rewrite E4. reflexivity.
Qed.

(** ** Expressions *)
Lemma condition_built macro source expected c : exists x, to_expression max all macro expected source c = Ok x /\
  x_success x = Bool.eqb (holds c) expected /\
  Events.Expression (x_type x) (x_expected x) (vcontent (x_actual x)) = shown_condition max all macro source expected c.
Proof.
  destruct c as [A B c show_l show_r o a b|A m equal a|A truth show a|v]; cbn [to_expression].
  - destruct (binary_spec max all expected macro source c show_l show_r o a b) as (x & E & E1 & E2 & E3 & E4). exists x.
    rewrite E1, E2, E4, E3. auto.
  - destruct (matcher_spec max all expected macro source m equal a) as (x & E & E1 & E2 & E3 & E4). exists x.
    assert (EQ : (if equal then matches m a else negb (matches m a)) = Bool.eqb equal (matches m a)) by (destruct equal, (matches m a); reflexivity).
    rewrite E1, E2, E4, E3, EQ. auto.
  - destruct (unary_spec max all expected macro source truth show a) as (x & E & E1 & E2 & E3 & E4). exists x. rewrite E1, E2, E4, E3. auto.
  - exists (opaque_expression max expected macro source v). cbn. unfold shown_condition, kept. cbn. destruct (_ || all); auto.
Qed.
Lemma request_built macro source r : small_request (cf_max_message_length cf) r ->
  exists x, that_to_expression cf max macro source r = Ok x /\
  x_success x = matches (r_matcher r) (r_value r) /\
  Events.Expression (x_type x) (x_expected x) (vcontent (x_actual x)) =
    Events.Expression macro source (fit max (describe (r_matcher r) (r_value r) (status_of (matches (r_matcher r) (r_value r))))).
Proof.
  intros S. destruct (that_spec max macro source (cf_max_message_length cf) (r_matcher r) (r_value r) S) as (x & E & E1 & E2 & E3 & E4).
  exists x. unfold that_to_expression. rewrite E1, E2, E4. auto.
Qed.

(** What a built expression is, and the report of it. *)
Definition builds (r : res expression) (what : payload) (ok : bool) : Prop :=
  exists x, r = Ok x /\ x_success x = ok /\ Events.Expression (x_type x) (x_expected x) (vcontent (x_actual x)) = what.

Lemma reported abort r what ok st : builds r what ok ->
  (do x <- r ;; report_expression cf id abort x st) = (do st1 <- report_assertion cf id ok what st ;; Ok (st1, if ok then None else maybe_abort abort)).
Proof. intros (x & -> & <- & <-). cbn [bind]. unfold report_expression. apply bind_ext. intros st1. now destruct (x_success x). Qed.

Lemma judged_true what outcome abort e st eval (r : res expression) : (forall st, eval st = X e st) -> builds r (what pass) (outcome pass) ->
  next (fun st1 => do x <- r ;; report_expression cf id abort x st1) (eval st) = judged (IsTrue what outcome) abort e st.
Proof.
  intros EV B. unfold next, judged. rewrite EV. apply bind_ext. intros [st1 [x|]]; [reflexivity|]. rewrite (reported _ _ _ _ _ B). reflexivity.
Qed.
Lemma judged_static what outcome abort st (r : res expression) : builds r (what pass) (outcome pass) ->
  (do x <- r ;; report_expression cf id abort x st) = judged (IsTrue what outcome) abort Nil st.
Proof. intros B. rewrite (reported _ _ _ _ _ B). reflexivity. Qed.

Lemma judged_keeps what outcome abort st1 st2 : judged (IsTrue what outcome) abort Nil st1 = Ok (st2, None) ->
  locations (inf st2) = locations (inf st1) /\ in_check st2 = in_check st1 /\ (held st1 = None -> held st2 = None).
Proof.
  unfold judged. cbn [exec bind conclude]. destruct (report_assertion cf id (outcome pass) (what pass) st1) as [st'|] eqn:E; cbn [bind]; [|discriminate].
  intros H. injection H as <- _. eapply report_keeps, E.
Qed.

(** ** Checks *)
Lemma require_named {T} (e : evaluation T) abort expected :
  require_name e abort expected = macro_name e abort (if expected then [] else quote "_FALSE").
Proof. destruct e, abort, expected; reflexivity. Qed.
Lemma that_named {T} (e : evaluation T) abort : that_name e abort = macro_name e abort (quote "_THAT").
Proof. destruct e, abort; reflexivity. Qed.

Lemma do_check line abort c e k st (eval : state -> res (state * option exn)) (rest : state -> res (state * option exn)) :
  (forall st, eval st = X e st) -> (forall st, rest st = X k st) ->
  match c with That _ _ ev => Forall (fun x => forall pass, small_request (cf_max_message_length cf) (snd x pass)) (evaluations ev) | _ => True end ->
  next rest (scoped_check cf line (check_body cf max all id pass abort c eval) st) = X (assertions max all line abort c e k) st.
Proof.
  intros EV EK P. rewrite (next_ext _ (X k) _ EK). clear EK rest.
  destruct c as [positive source ev|value matcher ev|message|message|type accepts|type accepts m|source]; unfold check_body; cbv zeta; cbn [assertions].
  - rewrite require_named. set (name := macro_name ev abort _). destruct ev as [v|v|v w]; cbn [evaluations fold_right].
    + rewrite exec_check. f_equal. apply scoped_ext. intros st1. apply judged_true; auto. unfold builds. rewrite app_nil_r. apply condition_built.
    + rewrite exec_check. f_equal. apply scoped_ext. intros st1. apply judged_static. unfold builds. rewrite app_nil_r. apply condition_built.
    + rewrite exec_check. rewrite (next_ext (X (Check _ _ _ _ _)) _ _ (fun st => exec_check _ _ _ _ _ _)).
      rewrite next_next. f_equal. rewrite <- two_checks by apply judged_keeps. apply scoped_ext. intros st1.
      transitivity (next (fun st => judged (IsTrue (fun pass => shown_condition max all (name ++ quote "[run-time]") source positive (w pass)) (fun pass => Bool.eqb (holds (w pass)) positive)) abort e st)
         (do x <- to_expression max all (name ++ lit "[compile-time]") positive source v ;; report_expression cf id abort x st1)).
      * apply next_ext. intros st2. apply judged_true; auto. apply condition_built.
      * f_equal. apply judged_static. apply condition_built.
  - rewrite that_named. set (name := macro_name ev abort _). destruct ev as [v|v|v w]; cbn [evaluations fold_right] in *.
    + rewrite exec_check. f_equal. apply scoped_ext. intros st1. apply judged_true; auto. unfold builds. rewrite app_nil_r. apply request_built.
      inversion P; subst. apply H1.
    + rewrite exec_check. f_equal. apply scoped_ext. intros st1. apply judged_static. unfold builds. rewrite app_nil_r. apply request_built.
      inversion P; subst. apply (H1 0).
    + inversion P as [|? ? P1 P2]; subst. inversion P2 as [|? ? P3 P4]; subst. cbn [snd] in *. specialize (P1 0).
      rewrite exec_check. rewrite (next_ext (X (Check _ _ _ _ _)) _ _ (fun st => exec_check _ _ _ _ _ _)).
      rewrite next_next. f_equal. rewrite <- two_checks by apply judged_keeps. apply scoped_ext. intros st1.
      match goal with |- _ = next ?j _ => transitivity (next j
         (do x <- that_to_expression cf max (name ++ lit "[compile-time]") (value ++ lit ", " ++ matcher) v ;; report_expression cf id abort x st1)) end.
      * apply next_ext. intros st2. apply judged_true; auto. apply request_built, P3.
      * f_equal. apply judged_static. apply request_built, P1.
  - rewrite exec_check. f_equal. apply scoped_ext. intros st1. unfold next, judged. rewrite EV. apply bind_ext. intros [st2 [x|]]; reflexivity.
  - rewrite exec_check. f_equal. apply scoped_ext. intros st1. unfold next, judged. rewrite EV. apply bind_ext. intros [st2 [x|]]; reflexivity.
  - rewrite exec_check. f_equal. apply scoped_ext. intros st1. unfold judged. now rewrite EV.
  - rewrite exec_check. f_equal. apply scoped_ext. intros st1. unfold judged. rewrite EV. apply bind_ext. intros [st2 [x|]]; [|reflexivity].
    cbn [conclude]. destruct (accepts x); [|reflexivity]. destruct (matches m x); reflexivity.
  - rewrite exec_check. f_equal. apply scoped_ext. intros st1. unfold judged. now rewrite EV.
Qed.

Lemma exec_meaning b : proper (cf_max_message_length cf) b -> forall st, XC b st = X (meaning max all b) st.
Proof.
  induction b as [|n k IHk|when x k IHk|line abort c e IHe k IHk|line abort message k IHk|s b IHb k IHk|args values b IHb k IHk|pieces b IHb k IHk|accepts notify b IHb k IHk];
    intros P st; cbn [exec_code meaning proper] in *.
  - reflexivity.
  - apply IHk, P.
  - cbn [exec]. destruct (when pass); auto.
  - destruct P as (P1 & P2 & P3). apply do_check; auto.
  - rewrite exec_skip. apply next_ext. auto.
  - destruct P as [P1 P2]. cbn [exec]. apply bind_ext. intros [st1 entered]. destruct entered.
    + rewrite IHb by auto. apply bind_ext. intros [st2 x]. apply bind_ext. intros st3. destruct x; [reflexivity|]. apply IHk, P2.
    + cbn [bind is_some]. apply bind_ext. intros st3. apply IHk, P2.
  - destruct P as (P1 & P2 & P3 & P4). cbn [exec]. rewrite labels_stripped by auto. cbn [bind]. apply bind_ext. intros st1.
    rewrite IHb by auto. apply bind_ext. intros [st2 x]. rewrite map_length, combine_length, P1, Nat.min_id. apply bind_ext. intros st3.
    destruct x; [reflexivity|]. apply IHk, P4.
  - destruct P as [P1 P2]. cbn [exec map add_captures length]. rewrite bind_assoc. apply bind_ext. intros st1. cbn [bind]. rewrite IHb by auto.
    apply bind_ext. intros [st2 x]. apply bind_ext. intros st3. destruct x; [reflexivity|]. apply IHk, P2.
  - destruct P as [P1 P2]. cbn [exec]. rewrite IHb by auto. apply bind_ext. intros [st1 x]. destruct x as [y|]; [|apply IHk, P2].
    destruct (accepts y); [apply IHk, P2|reflexivity].
Qed.
End Macros.

(** ** Whole tests *)
Lemma passes_same once cf id p : (forall pass st, once pass st = exec cf id pass p st) ->
  forall fuel pass st, passes_of once fuel pass st = passes cf id p fuel pass st.
Proof.
  intros H. induction fuel as [|fuel IH]; intros pass st; cbn [passes_of passes]; [reflexivity|]. rewrite H. apply bind_ext. intros [st2 [x|]]; [reflexivity|].
  cbv zeta. destruct (_ && _); [apply IH|reflexivity].
Qed.
Lemma run_same cf fuel id line once p tr0 : (forall pass st, once pass st = exec cf id pass p st) ->
  run_of cf fuel id line once tr0 = run cf fuel (mktest id line p) tr0.
Proof.
  intros H. unfold run_of, run. cbn [t_id t_line t_body]. apply bind_ext. intros [may should]. apply bind_ext. intros st1.
  rewrite (passes_same once cf id p H). reflexivity.
Qed.

Lemma macros_mean cf max all fuel id line b tr0 : proper (cf_max_message_length cf) b ->
  run_code cf max all fuel id line b tr0 = run cf fuel (mktest id line (meaning max all b)) tr0.
Proof. intros P. apply run_same. intros pass st. now apply exec_meaning. Qed.
