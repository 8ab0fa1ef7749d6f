(** Code of the user called by checks (C84, C85). *)
From Verif.Spec Require Import TextSpec FilterSpec ExpressionSpec CaptureSpec Events RunSpec MacroSpec UserCodeSpec.
From Verif.Model Require Import Base Vector StringUtil Filter Run Expression Capture Macros UserCode.
From Verif.Proofs Require Import Lists VectorProofs AppendProofs ExpressionProofs CaptureProofs MacroProofs.
Local Open Scope list_scope.

Section UserCode.
Context {W : Type}.

Lemma living_append_spec ss (v : option (user_code W str)) w : wf ss ->
  match written_by v w with
  | Leaves _ _ => living_append ss v w = Err Terminate
  | Gives w1 t => exists ss', living_append ss v w = Ok (Gives w1 (ss', length (vcontent ss ++ t) <=? vcap ss)) /\ wf ss' /\
      vcap ss' = vcap ss /\ (length (vcontent ss ++ t) <= vcap ss -> vcontent ss' = vcontent ss ++ t)
  end.
Proof.
  intros Wf. destruct v as [f|]; cbn [written_by living_append].
  - destruct (f w) as [w1 t|w1 x]; cbn [called noexcept bind]; auto.
    destruct (append_content ss t Wf) as (ss' & E & W' & C & K). exists ss'. unfold text, str in *. rewrite E. cbn [bind]. repeat split; auto.
    intros L. rewrite K. now apply firstn_all2.
  - unfold giving. destruct (append_content ss (lit "?") Wf) as (ss' & E & W' & C & K). exists ss'. rewrite E. cbn [bind]. repeat split; auto.
    intros L. rewrite K. now apply firstn_all2.
Qed.

Lemma append_literal_spec ss s (w : W) : wf ss -> exists ss',
  append_literal ss s w = Ok (Gives w (ss', length (vcontent ss ++ s) <=? vcap ss)) /\ wf ss' /\
  vcap ss' = vcap ss /\ (length (vcontent ss ++ s) <= vcap ss -> vcontent ss' = vcontent ss ++ s).
Proof.
  intros Wf. unfold append_literal. destruct (append_content ss s Wf) as (ss' & E & W' & C & K). exists ss'. rewrite E. cbn [bind]. repeat split; auto.
  intros L. rewrite K. now apply firstn_all2.
Qed.

Lemma or_clear_spec ss (ok : bool) (w : W) : or_clear (Ok (Gives w (ss, ok))) = Ok (Gives w (if ok then ss else vclear ss)).
Proof. reflexivity. Qed.

Section Expressions.
Variables (max : nat) (all expected : bool) (macro source : str).

(** the operands, written in an empty string *)
Lemma writes_operands (o : operator) (r : bool) (f g : option (user_code W str)) w :
  let start t := t ++ written (if r then o else opposite o) in
  match and_then (written_by f) (fun l =>
          if length (start l) <=? max then and_then (written_by g) (fun t => giving (kept max (start l ++ t))) else giving []) w with
  | Leaves _ _ =>
    or_clear (and_also (and_also (living_append (new_string max) f w) (fun ss w2 =>
      if r then append_literal ss (op_actual o) w2 else append_literal ss (op_inverse o) w2))
      (fun ss w3 => living_append ss g w3)) = Err Terminate
  | Gives w' t => exists ss,
    or_clear (and_also (and_also (living_append (new_string max) f w) (fun ss w2 =>
      if r then append_literal ss (op_actual o) w2 else append_literal ss (op_inverse o) w2))
      (fun ss w3 => living_append ss g w3)) = Ok (Gives w' ss) /\ vcontent ss = t
  end.
Proof.
  intros start. set (op := if r then o else opposite o) in *.
  assert (EO : forall ss w2, (if r then append_literal ss (op_actual o) w2 else append_literal ss (op_inverse o) w2) = append_literal (W:=W) ss (written op) w2).
  { intros. subst op. destruct r, o; reflexivity. }
  remember (or_clear _) as P eqn:EP.
  pose proof (living_append_spec (new_string max) f w (wf_new max)) as P1. unfold and_then at 1.
  destruct (written_by f w) as [w1 l|w1 x]; [|unfold text, str in *; rewrite EP, P1; reflexivity].
  destruct P1 as (s1 & E1 & W1 & C1 & K1). unfold text, str in *. rewrite E1, vcap_new, vcontent_new in *. cbn [app] in *. unfold and_also in EP. cbn [bind] in EP.
  destruct (Nat.leb_spec (length l) max) as [L1|L1].
  - rewrite EO in EP. destruct (append_literal_spec s1 (written op) w1 W1) as (s2 & E2 & W2 & C2 & K2). unfold text, str in *. rewrite E2 in EP. cbn [bind] in EP.
    rewrite C1, (K1 L1) in *. fold (start l) in *. destruct (Nat.leb_spec (length (start l)) max) as [L2|L2].
    + pose proof (living_append_spec s2 g w1 W2) as P3. unfold and_then. destruct (written_by g w1) as [w3 t|w3 x]; [|unfold text, str in *; rewrite EP, P3; reflexivity].
      destruct P3 as (s3 & E3 & W3 & C3 & K3). unfold text, str in *. rewrite EP, E3, C2, (K2 L2) in *. cbn [giving]. eexists. split; [reflexivity|].
      unfold kept. destruct (Nat.leb_spec (length (start l ++ t)) max) as [L3|L3]; [auto|apply cleared].
    + rewrite EP. cbn [giving]. eexists. split; reflexivity.
  - destruct (Nat.leb_spec (length (start l)) max) as [L2|L2]; [unfold start in L2; rewrite app_length in L2; lia|].
    rewrite EP. eexists. split; reflexivity.
Qed.

Lemma writes_one (f : option (user_code W str)) w :
  match and_then (written_by f) (fun t => giving (kept max t)) w with
  | Leaves _ _ => or_clear (living_append (new_string max) f w) = Err Terminate
  | Gives w' t => exists ss, or_clear (living_append (new_string max) f w) = Ok (Gives w' ss) /\ vcontent ss = t
  end.
Proof.
  pose proof (living_append_spec (new_string max) f w (wf_new max)) as P. unfold and_then.
  destruct (written_by f w) as [w1 t|w1 x]; [|rewrite P; reflexivity]. destruct P as (ss & E & _ & C & K). rewrite E, vcap_new, vcontent_new in *. cbn [app] in *.
  unfold giving. eexists. split; [reflexivity|]. unfold kept. unfold text, str in *. destruct (Nat.leb_spec (length t) max); auto.
Qed.

(** What becomes of a check, as said by the model. *)
Definition said (r : res (answer W expression)) (f : fate W (bool * text)) : Prop :=
  match f with
  | Made w (ok, t) => exists x, r = Ok (Gives w x) /\ x_type x = macro /\ x_expected x = source /\ x_success x = ok /\ vcontent (x_actual x) = t
  | LeftWith w x => r = Ok (Leaves w x)
  | ProgramEnds => r = Err Terminate
  end.

Lemma made_silently (ok : bool) (w : W) :
  said (Ok (Gives w (mkexpression macro source (new_string max) ok))) (Made w (ok, [])).
Proof. cbn. eexists. repeat split; reflexivity. Qed.

Lemma condition_said (c : living_condition W) w :
  said (living_expression max all expected macro source c w) (condition_fate max all expected c w).
Proof.
  unfold condition_fate, living_expression. destruct c as [A B R n compare truth f g o a b|A n m equal a|A n truth f a|value]; cbn [evaluated declared_nothrow may_describe_throw operands].
  - unfold living_operator. unfold and_then at 1. destruct (compare o a b w) as [w1 r|w1 x]; cbn [called].
    2:{ destruct n; cbn; auto. }
    destruct (truth r w1) as [w2 v|w2 x]; [|destruct n; cbn; auto].
    assert (N : noexcept_if n (Ok (Gives w2 v)) = Ok (Gives w2 v)) by (destruct n; reflexivity). rewrite N. cbn [bind called]. unfold shown_if_needed.
    pose proof (writes_operands o v (f a) (g b) w2) as P. cbv zeta in P.
    destruct (Bool.eqb v expected) eqn:V, all; cbn [andb orb negb].
    all: try (destruct n; cbn; eexists; repeat split; reflexivity).
    all: unfold text, str in *; destruct (and_then _ _ w2) as [w3 t|w3 x]; [destruct P as (ss & -> & <-); destruct n; cbn; eexists; repeat split; reflexivity|rewrite P; destruct n; cbn; reflexivity].
  - unfold living_equal. unfold and_then at 1. destruct (asks_match m a w) as [w1 r|w1 x]; [|destruct n; cbn; auto].
    assert (N : noexcept_if n (Ok (Gives w1 r)) = Ok (Gives w1 r)) by (destruct n; reflexivity). rewrite N. cbn [bind called giving].
    assert (Q : (if equal then r else negb r) = Bool.eqb equal r) by (destruct equal, r; reflexivity). rewrite Q.
    assert (S : (if Bool.eqb equal (Bool.eqb equal r) then Matched else DidNotMatch) = status_of (Bool.eqb equal (Bool.eqb equal r))) by reflexivity. rewrite S.
    unfold shown_if_needed. set (v := Bool.eqb equal r). set (s := status_of _).
    destruct (Bool.eqb v expected) eqn:V, all; cbn [andb orb negb].
    all: try (destruct n; cbn; eexists; repeat split; reflexivity).
    all: unfold and_then; destruct (asks_description m a s w1) as [w2 d|w2 x]; cbn [called]; [|destruct n; cbn; reflexivity].
    all: destruct (append_literal_spec (new_string max) d w2 (wf_new max)) as (ss & E & _ & C & K); rewrite E, vcap_new, vcontent_new in *; cbn [app] in *; rewrite or_clear_spec; cbn [bind called giving].
    all: assert (T : vcontent (if length d <=? max then ss else vclear ss) = kept max d)
      by (unfold kept; unfold text, str in *; destruct (Nat.leb_spec (length d) max); auto).
    all: unfold text, str in *; destruct n; cbn [noexcept_if noexcept bind said giving]; eexists; repeat split; auto.
  - destruct (truth a w) as [w1 v|w1 x]; cbn [called]; [|destruct n; cbn; auto]. unfold shown_if_needed. pose proof (writes_one (f a) w1) as P.
    destruct (Bool.eqb v expected) eqn:V, all; cbn [andb orb negb].
    all: try (destruct n; cbn; eexists; repeat split; reflexivity).
    all: unfold text, str in *; destruct (and_then _ _ w1) as [w3 t|w3 x]; [destruct P as (ss & -> & <-); destruct n; cbn; eexists; repeat split; reflexivity|rewrite P; destruct n; cbn; reflexivity].
  - destruct (value w) as [w1 v|w1 x]; cbn [called]; [|cbn; auto]. cbn [giving].
    destruct (Bool.eqb v expected) eqn:V, all; cbn; eexists; repeat split; reflexivity.
Qed.

Lemma living_match_spec {A} (m : living_matcher W A) a w :
  living_match m a w = match consulted m a w with Gives w1 r => Ok (Gives w1 r) | Leaves _ _ => Err Terminate end.
Proof.
  unfold living_match, consulted, and_then, giving. destruct (asks_match m a w) as [w1 b|w1 x]; cbn [called noexcept bind]; auto.
  destruct b; cbn [negb status_of]; destruct (asks_description _ _ _ _) as [w2 d|w2 x]; reflexivity.
Qed.

Lemma that_said {A} mm (m : living_matcher W A) a w :
  (forall w0 s w1 d, asks_description m a s w0 = Gives w1 d -> length d <= mm) ->
  said (living_that max macro source mm m a w)
    (match consulted m a w with Gives w1 (b, d) => Made w1 (b, fit max d) | Leaves _ _ => ProgramEnds end).
Proof.
  intros L. unfold living_that. rewrite living_match_spec. destruct (consulted m a w) as [w1 [b d]|w1 x] eqn:E; cbn [bind called said fst snd]; auto.
  assert (Ld : length d <= mm).
  { unfold consulted, and_then, giving in E. destruct (asks_match m a w) as [w' b'|]; [|discriminate]. destruct (asks_description m a (status_of b') w') as [w2 d'|] eqn:D; [|discriminate].
    injection E as -> -> ->. eauto. }
  rewrite string_from_spec. pose proof Ld as L'. apply Nat.leb_le in L'. unfold text, str in *. rewrite L'. cbn [bind]. destruct (text_in_spec mm d Ld) as (Wf & C & P).
  destruct (resize_or_truncate_spec max _ Wf) as (s' & E' & _ & _ & K). rewrite E'. cbn [bind]. eexists. split; [reflexivity|].
  cbn [x_type x_expected x_success x_actual]. rewrite K, C. auto.
Qed.
End Expressions.

(** ** Checks *)
Section Checks.
Variables (cf : config) (max : nat) (all : bool) (id : test_id).

Lemma check_said abort expected source (c : living_condition W) st w :
  living_check cf max all id abort expected source c st w =
  match condition_fate max all expected c w with
  | Made w1 (ok, t) =>
    do st1 <- report_assertion cf id ok
                (Events.Expression (macro_name (RunTime (fun _ => tt)) abort (if expected then [] else quote "_FALSE")) source t) st ;;
    Ok (st1, w1, if ok then None else maybe_abort abort)
  | LeftWith w1 x => Ok (st, w1, Some x)
  | ProgramEnds => Err Terminate
  end.
Proof.
  unfold living_check, build_and_report.
  assert (N : require_name (RunTime (fun _ : nat => tt)) abort expected = macro_name (RunTime (fun _ => tt)) abort (if expected then [] else quote "_FALSE"))
    by (destruct abort, expected; reflexivity).
  rewrite N. set (macro := macro_name _ _ _). pose proof (condition_said max all expected macro source c w) as P.
  destruct (condition_fate max all expected c w) as [w1 [ok t]|w1 x|]; cbn [said] in P.
  - destruct P as (x & -> & <- & <- & <- & <-). cbn [bind]. unfold report_expression. destruct (report_assertion _ _ _ _ _); cbn [bind]; auto. now destruct (x_success x).
  - rewrite P. reflexivity.
  - rewrite P. reflexivity.
Qed.

Lemma check_that_said {A} abort value matcher (m : living_matcher W A) a st w :
  (forall w0 s w1 d, asks_description m a s w0 = Gives w1 d -> length d <= cf_max_message_length cf) ->
  living_check_that cf max id abort value matcher m a st w =
  match consulted m a w with
  | Gives w1 (ok, d) =>
    do st1 <- report_assertion cf id ok
                (Events.Expression (macro_name (RunTime (fun _ => tt)) abort (quote "_THAT")) (value ++ quote ", " ++ matcher) (fit max d)) st ;;
    Ok (st1, w1, if ok then None else maybe_abort abort)
  | Leaves _ _ => Err Terminate
  end.
Proof.
  intros L. unfold living_check_that, build_and_report.
  assert (N : that_name (RunTime (fun _ : nat => tt)) abort = macro_name (RunTime (fun _ => tt)) abort (quote "_THAT"))
    by (destruct abort; reflexivity).
  rewrite N. set (macro := macro_name _ _ _). pose proof (that_said max macro (value ++ quote ", " ++ matcher) (cf_max_message_length cf) m a w L) as P.
  change (lit ", ") with (quote ", "). destruct (consulted m a w) as [w1 [ok t]|w1 x]; cbn [said] in P.
  - destruct P as (x & -> & <- & <- & <- & <-). cbn [bind]. unfold report_expression. destruct (report_assertion _ _ _ _ _); cbn [bind]; auto. now destruct (x_success x).
  - rewrite P. reflexivity.
Qed.

Lemma throws_matches_said pass abort type accepts (m : living_matcher W exn) x st w :
  living_throws_matches cf id pass abort type accepts m x st w =
  match x with
  | Some e =>
    if accepts e then
      match consulted m e w with
      | Gives w1 (ok, d) =>
        do (st1, y) <- conclude cf id pass (ThrowsMatching type accepts (fun _ => ok) (fun _ => d)) abort x st ;; Ok (st1, w1, y)
      | Leaves w1 y => Ok (st, w1, Some y)
      end
    else do (st1, y) <- conclude cf id pass (ThrowsMatching type accepts (fun _ => true) (fun _ => [])) abort x st ;; Ok (st1, w, y)
  | None => do (st1, y) <- conclude cf id pass (ThrowsMatching type accepts (fun _ => true) (fun _ => [])) abort x st ;; Ok (st1, w, y)
  end.
Proof.
  unfold living_throws_matches, consulted, and_then, giving. destruct x as [e|]; [|reflexivity]. cbn [conclude]. destruct (accepts e); [|reflexivity].
  destruct (asks_match m e w) as [w1 b|w1 y]; [|reflexivity]. destruct b; cbn [negb status_of].
  - destruct (asks_description m e Matched w1) as [w2 d|w2 y]; [|reflexivity]. destruct (report_assertion2 _ _ _ _ _ _); reflexivity.
  - destruct (asks_description m e DidNotMatch w1) as [w2 d|w2 y]; [|reflexivity]. destruct (report_assertion2 _ _ _ _ _ _); reflexivity.
Qed.

(** ** Captures *)
Lemma append_all_said (l : list (user_code W str)) ss (w : W) : wf ss -> forall sofar, vcontent ss = sofar -> length sofar <= vcap ss ->
  match written_in_turn (vcap ss) sofar l w with
  | Leaves _ x => exists w1, living_append_all ss l w = Ok (Leaves w1 x)
  | Gives w1 t => exists ss' ok, living_append_all ss l w = Ok (Gives w1 (ss', ok)) /\ wf ss' /\ vcap ss' = vcap ss /\
      ok = (length t <=? vcap ss) /\ vcontent ss' = firstn (vcap ss) t
  end.
Proof.
  revert ss w. induction l as [|f l IH]; intros ss w Wf sofar C L; cbn [written_in_turn living_append_all].
  - unfold giving. exists ss, true. repeat split; auto. + symmetry. now apply Nat.leb_le. + rewrite C. symmetry. now apply firstn_all2.
  - unfold and_then. destruct (f w) as [w1 t|w1 x]; cbn [called]; [|eexists; reflexivity].
    destruct (append_content ss t Wf) as (ss1 & E & W1 & C1 & K1). unfold text, str in *. rewrite E. cbn [bind]. rewrite C in *. destruct (Nat.leb_spec (length (sofar ++ t)) (vcap ss)) as [L1|L1].
    + assert (K : vcontent ss1 = sofar ++ t) by (rewrite K1; now apply firstn_all2). assert (L2 : length (sofar ++ t) <= vcap ss1) by now rewrite C1.
      pose proof (IH ss1 w1 W1 (sofar ++ t) K L2) as Q. rewrite C1 in Q. exact Q.
    + unfold giving. exists ss1, false. repeat split; auto. symmetry. apply Nat.leb_gt. exact L1.
Qed.

Lemma append_or_truncate_said n (l : list (user_code W str)) (w : W) :
  match written_in_turn n [] l w with
  | Leaves _ _ => living_append_or_truncate (new_string n) l w = Err Terminate
  | Gives w1 t => exists c, living_append_or_truncate (new_string n) l w = Ok (Gives w1 c) /\ vcontent c = fit n t
  end.
Proof.
  pose proof (append_all_said l (new_string n) w (wf_new n) [] (vcontent_new n) ltac:(cbn; lia)) as P. rewrite vcap_new in P. unfold living_append_or_truncate.
  destruct (written_in_turn n [] l w) as [w1 t|w1 x].
  - destruct P as (ss & ok & -> & Wf & C & -> & K). cbn [bind called]. destruct (Nat.leb_spec (length t) n) as [L|L].
    + cbn [noexcept bind]. exists ss. split; auto. rewrite K. unfold fit. destruct (Nat.leb_spec (length t) n); [|lia]. now apply firstn_all2.
    + destruct (truncate_end_spec ss Wf) as (s2 & E2 & _ & _ & _ & K2). rewrite E2. cbn [bind noexcept]. exists s2. split; auto. rewrite K2.
      assert (V : vsize ss = n). { rewrite <- (vcontent_length ss Wf), K, firstn_length. lia. }
      unfold fit. destruct (Nat.leb_spec (length t) n); [lia|]. rewrite V, C, K. unfold truncated. rewrite firstn_firstn. f_equal. f_equal. lia.
  - destruct P as (w2 & ->). reflexivity.
Qed.

Lemma add_one_capture t st : length (captures (inf st)) <> cf_max_captures cf ->
  add_capture cf [t] st = let st1 := notify_exception_handled cf st in
    Ok (set_inf st1 (with_captures (inf st1) (captures (inf st1) ++ [fit (cf_max_capture_length cf) t]))).
Proof.
  intros N. unfold add_capture. apply Nat.eqb_neq in N. rewrite N. destruct (append_or_truncate_spec (new_string (cf_max_capture_length cf)) [t] (wf_new _)) as (ss & E & _ & _ & K).
  rewrite E. cbn [bind]. rewrite K, vcap_new, vcontent_new. cbn [app List.concat]. rewrite app_nil_r. reflexivity.
Qed.

Lemma capture_said (pieces : list (user_code W str)) st (w : W) : length (captures (inf st)) <> cf_max_captures cf ->
  living_add_capture cf pieces st w =
  match written_in_turn (cf_max_capture_length cf) [] pieces w with
  | Gives w1 t => do st1 <- add_capture cf [t] st ;; Ok (st1, w1)
  | Leaves _ _ => Err Terminate
  end.
Proof.
  intros N. unfold living_add_capture. pose proof (append_or_truncate_said (cf_max_capture_length cf) pieces w) as P.
  pose proof N as N'. apply Nat.eqb_neq in N'. rewrite N'. destruct (written_in_turn _ [] pieces w) as [w1 t|w1 x].
  - destruct P as (c & -> & K). cbn [bind]. rewrite add_one_capture by exact N. cbn [bind]. now rewrite K.
  - rewrite P. reflexivity.
Qed.

Lemma capture_full (pieces : list (user_code W str)) st (w : W) : length (captures (inf st)) = cf_max_captures cf -> living_add_capture cf pieces st w = Err Assert.
Proof. intros E. unfold living_add_capture. rewrite E, Nat.eqb_refl. reflexivity. Qed.

Lemma notify_keeps_inf st : inf (notify_exception_handled cf st) = inf st.
Proof.
  unfold notify_exception_handled. destruct (held st) as [h|]; auto. cbn [set_held inf].
  assert (G : forall l n s, inf (close_sections cf l n s) = inf s).
  { induction l as [|d l IH]; intros n s; cbn [close_sections]; auto. destruct (n <? _); auto. rewrite IH. unfold report_section_ended, report. destruct (_ <=? _); reflexivity. }
  apply G.
Qed.

Lemma trim_stripped a : label_known a -> trim a blanks = stripped a.
Proof. intros (_ & _ & X). apply (trimmed_unique a); [now apply trim_spec|now apply stripped_spec]. Qed.

Lemma captures_said args (values : list (user_code W str)) st (w : W) : length args = length values -> Forall label_known args ->
  length (captures (inf st)) + length values <= cf_max_captures cf ->
  living_add_captures cf (joined args) values st w =
  match captured_in_turn (cf_max_capture_length cf) (map stripped args) values w with
  | Gives w1 texts => do st1 <- add_captures cf (map (fun t => [t]) texts) st ;; Ok (st1, w1)
  | Leaves _ _ => Err Terminate
  end.
Proof.
  revert values st w. induction args as [|a args IH]; intros [|v values] st w L F R; try discriminate; [reflexivity|].
  inversion F as [|? ? Ka F']; subst. injection L as L. cbn [living_add_captures map captured_in_turn].
  assert (X : exists rest, extract_next_name (joined (a :: args)) = Ok (stripped a, rest) /\ (args <> [] -> rest = joined args)).
  { destruct (Ka) as (B & Z & _). rewrite <- trim_stripped by exact Ka. destruct args as [|a' args].
    - exists []. split; [now apply extract_last|congruence].
    - exists (joined (a' :: args)). split; auto. change (joined (a :: a' :: args)) with (a ++ ","%char :: joined (a' :: args)). now apply extract_first. }
  destruct X as (rest & E & ER). rewrite E. cbn [bind]. cbn [length] in R. assert (NE : length (captures (inf st)) <> cf_max_captures cf) by lia. rewrite capture_said by exact NE. unfold and_then at 1.
  change (lit " := ") with (quote " := "). unfold text, str in *. destruct (written_in_turn _ [] _ w) as [w1 t|w1 x]; [|reflexivity].
  rewrite add_one_capture by exact NE. cbn [bind]. set (st1 := set_inf _ _). unfold and_then, giving.
  assert (R1 : length (captures (inf st1)) + length values <= cf_max_captures cf).
  { unfold st1. cbn [set_inf inf with_captures captures]. rewrite notify_keeps_inf, app_length. cbn [length]. clear - R. unfold text, str in *. lia. }
  assert (Q : living_add_captures cf rest values st1 w1 = living_add_captures cf (joined args) values st1 w1).
  { destruct args as [|a' args]; [destruct values; [reflexivity|discriminate]|]. now rewrite ER. }
  rewrite Q, (IH values st1 w1 L F' R1). destruct (captured_in_turn _ _ values w1) as [w2 ts|w2 x]; [|reflexivity].
  cbn [map add_captures]. rewrite add_one_capture by exact NE. reflexivity.
Qed.
End Checks.
End UserCode.

(** ** Calls to matchers *)
Lemma consulted_recorded {W A} (m : living_matcher W A) a w l :
  match consulted m a w with
  | Gives w1 (b, d) => consulted (recorded m) a (w, l) = Gives (w1, l ++ [MatchCalled a b; DescribeCalled a (status_of b)]) (b, d)
  | Leaves _ x => exists w1 l1, consulted (recorded m) a (w, l) = Leaves (w1, l1) x
  end.
Proof.
  unfold consulted, and_then, recorded, giving. cbn [asks_match asks_description]. destruct (asks_match m a w) as [w1 b|w1 x]; [|eexists _, _; reflexivity].
  destruct (asks_description m a (status_of b) w1) as [w2 d|w2 x]; [|eexists _, _; reflexivity]. now rewrite <- app_assoc.
Qed.

Lemma that_calls {W A} max mm macro source (m : living_matcher W A) a w w1 calls x :
  living_that max macro source mm (recorded m) a (w, []) = Ok (Gives (w1, calls) x) ->
  calls = [MatchCalled a (x_success x); DescribeCalled a (status_of (x_success x))].
Proof.
  unfold living_that. rewrite living_match_spec. pose proof (consulted_recorded m a w []) as P. destruct (consulted m a w) as [w' [b d]|w' y].
  - rewrite P. cbn [bind called fst snd app]. destruct (string_from mm d) as [s|]; [|discriminate]. cbn [bind]. destruct (resize_or_truncate max s) as [s'|]; [|discriminate].
    cbn [bind]. injection 1 as <- <- <-. reflexivity.
  - destruct P as (w2 & l2 & ->). discriminate.
Qed.

Lemma equal_calls {W A} max all expected macro source nothrow equal (m : living_matcher W A) a w w1 calls x :
  living_expression max all expected macro source (LMatching nothrow (recorded m) equal a) (w, []) = Ok (Gives (w1, calls) x) ->
  exists b, x_success x = Bool.eqb (Bool.eqb equal b) expected /\
    calls = MatchCalled a b :: if negb (x_success x) || all then [DescribeCalled a (status_of b)] else [].
Proof.
  intros H. pose proof (condition_said max all expected macro source (LMatching nothrow (recorded m) equal a) (w, [])) as P. rewrite H in P.
  revert P. unfold condition_fate. cbn [evaluated operands may_describe_throw declared_nothrow]. unfold and_then, recorded, giving. cbn [asks_match asks_description].
  destruct (asks_match m a w) as [w2 b|w2 y]; [|destruct nothrow; cbn; intros; discriminate].
  assert (S : Bool.eqb equal (Bool.eqb equal b) = b) by (destruct equal, b; reflexivity). rewrite S.
  destruct (Bool.eqb (Bool.eqb equal b) expected) eqn:V, all; cbn [andb negb].
  all: try (destruct (asks_description m a (status_of b) w2) as [w3 d|w3 y]; [|destruct nothrow; cbn; intros; discriminate]).
  all: cbn [said]; intros (x' & E & _ & _ & S' & _); injection E as <- -> <-; exists b; rewrite S'; cbn [negb orb app]; auto.
Qed.

Lemma throws_calls {W} cf id pass abort type accepts (m : living_matcher W exn) e st w st1 w1 calls y :
  accepts e = true ->
  living_throws_matches cf id pass abort type accepts (recorded m) (Some e) st (w, []) = Ok (st1, (w1, calls), y) ->
  (calls = [] /\ exists w2 z, asks_match m e w = Leaves w2 z) \/ exists b, calls = [MatchCalled e b; DescribeCalled e (status_of b)].
Proof.
  intros A. rewrite throws_matches_said, A. unfold consulted, and_then, recorded, giving. cbn [asks_match asks_description]. destruct (asks_match m e w) as [w2 b|w2 x].
  - destruct (asks_description m e (status_of b) w2) as [w3 d|w3 x].
    + destruct (conclude _ _ _ _ _ _ _) as [[st2 z]|]; cbn [bind]; [|discriminate]. injection 1 as <- <- <- <-. right. exists b. reflexivity.
    + injection 1 as <- <- <- <-. right. exists b. reflexivity.
  - injection 1 as <- <- <- <-. left. split; [reflexivity|]. now exists w2, x.
Qed.

(** ** Matchers that keep what they computed *)
Lemma keeper_consulted {A K} (test : A -> bool) (keeps : A -> K) tells a w :
  consulted (keeper test keeps tells) a w = Gives (Some (keeps a)) (test a, tells (keeps a) (status_of (test a))).
Proof. reflexivity. Qed.

Lemma keeper_that {A K} (test : A -> bool) (keeps : A -> K) tells max mm macro source a w :
  (forall k s, length (tells k s) <= mm) ->
  exists x, living_that max macro source mm (keeper test keeps tells) a w = Ok (Gives (Some (keeps a)) x) /\
    x_type x = macro /\ x_expected x = source /\ x_success x = test a /\
    vcontent (x_actual x) = fit max (tells (keeps a) (status_of (test a))).
Proof.
  intros L. assert (L' : forall w0 s w1 d, asks_description (keeper test keeps tells) a s w0 = Gives w1 d -> length d <= mm).
  { intros [k|] s w1 d; cbn; [|discriminate]. injection 1 as <- <-. apply L. }
  pose proof (that_said max macro source mm (keeper test keeps tells) a w L') as P. rewrite keeper_consulted in P. exact P.
Qed.

Lemma keeper_equal {A K} (test : A -> bool) (keeps : A -> K) tells max all expected macro source nothrow equal a w :
  exists x, living_expression max all expected macro source (LMatching nothrow (keeper test keeps tells) equal a) w = Ok (Gives (Some (keeps a)) x) /\
    x_type x = macro /\ x_expected x = source /\ x_success x = Bool.eqb (Bool.eqb equal (test a)) expected /\
    vcontent (x_actual x) = if negb (x_success x) || all then kept max (tells (keeps a) (status_of (test a))) else [].
Proof.
  pose proof (condition_said max all expected macro source (LMatching nothrow (keeper test keeps tells) equal a) w) as P. revert P.
  unfold condition_fate. cbn [evaluated operands may_describe_throw declared_nothrow]. unfold and_then, keeper, giving. cbn [asks_match asks_description].
  assert (S : Bool.eqb equal (Bool.eqb equal (test a)) = test a) by (destruct equal, (test a); reflexivity). rewrite S.
  destruct (Bool.eqb (Bool.eqb equal (test a)) expected) eqn:V, all; cbn [andb negb said]; intros (x & E & T & X & O & C); exists x; rewrite O; cbn [negb orb]; auto.
Qed.

(** ** Code of the user that neither changes anything nor throws: Model/Macros.v *)
Lemma quietly_written {W A} (show : A -> option text) (a : A) (w : W) : written_by (quietly show a) w = Gives w (printed (show a)).
Proof. unfold quietly. destruct (show a); reflexivity. Qed.

Lemma quiet_fate {W} max all expected nothrow (c : condition) (w : W) :
  condition_fate max all expected (quiet_condition nothrow c) w =
  Made w (Bool.eqb (holds c) expected, if negb (Bool.eqb (holds c) expected) || all then kept max (with_operands c) else []).
Proof.
  unfold condition_fate. destruct c as [A B c show_l show_r o a b|A m equal a|A truth show a|v]; cbn [quiet_condition evaluated operands holds with_operands];
    unfold and_then, giving; cbn [asks_match asks_description].
  - rewrite quietly_written. unfold text. destruct (Bool.eqb (c o a b) expected), all; cbn [andb negb orb]; try reflexivity.
    all: destruct (Nat.leb_spec (length (printed (show_l a) ++ written (if c o a b then o else opposite o))) max) as [L|L];
      [rewrite quietly_written, <- app_assoc; reflexivity|].
    all: do 2 f_equal; symmetry; apply kept_none; rewrite app_assoc, app_length; lia.
  - assert (S : Bool.eqb equal (Bool.eqb equal (matches m a)) = matches m a) by (destruct equal, (matches m a); reflexivity). rewrite S.
    now destruct (Bool.eqb (Bool.eqb equal (matches m a)) expected), all.
  - rewrite quietly_written. now destruct (Bool.eqb (truth a) expected), all.
  - assert (K : kept max [] = []) by reflexivity. rewrite K. now destruct (Bool.eqb v expected), all.
Qed.

Lemma quiet_check {W} cf max all id pass abort expected source nothrow c st (w : W) :
  living_check cf max all id abort expected source (quiet_condition nothrow c) st w =
  do (st1, x) <- check_body cf max all id pass abort (Holds expected source (RunTime (fun _ => c))) (fun st => Ok (st, None)) st ;;
  Ok (st1, w, x).
Proof.
  rewrite check_said, quiet_fate. cbn [check_body next bind].
  assert (N : require_name (RunTime (fun _ : nat => c)) abort expected = macro_name (RunTime (fun _ => tt)) abort (if expected then [] else quote "_FALSE"))
    by (destruct abort, expected; reflexivity).
  rewrite N. destruct (condition_built max all (macro_name (RunTime (fun _ : nat => tt)) abort (if expected then [] else quote "_FALSE")) source expected c) as (x & E & S & P).
  rewrite E. cbn [bind]. unfold report_expression. rewrite P, S. unfold shown_condition. destruct (report_assertion _ _ _ _ _); cbn [bind]; auto.
  now destruct (Bool.eqb (holds c) expected).
Qed.

(** A check left with an exception is left as if its operands had thrown it. *)
Lemma left_like_raise {W} cf max all id pass line abort expected source (c : living_condition W) w w1 x e st :
  condition_fate max all expected c w = LeftWith w1 x ->
  scoped_check cf line (fun st => do (st1, _, y) <- living_check cf max all id abort expected source c st w ;; Ok (st1, y)) st =
  scoped_check cf line (check_body cf max all id pass abort (Holds expected source (RunTime e))
                          (exec_code cf max all id pass (Raise (fun _ => true) x Done))) st.
Proof.
  intros F. unfold scoped_check. destruct (check_begin cf line st) as [st1|]; [|reflexivity]. cbn [bind]. now rewrite check_said, F.
Qed.
