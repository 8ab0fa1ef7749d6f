(** Expressions and matchers (C44, C45). *)
From Verif.Spec Require Import TextSpec FilterSpec ExpressionSpec.
From Verif.Model Require Import Base Vector StringUtil Expression.
From Verif.Proofs Require Import Lists VectorProofs AppendProofs.
Local Open Scope list_scope.

Lemma kept_none n s : length s > n -> kept n s = [].
Proof. unfold kept. destruct (Nat.leb_spec (length s) n); auto. lia. Qed.

Lemma append_value_spec ss v : wf ss ->
  exists ss', append_value ss v = Ok (ss', length (vcontent ss ++ printed v) <=? vcap ss) /\ wf ss' /\ vcap ss' = vcap ss /\
    (length (vcontent ss ++ printed v) <= vcap ss -> vcontent ss' = vcontent ss ++ printed v).
Proof.
  intros W. assert (X : append_value ss v = append ss (printed v)) by (destruct v; reflexivity). rewrite X.
  destruct (append_content ss (printed v) W) as (ss' & E & W' & C & K). exists ss'. repeat split; auto.
  intros L. rewrite K. now apply firstn_all2.
Qed.
Lemma cleared (ss : sstr) : vcontent (vclear ss) = [].
Proof. reflexivity. Qed.

Section Expressions.
Variables (max : nat) (all expected : bool) (macro source : text).

Lemma binary_spec {A B} (c : comparisons A B) (show_l : A -> option text) (show_r : B -> option text) o a b :
  exists x, binary_expression max all expected macro source c show_l show_r o a b = Ok x /\
    x_type x = macro /\ x_expected x = source /\ x_success x = Bool.eqb (c o a b) expected /\
    vcontent (x_actual x) =
      if negb (x_success x) || all
      then kept max (printed (show_l a) ++ written (if c o a b then o else opposite o) ++ printed (show_r b)) else [].
Proof.
  unfold binary_expression. set (ok := Bool.eqb (c o a b) expected).
  destruct (negb ok || all) eqn:N; [|eexists; split; [reflexivity|]; cbn [x_type x_expected x_success x_actual]; rewrite N; auto].
  unfold nothing_shown. destruct (append_value_spec (new_string max) (show_l a) (wf_new max)) as (s1 & E1 & W1 & C1 & K1).
  rewrite E1. cbn [bind]. rewrite vcap_new, vcontent_new in *. cbn [app] in *.
  set (op := if c o a b then o else opposite o).
  assert (EO : forall ss, (if c o a b then append_value ss (Some (op_actual o)) else append_value ss (Some (op_inverse o))) = append_value ss (Some (written op))).
  { intros ss. subst op. destruct (c o a b), o; reflexivity. }
  destruct (Nat.leb_spec (length (printed (show_l a))) max) as [L1|L1].
  - rewrite EO. destruct (append_value_spec s1 (Some (written op)) W1) as (s2 & E2 & W2 & C2 & K2). rewrite E2. cbn [bind].
    rewrite C1, (K1 L1) in *. destruct (Nat.leb_spec (length (printed (show_l a) ++ printed (Some (written op)))) max) as [L2|L2].
    + destruct (append_value_spec s2 (show_r b) W2) as (s3 & E3 & W3 & C3 & K3). rewrite E3. cbn [bind]. rewrite C2, (K2 L2) in *.
      eexists. split; [reflexivity|]. cbn [x_type x_expected x_success x_actual]. rewrite N. do 3 (split; [reflexivity|]).
      cbn [printed] in *. rewrite <- app_assoc in *. unfold kept. unfold text, str in *.
      destruct (Nat.leb_spec (length (printed (show_l a) ++ written op ++ printed (show_r b))) max) as [L3|L3]; [auto|apply cleared].
    + eexists. split; [reflexivity|]. cbn [x_type x_expected x_success x_actual]. rewrite N. do 3 (split; [reflexivity|]). rewrite cleared, kept_none; auto.
      cbn [printed] in L2. rewrite !app_length in *. lia.
  - eexists. split; [reflexivity|]. cbn [x_type x_expected x_success x_actual]. rewrite N. do 3 (split; [reflexivity|]). rewrite cleared, kept_none; auto.
    rewrite !app_length in *. lia.
Qed.

Lemma one_value v : exists ss,
  (do (s1, ok) <- append_value (nothing_shown max) v ;; Ok (if ok : bool then s1 else vclear s1)) = Ok ss /\ vcontent ss = kept max (printed v).
Proof.
  unfold nothing_shown. destruct (append_value_spec (new_string max) v (wf_new max)) as (s1 & E1 & W1 & C1 & K1).
  rewrite E1. cbn [bind]. rewrite vcap_new, vcontent_new in *. cbn [app] in *. eexists. split; [reflexivity|].
  unfold kept. unfold text, str in *. destruct (Nat.leb_spec (length (printed v)) max); auto.
Qed.

Lemma unary_spec {A} (to_bool : A -> bool) (show : A -> option text) a :
  exists x, unary_expression max all expected macro source to_bool show a = Ok x /\
    x_type x = macro /\ x_expected x = source /\ x_success x = Bool.eqb (to_bool a) expected /\
    vcontent (x_actual x) = if negb (x_success x) || all then kept max (printed (show a)) else [].
Proof.
  unfold unary_expression. set (ok := Bool.eqb (to_bool a) expected).
  destruct (negb ok || all) eqn:N; [|eexists; split; [reflexivity|]; cbn [x_type x_expected x_success x_actual]; rewrite N; auto].
  destruct (one_value (show a)) as (ss & E & K). rewrite E. cbn [bind]. eexists. split; [reflexivity|]. cbn [x_type x_expected x_success x_actual]. rewrite N. auto.
Qed.

Lemma matcher_spec {A} (m : matcher A) equal value :
  exists x, matcher_expression max all expected macro source m equal value = Ok x /\
    x_type x = macro /\ x_expected x = source /\
    x_success x = Bool.eqb (if equal then matches m value else negb (matches m value)) expected /\
    vcontent (x_actual x) = if negb (x_success x) || all then kept max (describe m value (status_of (matches m value))) else [].
Proof.
  unfold matcher_expression. set (actual := if equal then _ else _). set (ok := Bool.eqb actual expected).
  destruct (negb ok || all) eqn:N; [|eexists; split; [reflexivity|]; cbn [x_type x_expected x_success x_actual]; rewrite N; auto].
  assert (ES : (if Bool.eqb equal actual then Matched else DidNotMatch) = status_of (matches m value)).
  { subst actual. destruct equal, (matches m value); reflexivity. }
  rewrite ES. destruct (one_value (Some (describe m value (status_of (matches m value))))) as (ss & E & K). rewrite E. cbn [bind].
  eexists. split; [reflexivity|]. cbn [x_type x_expected x_success x_actual]. rewrite N. auto.
Qed.

Lemma that_spec {A} mm (m : matcher A) value : (forall s, length (describe m value s) <= mm) ->
  exists x, that_expression max macro source mm m value = Ok x /\
    x_type x = macro /\ x_expected x = source /\ x_success x = matches m value /\
    vcontent (x_actual x) = fit max (describe m value (status_of (matches m value))).
Proof.
  intros L. unfold that_expression. set (r := if negb (matches m value) then _ else _).
  assert (R : r = (matches m value, describe m value (status_of (matches m value)))) by (subst r; destruct (matches m value); reflexivity).
  rewrite R. cbn [fst snd]. rewrite string_from_spec. specialize (L (status_of (matches m value))). pose proof L as L'. apply Nat.leb_le in L'.
  unfold text, str in *. rewrite L'. cbn [bind]. destruct (text_in_spec mm (describe m value (status_of (matches m value))) L) as (W & C & P).
  destruct (resize_or_truncate_spec max _ W) as (s' & E & _ & _ & K). rewrite E. cbn [bind]. eexists. split; [reflexivity|].
  cbn [x_type x_expected x_success x_actual]. rewrite K, C. auto.
Qed.
End Expressions.

(** ** Matchers *)
Lemma contains_spec pattern message : contains_match pattern message = true <-> occurs pattern message.
Proof.
  unfold contains_match. split.
  - destruct (find message pattern) as [n|] eqn:E; [|discriminate]. intros _. destruct (find_some _ _ _ E) as (a & b & H & _). exists a, b. exact H.
  - intros (a & b & H). destruct (find_occurs message pattern a b H) as (n & -> & _). reflexivity.
Qed.

Lemma fit_fit n a b : fit n (fit n a ++ b) = fit n (a ++ b).
Proof.
  unfold fit. destruct (Nat.leb_spec (length a) n) as [L|L]; auto.
  assert (LT : length (truncated n a) = n).
  { unfold truncated, dots. rewrite app_length, firstn_length, repeat_length. lia. }
  rewrite !app_length, LT. destruct (Nat.leb_spec (length a + length b) n) as [L2|L2]; [lia|].
  assert (T : truncated n (a ++ b) = truncated n a) by (unfold truncated; rewrite firstn_app_le by lia; auto).
  rewrite T. destruct (Nat.leb_spec (n + length b) n) as [L3|L3].
  - assert (b = []) as -> by (destruct b; [auto|cbn in L3; lia]). apply app_nil_r.
  - unfold truncated at 1. rewrite firstn_app_le by lia. unfold truncated. rewrite firstn_app_le by (rewrite firstn_length; lia).
    rewrite firstn_firstn, Nat.min_id. reflexivity.
Qed.

Lemma append_fit ss l s : wf ss -> vcontent ss = fit (vcap ss) s ->
  exists ss' b, append_or_truncate ss l = Ok (ss', b) /\ wf ss' /\ vcap ss' = vcap ss /\ vcontent ss' = fit (vcap ss) (s ++ List.concat l).
Proof.
  intros W K. destruct (append_or_truncate_spec ss l W) as (ss' & E & W' & C & K'). rewrite E. do 2 eexists. split; [reflexivity|].
  split; auto. split; auto. rewrite K', K. apply fit_fit.
Qed.

Lemma contains_describes mm pattern message status : exists ss, contains_describe mm pattern message status = Ok ss /\
  vcontent ss = fit mm (substring_description pattern message status).
Proof.
  unfold contains_describe. match goal with |- context [append_or_truncate (new_string mm) ?p] => destruct (append_fit (new_string mm) p [] (wf_new mm) eq_refl) as (ss & b & E & W & C & K) end.
  rewrite E. cbn [bind]. eexists. split; [reflexivity|]. rewrite K, vcap_new. f_equal. cbn [app List.concat]. rewrite app_nil_r.
  unfold substring_description, quoted, apostrophe_text, quote, lit. rewrite <- !app_assoc. reflexivity.
Qed.

Section AnyOf.
Context {A : Type}.
Variable equal : A -> A -> bool.
Variable show : A -> text.

Lemma any_of_spec l value : any_of_match equal l value = true <-> exists v, In v l /\ equal v value = true.
Proof.
  induction l as [|v l IH]; cbn [any_of_match]; [split; [discriminate|intros (v & [] & _)]|].
  destruct (equal v value) eqn:E.
  - split; auto. intros _. exists v. split; [now left|auto].
  - rewrite IH. split; intros (w & I & H); exists w; [split; [now right|auto]|]. destruct I as [<-|I]; [congruence|auto].
Qed.

Definition rest_of (l : list text) : text := concat (map (fun v => quote ", " ++ quoted v) l).
Lemma alternatives_cons v l : alternatives (v :: l) = quoted v ++ rest_of l.
Proof.
  revert v. induction l as [|w l IH]; intros v; [symmetry; apply app_nil_r|].
  change (alternatives (v :: w :: l)) with (quoted v ++ quote ", " ++ alternatives (w :: l)). rewrite IH. unfold rest_of. cbn [map concat].
  rewrite <- app_assoc. reflexivity.
Qed.
Lemma loop_rest l : forall ss s, wf ss -> vcontent ss = fit (vcap ss) s ->
  exists ss', any_of_loop show false l ss = Ok ss' /\ wf ss' /\ vcap ss' = vcap ss /\ vcontent ss' = fit (vcap ss) (s ++ rest_of (map show l)).
Proof.
  induction l as [|v l IH]; intros ss s W K; cbn [any_of_loop].
  - exists ss. rewrite app_nil_r. auto.
  - match goal with |- context [append_or_truncate ss ?p] => destruct (append_fit ss p s W K) as (ss1 & b & E & W1 & C1 & K1) end. rewrite E. cbn [bind]. rewrite <- C1 in K1.
    destruct (IH ss1 _ W1 K1) as (ss2 & E2 & W2 & C2 & K2). exists ss2. rewrite E2, C2, C1, K2. repeat split; auto. rewrite C1. f_equal.
    unfold rest_of. cbn [map concat List.concat]. unfold quoted, apostrophe_text, quote, lit. rewrite app_nil_r, <- !app_assoc. reflexivity.
Qed.
Lemma loop_all l ss s : wf ss -> vcontent ss = fit (vcap ss) s ->
  exists ss', any_of_loop show true l ss = Ok ss' /\ wf ss' /\ vcap ss' = vcap ss /\ vcontent ss' = fit (vcap ss) (s ++ alternatives (map show l)).
Proof.
  intros W K. destruct l as [|v l]; cbn [any_of_loop].
  - exists ss. rewrite app_nil_r. auto.
  - match goal with |- context [append_or_truncate ss ?p] => destruct (append_fit ss p s W K) as (ss1 & b & E & W1 & C1 & K1) end. rewrite E. cbn [bind]. rewrite <- C1 in K1.
    destruct (loop_rest l ss1 _ W1 K1) as (ss2 & E2 & W2 & C2 & K2). exists ss2. rewrite E2, C2, C1, K2. repeat split; auto. rewrite C1. f_equal.
    cbn [map]. rewrite alternatives_cons. cbn [List.concat]. unfold quoted, apostrophe_text, quote, lit. rewrite app_nil_r, <- !app_assoc. reflexivity.
Qed.
Lemma any_of_describes mm l value status : exists ss, any_of_describe show mm l value status = Ok ss /\
  vcontent ss = fit mm (any_of_description (show value) (map show l) status).
Proof.
  unfold any_of_describe. match goal with |- context [append_or_truncate (new_string mm) ?p] => destruct (append_fit (new_string mm) p [] (wf_new mm) eq_refl) as (s1 & b & E & W & C & K) end.
  rewrite E. cbn [bind]. rewrite <- C in K. destruct (loop_all l s1 _ W K) as (s2 & E2 & W2 & C2 & K2). rewrite E2. cbn [bind]. rewrite <- C2 in K2.
  match goal with |- context [append_or_truncate s2 ?p] => destruct (append_fit s2 p _ W2 K2) as (s3 & b3 & E3 & W3 & C3 & K3) end. rewrite E3. cbn [bind]. eexists. split; [reflexivity|].
  rewrite K3, C2, C, vcap_new. f_equal. unfold any_of_description, quoted, apostrophe_text. cbn [app List.concat]. unfold quote, lit.
  rewrite ?app_nil_r, <- !app_assoc. destruct status; reflexivity.
Qed.
End AnyOf.

(** ** In the form of the properties *)
Lemma eqb_iff a b : Bool.eqb a b = true <-> a = b.
Proof. apply Bool.eqb_true_iff. Qed.
Lemma shown_when (ok all : bool) (t u : text) : t = (if negb ok || all then u else []) ->
  (ok = false \/ all = true -> t = u) /\ (ok = true -> all = false -> t = []).
Proof. intros ->. destruct ok, all; cbn; split; intros; auto; try discriminate. destruct H; discriminate. Qed.

Lemma comparison_checked (A B : Type) (c : comparisons A B) (show_l : A -> option text) (show_r : B -> option text)
    (max : nat) (all expected : bool) (macro source : text) (o : operator) (a : A) (b : B) :
  exists x, binary_expression max all expected macro source c show_l show_r o a b = Ok x /\
    x_type x = macro /\ x_expected x = source /\
    (x_success x = true <-> c o a b = expected) /\
    (x_success x = false \/ all = true ->
       vcontent (x_actual x) =
         kept max (printed (show_l a) ++ written (if c o a b then o else opposite o) ++ printed (show_r b))) /\
    (x_success x = true -> all = false -> vcontent (x_actual x) = []).
Proof.
  destruct (binary_spec max all expected macro source c show_l show_r o a b) as (x & E & T & S & O & V). exists x.
  do 3 (split; auto). split; [rewrite O; apply eqb_iff|]. now apply shown_when.
Qed.
Lemma opposite_twice o : opposite (opposite o) = o.
Proof. now destruct o. Qed.
Lemma operator_holds (A B : Type) (c : comparisons A B) (show_l : A -> option text) (show_r : B -> option text)
    (max : nat) (all expected : bool) (macro source : text) (o : operator) (a : A) (b : B) : agreeing c ->
  exists x, binary_expression max all expected macro source c show_l show_r o a b = Ok x /\
    (vcontent (x_actual x) <> [] ->
     exists op, c op a b = true /\ vcontent (x_actual x) = printed (show_l a) ++ written op ++ printed (show_r b)) /\
    (x_success x = false -> vcontent (x_actual x) = [] ->
     forall op, (op = o \/ op = opposite o) -> c op a b = true ->
     max < length (printed (show_l a) ++ written op ++ printed (show_r b))).
Proof.
  intros G. destruct (binary_spec max all expected macro source c show_l show_r o a b) as (x & E & T & S & O & V). exists x. split; auto.
  set (op := if c o a b then o else opposite o) in V.
  assert (H : c op a b = true) by (subst op; destruct (c o a b) eqn:X; auto; rewrite G, X; reflexivity). split.
  - intros N. exists op. split; auto. rewrite V in N |- *. destruct (negb (x_success x) || all); [|now contradict N].
    unfold kept in *. destruct (_ <=? max); [auto|now contradict N].
  - intros F Z p P Q. assert (p = op) as ->.
    { subst op. destruct P as [->| ->]; [now rewrite Q|]. rewrite G in Q. destruct (c o a b); [discriminate|auto]. }
    rewrite F, Z in V. cbn [negb orb] in V. unfold kept in V. destruct (Nat.leb_spec (length (printed (show_l a) ++ written op ++ printed (show_r b))) max); [|lia].
    exfalso. symmetry in V. apply app_eq_nil in V as [_ V]. apply app_eq_nil in V as [V _]. destruct op; discriminate.
Qed.
Lemma unary_checked (A : Type) (to_bool : A -> bool) (show : A -> option text) (max : nat) (all expected : bool) (macro source : text) (a : A) :
  exists x, unary_expression max all expected macro source to_bool show a = Ok x /\
    x_type x = macro /\ x_expected x = source /\
    (x_success x = true <-> to_bool a = expected) /\
    (x_success x = false \/ all = true -> vcontent (x_actual x) = kept max (printed (show a))) /\
    (x_success x = true -> all = false -> vcontent (x_actual x) = []).
Proof.
  destruct (unary_spec max all expected macro source to_bool show a) as (x & E & T & S & O & V). exists x.
  do 3 (split; auto). split; [rewrite O; apply eqb_iff|]. now apply shown_when.
Qed.
Lemma matcher_checked (A : Type) (m : matcher A) (max : nat) (all expected : bool) (macro source : text) (equal : bool) (value : A) :
  exists x, matcher_expression max all expected macro source m equal value = Ok x /\
    x_type x = macro /\ x_expected x = source /\
    (x_success x = true <-> (if equal then matches m value else negb (matches m value)) = expected) /\
    (x_success x = false \/ all = true ->
       vcontent (x_actual x) = kept max (describe m value (if matches m value then Matched else DidNotMatch))) /\
    (x_success x = true -> all = false -> vcontent (x_actual x) = []).
Proof.
  destruct (matcher_spec max all expected macro source m equal value) as (x & E & T & S & O & V). exists x.
  do 3 (split; auto). split; [rewrite O; apply eqb_iff|]. now apply shown_when.
Qed.
Lemma opaque_checked max expected macro source value :
  let x := opaque_expression max expected macro source value in
  x_type x = macro /\ x_expected x = source /\ (x_success x = true <-> value = expected) /\ vcontent (x_actual x) = [].
Proof. cbn. repeat split; auto; apply eqb_iff. Qed.

(** ** Examples *)
Definition numbers : comparisons nat nat := fun o a b =>
  match o with
  | Less => a <? b | Greater => b <? a | LessEqual => a <=? b | GreaterEqual => b <=? a | Equal => a =? b | NotEqual => negb (a =? b)
  end.
Lemma numbers_agree : agreeing numbers.
Proof.
  intros o a b. destruct o; cbn [opposite numbers]; rewrite ?Bool.negb_involutive; auto; rewrite ?Nat.ltb_antisym, ?Bool.negb_involutive; auto.
Qed.
Definition digit (n : nat) : text := if n <? 10 then [ascii_of_nat (48 + n)] else [ascii_of_nat (48 + n / 10); ascii_of_nat (48 + n mod 10)].
Definition show_some (n : nat) : option text := Some (digit n).
Definition partly_ordered : comparisons (option nat) (option nat) := fun o a b =>
  match a, b with
  | Some a, Some b => numbers o a b
  | _, _ => match o with NotEqual => true | _ => false end
  end.
Definition show_number (x : option nat) : option text := Some (match x with Some n => digit n | None => quote "nan" end).
Lemma nan_shown :
  exists x, binary_expression 20 false true (quote "CHECK") (quote "a < b") partly_ordered show_number show_number Less None (Some 1) = Ok x /\
    x_success x = false /\ vcontent (x_actual x) = quote "nan" ++ written GreaterEqual ++ quote "1" /\
    partly_ordered GreaterEqual None (Some 1) = false.
Proof. eexists. split; [reflexivity|]. repeat split. Qed.
