(** C87: the texts of values. *)
From Verif.Model Require Import Base Vector StringUtil Integer Fixed FloatText File Values.
From Verif.Spec Require Import TextSpec NumberSpec FloatSpec ValueSpec.
From Verif.Proofs Require Import Lists VectorProofs AppendProofs IntegerProofs NumberForms FloatForms FloatTextProofs.
Local Open Scope N_scope.

(** What appending [T] does. *)
Definition appends (ss : sstr) (r : res (sstr * bool)) (T : str) : Prop :=
  exists ss' b, r = Ok (ss', b) /\ wf ss' /\ vcap ss' = vcap ss /\
    vcontent ss' = firstn (vcap ss) (vcontent ss ++ T) /\ b = (length (vcontent ss ++ T) <=? vcap ss)%nat.

Lemma append_appends ss s : wf ss -> appends ss (append ss s) s.
Proof. intros W. destruct (append_content ss s W) as (ss' & E & W' & C & K). exists ss'. eexists. eauto 10. Qed.

Lemma view_appends ev ss s : wf ss -> appends ss (append_view ev ss s) s.
Proof. intros W. destruct ev; cbn [append_view]; [rewrite append_constexpr_eq by auto|]; now apply append_appends. Qed.

Lemma portable_appends ss addr : wf ss -> 0 < addr < 2 ^ 64 ->
  exists hex, writes_fixed 16 16 hex addr /\ appends ss (append_ptr_portable ss addr) (lit "0x" ++ hex).
Proof.
  intros W A. destruct (num_digits_u_total 16 ltac:(lia) ltac:(lia) int_fuel addr) as [m Em]; try apply A. discriminate.
  pose proof (num_digits_u_hex 16 ltac:(lia) ltac:(lia) addr m eq_refl (proj2 A) Em) as M16.
  pose proof (to_chars_digits_eq 16 ltac:(lia) ltac:(lia) _ _ _ Em) as Et. fold (to_chars_uint 16 addr) in Et.
  set (hex := repeat "0"%char (16 - m) ++ to_chars_uint 16 addr). exists hex. split.
  { split.
    - unfold hex. rewrite IntegerProofs.read_zeros. apply (to_chars_uint_writes 16 addr); lia.
    - unfold hex. rewrite app_length, repeat_length, Et, digs_length. lia. }
  unfold append_ptr_portable, appends. destruct (N.eqb_spec addr 0); [lia|].
  fold (append ss (lit "0x")).
  destruct (append_content ss (lit "0x") W) as (ss1 & E1 & W1 & C1 & K1). rewrite E1. cbn [bind].
  destruct (Nat.leb_spec (length (vcontent ss ++ lit "0x")) (vcap ss)) as [L1|L1]; cbn [negb].
  2:{ exists ss1, false. repeat split; auto.
      - rewrite K1, app_assoc. rewrite (firstn_app_le _ (vcontent ss ++ lit "0x")); auto. lia.
      - symmetry. apply Nat.leb_gt. rewrite app_assoc, app_length. lia. }
  rewrite firstn_all2 in K1 by auto.
  rewrite Em. cbn [bind]. rewrite csub_ok by lia. cbn [bind]. rewrite pad_loop_spec by (auto; lia).
  destruct (append_content ss1 (repeat "0"%char (16 - m)) W1) as (ss2 & E2 & W2 & C2 & K2). rewrite E2. cbn [bind].
  rewrite C1, K1 in *.
  assert (Q : vcontent ss ++ lit "0x" ++ hex = ((vcontent ss ++ lit "0x") ++ repeat "0"%char (16 - m)) ++ to_chars_uint 16 addr).
  { unfold hex. now rewrite <- !app_assoc. }
  rewrite Q.
  destruct (Nat.leb_spec (length ((vcontent ss ++ lit "0x") ++ repeat "0"%char (16 - m))) (vcap ss)) as [L2|L2]; cbn [negb].
  2:{ exists ss2, false. repeat split; auto.
      - rewrite K2. rewrite (firstn_app_le _ ((vcontent ss ++ lit "0x") ++ repeat "0"%char (16 - m))); auto. lia.
      - symmetry. apply Nat.leb_gt. rewrite app_length. lia. }
  rewrite firstn_all2 in K2 by auto.
  rewrite append_uint_constexpr_spec by (auto; lia).
  destruct (append_content ss2 (to_chars_uint 16 addr) W2) as (ss3 & E3 & W3 & C3 & K3).
  rewrite E3. exists ss3. eexists. rewrite C2, K2 in *. repeat split; auto.
Qed.

Lemma pow_mono w : (1 <= w <= 64)%nat -> (2 ^ Z.of_nat w <= 2 ^ 64 /\ 2 ^ (Z.of_nat w - 1) <= 2 ^ 63)%Z.
Proof. intros H. split; apply Z.pow_le_mono_r; lia. Qed.

Lemma cast_signed w z : (1 <= w <= 64)%nat -> integer_range true w z -> to_large_int z = z /\ (- 2 ^ 63 <= z < 2 ^ 63)%Z.
Proof.
  intros L R. pose proof (pow_mono w L). cbn [integer_range] in R. assert (- 2 ^ 63 <= z < 2 ^ 63)%Z by lia. split; auto.
  unfold to_large_int. rewrite Z.mod_small by lia. lia.
Qed.

Lemma cast_unsigned w z : (1 <= w <= 64)%nat -> integer_range false w z -> Z.of_N (to_large_uint z) = z /\ to_large_uint z < 2 ^ 64.
Proof.
  intros L R. pose proof (pow_mono w L). cbn [integer_range] in R. assert (0 <= z < 2 ^ 64)%Z by lia.
  unfold to_large_uint. rewrite Z.mod_small by lia. split; lia.
Qed.

Lemma writes_as_int s n : writes 10 s n -> writes_int s (Z.of_N n).
Proof. intros H. left. split; [lia|]. now rewrite N2Z.id. Qed.

(** Enough garbage for any failing [std::to_chars], and texts that fit in the temporary string. *)
Definition fair (ev : evaluation) (ss : sstr) : Prop :=
  match ev with
  | AtRunTime (Some std) g1 _ => (vcap ss <= length g1)%nat /\ (forall f b, length (std f b) <= 32)%nat
  | _ => True
  end.
Definition at_compile_time (ev : evaluation) : bool := match ev with AtCompileTime => true | _ => false end.
Definition std_texts (ev : evaluation) : option (format -> Z -> str) := match ev with AtRunTime std _ _ => std | _ => None end.

Lemma int_appends ev ss i : wf ss -> fair ev ss -> (- 2 ^ 63 <= i < 2 ^ 63)%Z ->
  exists T, writes_int T i /\ appends ss (append_large_int ev ss i) T.
Proof.
  intros W F R. destruct ev as [|[std|] g1 g2]; cbn [append_large_int].
  - now apply append_int_ct.
  - apply append_int_runtime; auto. apply F.
  - now apply append_int_ct.
Qed.

Lemma uint_appends ev ss i : wf ss -> fair ev ss -> i < 2 ^ 64 ->
  exists T, writes 10 T i /\ appends ss (append_large_uint ev ss i) T.
Proof.
  intros W F R. destruct ev as [|[std|] g1 g2]; cbn [append_large_uint].
  - apply append_uint_ct; auto.
  - apply append_uint_runtime; auto. apply F.
  - apply append_uint_ct; auto.
Qed.

Lemma floating_appends ev t f ss bits : t = float_traits /\ f = binary32 \/ t = double_traits /\ f = binary64 -> pattern f bits -> wf ss -> fair ev ss ->
  exists T, ((at_compile_time ev = true \/ std_texts ev = None) /\ prints (t_precision t) (number_of f bits) T \/
             at_compile_time ev = false /\ exists std, std_texts ev = Some std /\ T = std f bits) /\
  appends ss (append_floating ev t f ss bits) T.
Proof.
  intros K P W F.
  assert (D : exists T, prints (t_precision t) (number_of f bits) T /\ appends ss (append_float t ss bits (t_precision t)) T).
  { destruct (append_float_spec t f bits ss (t_precision t) K P W) as (T & PR & A).
    - destruct K as [(-> & _)|(-> & _)]; cbn; lia.
    - exists T. split; auto. destruct K as [(-> & _)|(-> & _)]; exact PR. }
  destruct ev as [|[std|] g1 g2]; cbn [append_floating at_compile_time std_texts].
  - destruct D as (T & PR & A). exists T. auto.
  - exists (std f bits). split; [right; split; eauto|]. destruct F as (F1 & F2). now apply run_time.
  - destruct D as (T & PR & A). exists T. auto.
Qed.

Lemma find_zero s : In Ascii.zero s -> exists a rest, s = a ++ Ascii.zero :: rest /\ ~ In Ascii.zero a /\ c_string s = Ok a.
Proof.
  unfold c_string. induction s as [|c s IH]; intros H; [destruct H|].
  cbn [find_if]. destruct (Ascii.eqb_spec Ascii.zero c) as [<-|N].
  - exists [], s. change (aeqb zero zero) with true. cbn. auto.
  - destruct H as [H|H]; [congruence|]. destruct (IH H) as (a & rest & -> & NI & E).
    exists (c :: a), rest. split; [reflexivity|]. split; [intros [X|X]; [congruence|auto]|].
    replace (aeqb zero c) with false by (symmetry; unfold aeqb; now apply Ascii.eqb_neq).
    destruct (find_if (aeqb zero) (a ++ zero :: rest)) as [n|]; [|discriminate]. cbn [option_map].
    injection E as E. cbn [firstn]. now rewrite E.
Qed.

Theorem value_text ev ss v : wf ss -> fair ev ss -> possible v ->
  exists T, shows (at_compile_time ev) (std_texts ev) v T /\ appends ss (append_built_in ev ss v) T.
Proof.
  intros W F P. induction P; cbn [append_built_in].
  - unfold append_boolean. destruct b; eexists; (split; [constructor|]); now apply view_appends.
  - destruct s.
    + destruct (cast_signed w z H H0) as (-> & R). destruct (int_appends ev ss z W F R) as (T & WR & A). exists T. split; auto. now constructor.
    + destruct (cast_unsigned w z H H0) as (E & R). destruct (uint_appends ev ss (to_large_uint z) W F R) as (T & WR & A). exists T.
      split; auto. constructor. rewrite <- E. now apply writes_as_int.
  - destruct IHP as (T & S & A). exists T. split; auto. now constructor.
  - destruct (floating_appends ev float_traits binary32 ss bits) as (T & C & A); auto. exists T. split; auto.
    destruct C as [(C & PR)|(C & std & E & ->)]; [now apply shows_float|now apply shows_float_std].
  - destruct (floating_appends ev double_traits binary64 ss bits) as (T & C & A); auto. exists T. split; auto.
    destruct C as [(C & PR)|(C & std & E & ->)]; [now apply shows_double|now apply shows_double_std].
  - exists s. split; [constructor|]. now apply view_appends.
  - destruct (exists_last H) as (a & c & ->). exists a. split; [constructor|]. rewrite app_length. cbn [length].
    rewrite csub_ok by lia. cbn [bind]. replace (length a + 1 - 1)%nat with (length a) by lia.
    rewrite firstn_app, firstn_all, Nat.sub_diag. cbn [firstn]. rewrite app_nil_r. now apply view_appends.
  - eexists. split; [constructor|]. now apply view_appends.
  - destruct (find_zero s H) as (a & rest & -> & NI & E). exists a. split; [now constructor|]. unfold view_of_string. rewrite E. cbn [bind]. now apply view_appends.
  - eexists. split; [constructor|]. now apply view_appends.
  - destruct (N.eqb_spec a 0) as [->|N0].
    + eexists. split; [constructor|]. now apply view_appends.
    + destruct ev as [|[std|] g1 g2]; cbn [append_void at_compile_time std_texts].
      * eexists. split; [now apply shows_some_address|]. unfold append_ptr_constexpr. destruct (N.eqb_spec a 0); [congruence|].
        rewrite append_constexpr_eq by auto. now apply append_appends.
      * destruct F as (F1 & F2). destruct (append_ptr_spec ss a g1 g2 W) as (hex & WR & A); [lia|auto|]. eexists. split; [apply shows_address; eauto|]. exact A.
      * destruct (portable_appends ss a W) as (hex & WR & A); [lia|]. eexists. split; [apply shows_address; eauto|]. exact A.
  - destruct b; eexists; (split; [constructor|]); now apply view_appends.
Qed.

Lemma fair_cap ev ss ss' : vcap ss' = vcap ss -> fair ev ss -> fair ev ss'.
Proof. intros E. destruct ev as [|[std|] g1 g2]; cbn [fair]; auto. now rewrite E. Qed.

Theorem values_text ev l : forall ss, wf ss -> fair ev ss -> Forall possible l ->
  exists T, shows_all (at_compile_time ev) (std_texts ev) l T /\ appends ss (append_values ev ss l) T.
Proof.
  induction l as [|v l IH]; intros ss W F P; cbn [append_values].
  - exists []. split; [constructor|]. exists ss, true. pose proof (vcontent_length ss W). unfold wf in W.
    rewrite app_nil_r. repeat split; auto; [now rewrite firstn_all2 by lia|]. symmetry. apply Nat.leb_le. lia.
  - inversion P as [|? ? P1 P2]; subst. destruct (value_text ev ss v W F P1) as (T & S1 & ss1 & b & E & W1 & C1 & K1 & B1).
    destruct (IH ss1 W1 (fair_cap ev ss ss1 C1 F) P2) as (T2 & S2 & ss2 & b2 & E2 & W2 & C2 & K2 & B2).
    exists (T ++ T2). split; [now constructor|]. rewrite E. cbn [bind]. subst b.
    destruct (Nat.leb_spec (length (vcontent ss ++ T)) (vcap ss)) as [L|L].
    + exists ss2, b2. rewrite firstn_all2 in K1 by auto. rewrite K1, C1 in *. rewrite app_assoc. repeat split; auto; congruence.
    + exists ss1, false. repeat split; auto.
      * rewrite K1, app_assoc. rewrite (firstn_app_le _ (vcontent ss ++ T)); auto. lia.
      * symmetry. apply Nat.leb_gt. rewrite app_assoc, app_length. lia.
Qed.

(** Different values do not look alike. *)
Lemma writes_value base s x y : writes base s x -> writes base s y -> x = y.
Proof. intros (A & _) (B & _). congruence. Qed.

Lemma writes_int_value s x y : writes_int s x -> writes_int s y -> x = y.
Proof.
  intros [(A & B)|(A & a & -> & B)] [(C & D)|(C & c & E & D)].
  - pose proof (writes_value _ _ _ _ B D). lia.
  - subst s. destruct B as (B & _). discriminate.
  - destruct D as (D & _). discriminate.
  - injection E as ->. pose proof (writes_value _ _ _ _ B D). lia.
Qed.

Theorem distinct constant std v v' t : comparable v v' -> shows constant std v t -> shows constant std v' t -> v = v'.
Proof.
  intros C. revert t. induction C; intros t H H'; inversion H; subst; inversion H'; subst; auto; try discriminate.
  - f_equal. eapply writes_int_value; eauto.
  - f_equal. eauto.
Qed.

(** The text of a value is unique, but for floating-point numbers. *)
Definition floating (v : value) : bool := match v with Float _ | Double _ => true | _ => false end.

Lemma split_at_zero (s s' rest rest' : text) : ~ In Ascii.zero s -> ~ In Ascii.zero s' -> s ++ Ascii.zero :: rest = s' ++ Ascii.zero :: rest' -> s = s'.
Proof.
  revert s'. induction s as [|c s IH]; intros [|c' s'] A B E; cbn in E; auto.
  - injection E as <- _. exfalso. apply B. now left.
  - injection E as -> _. exfalso. apply A. now left.
  - injection E as -> E. f_equal. apply IH; auto; intros X; [apply A|apply B]; now right.
Qed.

Theorem text_unique constant std v t t' : possible v -> floating v = false -> shows constant std v t -> shows constant std v t' -> t = t'.
Proof.
  intros P. revert t t'. induction P; intros t t' FL H1 H2; try discriminate; inversion H1; subst; inversion H2; subst; auto; try congruence.
  - eapply writes_int_unique; eauto.
  - apply IHP; auto. destruct H as [(b & ->)|(s & w & z & ->)]; reflexivity.
  - match goal with E : _ ++ [_] = _ ++ [_] |- _ => apply app_inj_tail in E; destruct E; auto end.
  - eapply split_at_zero; eauto.
  - f_equal. match goal with A : writes_fixed _ _ ?h _, B : writes_fixed _ _ ?h' _ |- ?h = ?h' => destruct A as (A & LA), B as (B & LB); eapply (read_inj 16); eauto; lia || congruence end.
Qed.

(** ** In the form used by Properties/Values.v. *)
Lemma describe ev ss constant std :
  ev = AtCompileTime /\ constant = true /\ std = None \/ (exists g1 g2, ev = AtRunTime std g1 g2 /\ constant = false /\ (vcap ss <= length g1)%nat) ->
  (forall texts f bits, std = Some texts -> (length (texts f bits) <= 32)%nat) ->
  fair ev ss /\ at_compile_time ev = constant /\ std_texts ev = std.
Proof.
  intros [(-> & -> & ->)|(g1 & g2 & -> & -> & L)] H; cbn [fair at_compile_time std_texts]; auto.
  destruct std as [texts|]; auto.
Qed.

Theorem value_form ev ss v constant std :
  ev = AtCompileTime /\ constant = true /\ std = None \/ (exists g1 g2, ev = AtRunTime std g1 g2 /\ constant = false /\ (vcap ss <= length g1)%nat) ->
  (forall texts f bits, std = Some texts -> (length (texts f bits) <= 32)%nat) ->
  wf ss -> possible v ->
  exists T, shows constant std v T /\
  exists ss' b, append_built_in ev ss v = Ok (ss', b) /\ wf ss' /\ vcap ss' = vcap ss /\
    vcontent ss' = firstn (vcap ss) (vcontent ss ++ T) /\ b = (length (vcontent ss ++ T) <=? vcap ss)%nat.
Proof. intros H1 H2 W P. destruct (describe ev ss constant std H1 H2) as (F & <- & <-). now apply value_text. Qed.

Theorem values_form ev ss l constant std :
  ev = AtCompileTime /\ constant = true /\ std = None \/ (exists g1 g2, ev = AtRunTime std g1 g2 /\ constant = false /\ (vcap ss <= length g1)%nat) ->
  (forall texts f bits, std = Some texts -> (length (texts f bits) <= 32)%nat) ->
  wf ss -> Forall possible l ->
  exists T, shows_all constant std l T /\
  exists ss' b, append_values ev ss l = Ok (ss', b) /\ wf ss' /\ vcap ss' = vcap ss /\
    vcontent ss' = firstn (vcap ss) (vcontent ss ++ T) /\ b = (length (vcontent ss ++ T) <=? vcap ss)%nat.
Proof. intros H1 H2 W P. destruct (describe ev ss constant std H1 H2) as (F & <- & <-). now apply values_text. Qed.

Theorem same_everywhere v t constant std constant' std' :
  (forall bits, v <> Float bits) -> (forall bits, v <> Double bits) -> (forall a, v <> Address a) -> possible v ->
  shows constant std v t -> shows constant' std' v t.
Proof.
  intros F D A P. revert t F D A. induction P; intros t F D A S; inversion S; subst; try (now constructor); try (exfalso; eapply F; reflexivity); try (exfalso; eapply D; reflexivity); try (exfalso; eapply A; reflexivity).
  constructor. apply IHP; auto; intros x E; subst v; destruct H as [(b & E)|(s & w & z & E)]; discriminate.
Qed.

Theorem one_text v t t' constant std :
  (forall bits, v <> Float bits) -> (forall bits, v <> Double bits) -> possible v ->
  shows constant std v t -> shows constant std v t' -> t = t'.
Proof.
  intros F D P. apply text_unique; auto. destruct v; auto; exfalso; [eapply F|eapply D]; reflexivity.
Qed.
