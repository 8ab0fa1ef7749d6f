(** Registrations that fail (C78). *)
From Coq Require Import Lia NArith.
From Verif.Spec Require Import TextSpec FilterSpec PrintSpec NumberSpec Events RunSpec RegisterSpec.
From Verif.Model Require Import Base Vector StringUtil Integer Print Filter Run Cli Session Reporters Register.
From Verif.Proofs Require Import Lists VectorProofs AppendProofs IntegerProofs ReplaceProofs FilterProofs PrintProofs RegistryProofs.

Lemma csub_le a b : b <= a -> csub a b = Ok (a - b).
Proof. intros H. unfold csub. replace (b <=? a) with true by (symmetry; now apply Nat.leb_le). reflexivity. Qed.

Section Register.
Variable mm : nat.
Variable color : bool.
Hypothesis ROOM : 40 <= mm.

Notation prefix := (rendered (make_colored (quote "error:") color color_fail)).
Lemma prefix_printable : printable mm (error_prefix color).
Proof. destruct color; cbn; lia. Qed.
Lemma number_fits n : (N.of_nat n < 2 ^ 64)%N -> writes 10 (decimal n) (N.of_nat n) /\ length (decimal n) <= mm.
Proof. intros H. split; [apply to_chars_uint_writes; lia|]. pose proof (to_chars_uint_length _ H). unfold decimal. lia. Qed.

Lemma explains why limit l : (N.of_nat limit < 2 ^ 64)%N -> Forall (printable mm) l ->
  List.concat (map rendered l) = explanation why (decimal limit) ->
  exists out, registry_print mm (error_prefix color :: l) = Ok out /\ explained prefix why limit out.
Proof.
  intros L P C. destruct (registry_print_spec mm (error_prefix color :: l)) as (out & E & K & _); [constructor; [exact prefix_printable|exact P]|].
  exists out. split; [exact E|]. exists (decimal limit). split; [now apply number_fits|]. rewrite K. cbn [map concat]. rewrite C. reflexivity.
Qed.

Theorem test_attempt max mn tests id : (N.of_nat max < 2 ^ 64)%N -> (N.of_nat mn < 2 ^ 64)%N -> length tests <= max ->
  exists tests' printed failed, try_add_test mm color max mn tests id = Ok (tests', printed, failed) /\
    if length tests =? max then tests' = tests /\ failed = Some (message TooManyTests) /\ explained prefix TooManyTests max printed
    else tests' = tests ++ [id] /\
      if name_fits mn (id_name id) (id_type id) then failed = None /\ printed = []
      else failed = Some (message NameTooLong) /\ explained prefix NameTooLong mn printed.
Proof.
  intros M1 M2 LE. unfold try_add_test. rewrite csub_le by exact LE. cbn [bind].
  destruct (Nat.eqb_spec (length tests) max) as [E|E].
  - replace (max - length tests =? 0) with true by (symmetry; apply Nat.eqb_eq; lia).
    match goal with |- context [registry_print mm (_ :: ?l)] => destruct (explains TooManyTests max l M1) as (out & E1 & X) end.
    + repeat constructor. cbn. apply number_fits; auto.
    + cbn [map concat rendered]. unfold explanation, newline. rewrite ?app_nil_r, <- ?app_assoc. reflexivity.
    + rewrite E1. cbn [bind]. eauto 10.
  - replace (max - length tests =? 0) with false by (symmetry; apply Nat.eqb_neq; lia). rewrite make_full_name_spec. cbn [bind].
    unfold name_fits. set (full := full_name_of _ _). destruct (Nat.leb_spec (length full) mn) as [F|F].
    + rewrite andb_true_r. destruct full as [|c f] eqn:FE.
      * cbn [length Nat.leb]. match goal with |- context [registry_print mm (_ :: ?l)] => destruct (explains NameTooLong mn l M2) as (out & E1 & X) end.
        -- repeat constructor. cbn. apply number_fits; auto.
        -- cbn [map concat rendered]. unfold explanation, newline. rewrite ?app_nil_r, <- ?app_assoc. reflexivity.
        -- rewrite E1. cbn [bind]. eauto 10.
      * cbn [length Nat.leb]. eauto 10.
    + rewrite andb_false_r. match goal with |- context [registry_print mm (_ :: ?l)] => destruct (explains NameTooLong mn l M2) as (out & E1 & X) end.
      * repeat constructor. cbn. apply number_fits; auto.
      * cbn [map concat rendered]. unfold explanation, newline. rewrite ?app_nil_r, <- ?app_assoc. reflexivity.
      * rewrite E1. cbn [bind]. eauto 10.
Qed.

Definition valid (p : reporter) : bool := match Base.find (r_name p) (lit "::") with Some _ => false | None => true end.

Theorem reporter_attempt max ps p : (N.of_nat max < 2 ^ 64)%N -> length ps <= max ->
  exists ps' printed failed, try_add_reporter mm color max ps p = Ok (ps', printed, failed) /\
    (length ps = max -> ps' = ps /\ failed = Some (message TooManyReporters) /\ explained prefix TooManyReporters max printed) /\
    (length ps < max -> occurs (quote "::") (r_name p) ->
       ps' = ps /\ failed = Some (message (InvalidReporter (r_name p))) /\ List.concat printed = prefix ++ explanation (InvalidReporter (r_name p)) []) /\
    (length ps < max -> ~ occurs (quote "::") (r_name p) -> ps' = ps ++ [p] /\ failed = None /\ printed = []).
Proof.
  intros M1 LE. unfold try_add_reporter. rewrite csub_le by exact LE. cbn [bind].
  destruct (Nat.eqb_spec (max - length ps) 0) as [E|E].
  - match goal with |- context [registry_print mm (_ :: ?l)] => destruct (explains TooManyReporters max l M1) as (out & E1 & X) end.
    + repeat constructor. cbn. apply number_fits; auto.
    + cbn [map concat rendered]. unfold explanation, newline. rewrite ?app_nil_r, <- ?app_assoc. reflexivity.
    + rewrite E1. cbn [bind]. do 3 eexists. split; [reflexivity|]. repeat split; auto; lia.
  - destruct (Base.find (r_name p) (lit "::")) as [n|] eqn:F.
    + destruct (registry_print_spec mm (error_prefix color :: [Text (lit " reporter name cannot contains '::' (trying to register '"); Text (r_name p); Text (lit "')" ++ newline ++ lit ".")]))
        as (out & E1 & K & _); [constructor; [exact prefix_printable|repeat constructor]|].
      assert (O : occurs (quote "::") (r_name p)) by (destruct (find_some _ _ _ F) as (a & b & X & _); exists a, b; exact X).
      rewrite E1. cbn [bind]. do 3 eexists. split; [reflexivity|]. split; [intros; lia|]. split; [|intros _ H; contradiction]. intros _ _. split; [reflexivity|]. split; [reflexivity|].
      rewrite K. cbn [map concat rendered explanation]. unfold newline. rewrite ?app_nil_r, <- ?app_assoc. reflexivity.
    + do 3 eexists. split; [reflexivity|]. repeat split; try lia; auto; exfalso; eapply find_none_occurs; eauto.
Qed.

Lemma attempts_tests max mn : (N.of_nat max < 2 ^ 64)%N -> (N.of_nat mn < 2 ^ 64)%N -> forall ids tests, length tests <= max ->
  exists outcomes, attempts (try_add_test mm color max mn) tests ids = Ok (tests ++ firstn (max - length tests) ids, outcomes) /\
    length outcomes = length ids /\
    accepted ids (map snd outcomes) = filter (fun id => name_fits mn (id_name id) (id_type id)) (firstn (max - length tests) ids).
Proof.
  intros M1 M2. induction ids as [|id ids IH]; intros tests LE; cbn [attempts].
  - exists []. rewrite firstn_nil, app_nil_r. auto.
  - destruct (test_attempt max mn tests id M1 M2 LE) as (tests' & printed & failed & E & R). rewrite E. cbn [bind].
    destruct (Nat.eqb_spec (length tests) max) as [EQ|NE].
    + destruct R as (-> & -> & _). destruct (IH tests LE) as (outs & E2 & L & AC). rewrite E2. cbn [bind]. rewrite EQ, Nat.sub_diag in *. cbn [firstn app].
      eexists. split; [reflexivity|]. split; [cbn; lia|]. unfold accepted in *. cbn. exact AC.
    + destruct R as (-> & R). destruct (IH (tests ++ [id])) as (outs & E2 & L & AC); [rewrite app_length; cbn; lia|]. rewrite E2. cbn [bind].
      rewrite app_length in *. cbn [length] in *. replace (max - length tests) with (S (max - (length tests + 1))) by lia. cbn [firstn].
      eexists. split; [rewrite <- app_assoc; reflexivity|]. split; [cbn; lia|]. unfold accepted in *. cbn [map List.combine filter fst snd].
      destruct (name_fits mn (id_name id) (id_type id)); destruct R as [-> _]; cbn [map fst]; rewrite AC; reflexivity.
Qed.

Theorem tests_left max mn ids : (N.of_nat max < 2 ^ 64)%N -> (N.of_nat mn < 2 ^ 64)%N ->
  exists registered outcomes, attempts (try_add_test mm color max mn) [] ids = Ok (registered, outcomes) /\ length outcomes = length ids /\
    registered = firstn max ids /\
    accepted ids (map snd outcomes) = filter (fun id => name_fits mn (id_name id) (id_type id)) (firstn max ids) /\
    (Forall (fun id => name_fits mn (id_name id) (id_type id) = true) ids ->
     registered = kept (fun id => name_fits mn (id_name id) (id_type id)) max ids /\ registered = accepted ids (map snd outcomes)).
Proof.
  intros M1 M2. destruct (attempts_tests max mn M1 M2 ids [] ltac:(cbn; lia)) as (outs & E & L & AC). cbn [length app] in *. rewrite Nat.sub_0_r in *.
  do 2 eexists. split; [exact E|]. split; [exact L|]. split; [reflexivity|]. split; [exact AC|]. intros F. rewrite AC. unfold kept.
  assert (ALL : forall l, Forall (fun id => name_fits mn (id_name id) (id_type id) = true) l -> filter (fun id => name_fits mn (id_name id) (id_type id)) l = l)
    by (induction 1 as [|x l X _ IHl]; cbn; [|rewrite X, IHl]; reflexivity).
  split; rewrite ALL; auto. rewrite Forall_forall in *. intros x H. apply F. rewrite <- (firstn_skipn max ids). apply in_or_app. now left.
Qed.

Lemma valid_occurs p : valid p = true <-> ~ occurs (quote "::") (r_name p).
Proof.
  unfold valid. destruct (Base.find (r_name p) (lit "::")) as [n|] eqn:F; split; auto; try discriminate.
  - intros H. exfalso. apply H. destruct (find_some _ _ _ F) as (a & b & X & _). exists a, b. exact X.
  - intros _. now apply find_none_occurs.
Qed.

Lemma attempts_reporters max ok : (N.of_nat max < 2 ^ 64)%N -> (forall p, ok p = true <-> ~ occurs (quote "::") (r_name p)) -> forall ps have, length have <= max ->
  exists outcomes, attempts (try_add_reporter mm color max) have ps = Ok (have ++ kept ok (max - length have) ps, outcomes) /\
    length outcomes = length ps /\ accepted ps (map snd outcomes) = kept ok (max - length have) ps.
Proof.
  intros M1 OK. unfold kept. induction ps as [|p ps IH]; intros have LE; cbn [attempts filter].
  - exists []. rewrite firstn_nil, app_nil_r. auto.
  - destruct (reporter_attempt max have p M1 LE) as (have' & printed & failed & E & R1 & R2 & R3). rewrite E. cbn [bind].
    assert (C : length have = max \/ length have < max) by lia. destruct C as [C|C].
    + destruct (R1 C) as (-> & -> & _). destruct (IH have LE) as (outs & E2 & L & AC). rewrite E2. cbn [bind]. rewrite C, Nat.sub_diag in *. cbn [firstn] in *.
      eexists. split; [reflexivity|]. split; [cbn; lia|]. unfold accepted in *. cbn. exact AC.
    + destruct (ok p) eqn:OP.
      * destruct (R3 C (proj1 (OK p) OP)) as (-> & -> & _). destruct (IH (have ++ [p])) as (outs & E2 & L & AC); [rewrite app_length; cbn; lia|]. rewrite E2. cbn [bind].
        rewrite app_length in *. cbn [length] in *. replace (max - length have) with (S (max - (length have + 1))) by lia. cbn [firstn].
        eexists. split; [rewrite <- app_assoc; reflexivity|]. split; [cbn; lia|]. unfold accepted in *. cbn [map List.combine filter fst snd]. now rewrite AC.
      * assert (O : occurs (quote "::") (r_name p)).
        { pose proof (valid_occurs p) as V. destruct (valid p) eqn:VP; [apply proj1 in V; specialize (V eq_refl); apply OK in V; congruence|].
          unfold valid in VP. destruct (Base.find (r_name p) (lit "::")) as [n|] eqn:F; [|discriminate]. destruct (find_some _ _ _ F) as (a & b & X & _). exists a, b. exact X. }
        destruct (R2 C O) as (-> & -> & _). destruct (IH have LE) as (outs & E2 & L & AC). rewrite E2. cbn [bind].
        eexists. split; [reflexivity|]. split; [cbn; lia|]. unfold accepted in *. cbn. exact AC.
Qed.

Theorem reporters_left max ok ps : (N.of_nat max < 2 ^ 64)%N -> (forall p, ok p = true <-> ~ occurs (quote "::") (r_name p)) ->
  exists outcomes, attempts (try_add_reporter mm color max) [] ps = Ok (kept ok max ps, outcomes) /\ length outcomes = length ps /\
    accepted ps (map snd outcomes) = kept ok max ps.
Proof. intros M1 OK. destruct (attempts_reporters max ok M1 OK ps [] ltac:(cbn; lia)) as (outs & E & L & AC). cbn [length app] in *. rewrite Nat.sub_0_r in *. eauto. Qed.

(** With the handler of the library. *)
Lemma ends_tests max mn : (N.of_nat max < 2 ^ 64)%N -> (N.of_nat mn < 2 ^ 64)%N -> forall ids tests, length tests <= max ->
  exists registered printed terminated, until_failure (try_add_test mm color max mn) tests ids = Ok (registered, printed, terminated) /\
    if terminated then
      add_tests max mn tests ids = Err Assert /\
      exists why limit out, (why = TooManyTests /\ limit = max \/ why = NameTooLong /\ limit = mn) /\ explained prefix why limit out /\
        printed = out ++ [quote "terminate called with message: "; message why; [ascii_of_nat 10]]
    else add_tests max mn tests ids = Ok registered /\ registered = tests ++ ids /\ printed = [].
Proof.
  intros M1 M2. induction ids as [|id ids IH]; intros tests LE; cbn [until_failure add_tests].
  - do 3 eexists. split; [reflexivity|]. cbn. rewrite app_nil_r. auto.
  - destruct (test_attempt max mn tests id M1 M2 LE) as (tests' & printed & failed & E & R). rewrite E. cbn [bind].
    unfold add_test. rewrite csub_le by exact LE. cbn [bind]. rewrite make_full_name_spec. unfold name_fits in R. set (full := full_name_of _ _) in *.
    destruct (Nat.eqb_spec (length tests) max) as [EQ|NE].
    + destruct R as (-> & -> & X). replace (max - length tests =? 0) with true by (symmetry; apply Nat.eqb_eq; lia).
      do 3 eexists. split; [reflexivity|]. cbn iota. split; [reflexivity|]. exists TooManyTests, max, printed. auto.
    + destruct R as (-> & R). replace (max - length tests =? 0) with false by (symmetry; apply Nat.eqb_neq; lia). cbn [bind].
      destruct (Nat.leb_spec (length full) mn) as [F|F]; [destruct full as [|c f] eqn:FE|].
      * cbn in R. destruct R as (-> & X). do 3 eexists. split; [reflexivity|]. cbn iota. split; [reflexivity|]. exists NameTooLong, mn, printed. auto.
      * cbn in R. destruct R as (-> & ->). destruct (IH (tests ++ [id])) as (reg & pr & te & E2 & R2); [rewrite app_length; cbn; lia|]. rewrite E2. cbn [bind app].
        do 3 eexists. split; [reflexivity|]. destruct te; [exact R2|]. destruct R2 as (R2 & -> & ->). split; [exact R2|]. now rewrite <- app_assoc.
      * rewrite andb_false_r in R. destruct R as (-> & X). do 3 eexists. split; [reflexivity|]. cbn iota. split; [reflexivity|]. exists NameTooLong, mn, printed. auto.
Qed.
End Register.
