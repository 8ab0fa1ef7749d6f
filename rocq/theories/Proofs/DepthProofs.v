(** A test body that runs to its end visits all its sections and captures, hence stops at the limits (C25, C28). *)
From Verif.Spec Require Import TextSpec FilterSpec Events RunSpec TreeSpec.
From Verif.Model Require Import Base Vector StringUtil Filter Run.
From Verif.Proofs Require Import Lists AppendProofs LevelProofs RunProofs CaseProofs InvariantProofs ScopeProofs SafetyProofs LimitProofs TreeProofs.

(** Sections and captures nested in the part visited by a pass. *)
Fixpoint reach (t : option nat) (p : prog) : nat :=
  match p with
  | Nil => 0
  | Act _ k | Check _ _ _ _ k => reach t k
  | Capture _ b k => Nat.max (reach t b) (reach (past t b) k)
  | InSection _ b k =>
    match t with
    | None => Nat.max 1 (reach None k)
    | Some j => if j <? Nat.max 1 (leaves b) then Nat.max (S (reach t b)) (reach None k)
                else Nat.max 1 (reach (Some (j - Nat.max 1 (leaves b))) k)
    end
  | _ => 0
  end.
Fixpoint capreach (t : option nat) (p : prog) : nat :=
  match p with
  | Nil => 0
  | Act _ k => capreach t k
  | Check _ w _ e k => Nat.max (match w with IsTrue _ _ => own_captures e | _ => 0 end) (capreach t k)
  | Capture l b k => Nat.max (length l + capreach t b) (capreach (past t b) k)
  | InSection _ b k =>
    match t with
    | None => capreach None k
    | Some j => if j <? Nat.max 1 (leaves b) then Nat.max (capreach t b) (capreach None k)
                else capreach (Some (j - Nat.max 1 (leaves b))) k
    end
  | _ => 0
  end.

Fixpoint screach (t : option nat) (p : prog) : nat :=
  match p with
  | Nil => 0
  | Act _ k => screach t k
  | Check _ _ _ e k => Nat.max (S (scopes e)) (screach t k)
  | Capture _ b k => Nat.max (screach t b) (screach (past t b) k)
  | InSection _ b k =>
    match t with
    | None => screach None k
    | Some j => if j <? Nat.max 1 (leaves b) then Nat.max (S (screach t b)) (screach None k)
                else screach (Some (j - Nat.max 1 (leaves b))) k
    end
  | _ => 0
  end.

Lemma reach_noleaf p : plain p -> leaves p = 0 -> nesting p = 0.
Proof.
  induction p as [|n k IHp|when y k IHp|line w abort e IHe k IHp|line message abort k IHp|sec b IHp1 k IHp2|texts b IHp1 k IHp2|accepts notify b IHp1 k IHp2];
    cbn [plain leaves nesting]; intros P L; try contradiction; auto; try lia.
  - destruct (plain_code line w abort e k P) as [PE PK]. rewrite IHp by (auto; lia). rewrite (flat_nesting e (code_flat e PE)). reflexivity.
  - rewrite IHp1, IHp2 by (try apply P; lia). reflexivity.
Qed.
Lemma capreach_noleaf p : plain p -> leaves p = 0 -> forall t, capreach t p = own_captures p.
Proof.
  induction p as [|n k IHp|when y k IHp|line w abort e IHe k IHp|line message abort k IHp|sec b IHp1 k IHp2|texts b IHp1 k IHp2|accepts notify b IHp1 k IHp2];
    cbn [plain leaves capreach own_captures]; intros P L t; try contradiction; auto; try lia.
  - rewrite IHp by (try apply P; lia). destruct w; reflexivity.
  - rewrite IHp1, IHp2 by (try apply P; lia). reflexivity.
Qed.

Lemma screach_noleaf p : plain p -> leaves p = 0 -> forall t, screach t p = scopes p.
Proof.
  induction p as [|n k IHp|when y k IHp|line w abort e IHe k IHp|line message abort k IHp|sec b IHp1 k IHp2|texts b IHp1 k IHp2|accepts notify b IHp1 k IHp2];
    cbn [plain leaves screach scopes]; intros P L t; try contradiction; auto; try lia.
  - rewrite IHp by (try apply P; lia). reflexivity.
  - rewrite IHp1, IHp2 by (try apply P; lia). reflexivity.
Qed.

Lemma past_in j p : j < leaves p -> past (Some j) p = None.
Proof. unfold past. destruct (Nat.ltb_spec j (leaves p)); [auto|lia]. Qed.
Lemma past_out j p : past (Some (j + leaves p)) p = Some j.
Proof. unfold past. destruct (Nat.ltb_spec (j + leaves p) (leaves p)); [lia|]. f_equal. lia. Qed.

Lemma reach_all p : plain p -> forall n, (forall j, j < Nat.max 1 (leaves p) -> reach (Some j) p <= n) -> nesting p <= n.
Proof.
  induction p as [|m k IHp|when y k IHp|line w abort e IHe k IHp|line message abort k IHp|sec b IHp1 k IHp2|texts b IHp1 k IHp2|accepts notify b IHp1 k IHp2];
    cbn [plain leaves nesting reach]; intros P n H; try contradiction; auto; try lia.
  - destruct (plain_code line w abort e k P) as [PE PK]. apply code_flat in PE.
    rewrite (flat_nesting _ PE). rewrite (flat_no_leaves _ PE) in H. cbn [Nat.add Nat.max] in *. apply IHp; auto.
  - destruct P as [P1 P2]. apply Nat.max_lub.
    + destruct n as [|n]; [specialize (H 0 ltac:(lia)); destruct (Nat.ltb_spec 0 (Nat.max 1 (leaves b))); lia|]. apply le_n_S, IHp1; auto.
      intros j J. specialize (H j ltac:(lia)). destruct (Nat.ltb_spec j (Nat.max 1 (leaves b))); lia.
    + destruct (Nat.eq_dec (leaves k) 0) as [Z|Z]; [rewrite reach_noleaf; auto; lia|]. apply IHp2; auto.
      intros j J. specialize (H (j + Nat.max 1 (leaves b)) ltac:(lia)).
      destruct (Nat.ltb_spec (j + Nat.max 1 (leaves b)) (Nat.max 1 (leaves b))); [lia|].
      replace (j + Nat.max 1 (leaves b) - Nat.max 1 (leaves b)) with j in H by lia. lia.
  - destruct P as [P1 P2]. apply Nat.max_lub.
    + apply IHp1; auto. intros j J. specialize (H j ltac:(lia)). lia.
    + destruct (Nat.eq_dec (leaves k) 0) as [Z|Z]; [rewrite reach_noleaf; auto; lia|]. apply IHp2; auto.
      intros j J. specialize (H (j + leaves b) ltac:(lia)). rewrite past_out in H. lia.
Qed.
Lemma capreach_all p : plain p -> forall n, (forall j, j < Nat.max 1 (leaves p) -> capreach (Some j) p <= n) -> own_captures p <= n.
Proof.
  induction p as [|m k IHp|when y k IHp|line w abort e IHe k IHp|line message abort k IHp|sec b IHp1 k IHp2|texts b IHp1 k IHp2|accepts notify b IHp1 k IHp2];
    cbn [plain leaves own_captures capreach]; intros P n H; try contradiction; auto; try lia.
  - destruct (plain_code line w abort e k P) as [PE PK]. apply code_flat in PE.
    rewrite (flat_no_leaves _ PE) in H. cbn [Nat.add] in *.
    assert (own_captures k <= n) by (apply IHp; auto; intros j J; specialize (H j J); lia).
    specialize (H 0 ltac:(lia)). destruct w; lia.
  - destruct P as [P1 P2]. apply Nat.max_lub.
    + apply IHp1; auto. intros j J. specialize (H j ltac:(lia)). destruct (Nat.ltb_spec j (Nat.max 1 (leaves b))); lia.
    + destruct (Nat.eq_dec (leaves k) 0) as [Z|Z].
      * rewrite <- (capreach_noleaf k P2 Z None). specialize (H 0 ltac:(lia)). destruct (Nat.ltb_spec 0 (Nat.max 1 (leaves b))); lia.
      * apply IHp2; auto. intros j J. specialize (H (j + Nat.max 1 (leaves b)) ltac:(lia)).
        destruct (Nat.ltb_spec (j + Nat.max 1 (leaves b)) (Nat.max 1 (leaves b))); [lia|].
        replace (j + Nat.max 1 (leaves b) - Nat.max 1 (leaves b)) with j in H by lia. lia.
  - destruct P as [P1 P2]. apply Nat.max_lub.
    + enough (own_captures b <= n - length texts /\ length texts <= n) by (unfold text, str in *; lia). split.
      * apply IHp1; auto. intros j J. specialize (H j ltac:(lia)). unfold text, str in *; lia.
      * specialize (H 0 ltac:(lia)). unfold text, str in *; lia.
    + destruct (Nat.eq_dec (leaves k) 0) as [Z|Z].
      * rewrite <- (capreach_noleaf k P2 Z (past (Some 0) b)). specialize (H 0 ltac:(lia)). lia.
      * apply IHp2; auto. intros j J. specialize (H (j + leaves b) ltac:(lia)). rewrite past_out in H. lia.
Qed.

Lemma screach_all p : plain p -> forall n, (forall j, j < Nat.max 1 (leaves p) -> screach (Some j) p <= n) -> scopes p <= n.
Proof.
  induction p as [|m k IHp|when y k IHp|line w abort e IHe k IHp|line message abort k IHp|sec b IHp1 k IHp2|texts b IHp1 k IHp2|accepts notify b IHp1 k IHp2];
    cbn [plain leaves scopes screach]; intros P n H; try contradiction; auto; try lia.
  - destruct (plain_code line w abort e k P) as [PE PK]. apply code_flat in PE.
    rewrite (flat_no_leaves _ PE) in H. cbn [Nat.add] in *.
    assert (scopes k <= n) by (apply IHp; auto; intros j J; specialize (H j J); lia).
    specialize (H 0 ltac:(lia)). lia.
  - destruct P as [P1 P2]. apply Nat.max_lub.
    + destruct n as [|n]; [specialize (H 0 ltac:(lia)); destruct (Nat.ltb_spec 0 (Nat.max 1 (leaves b))); lia|]. apply le_n_S, IHp1; auto.
      intros j J. specialize (H j ltac:(lia)). destruct (Nat.ltb_spec j (Nat.max 1 (leaves b))); lia.
    + destruct (Nat.eq_dec (leaves k) 0) as [Z|Z].
      * rewrite <- (screach_noleaf k P2 Z None). specialize (H 0 ltac:(lia)). destruct (Nat.ltb_spec 0 (Nat.max 1 (leaves b))); lia.
      * apply IHp2; auto. intros j J. specialize (H (j + Nat.max 1 (leaves b)) ltac:(lia)).
        destruct (Nat.ltb_spec (j + Nat.max 1 (leaves b)) (Nat.max 1 (leaves b))); [lia|].
        replace (j + Nat.max 1 (leaves b) - Nat.max 1 (leaves b)) with j in H by lia. lia.
  - destruct P as [P1 P2]. apply Nat.max_lub.
    + apply IHp1; auto. intros j J. specialize (H j ltac:(lia)). lia.
    + destruct (Nat.eq_dec (leaves k) 0) as [Z|Z].
      * rewrite <- (screach_noleaf k P2 Z (past (Some 0) b)). specialize (H 0 ltac:(lia)). lia.
      * apply IHp2; auto. intros j J. specialize (H (j + leaves b) ltac:(lia)). rewrite past_out in H. lia.
Qed.

(** ** Sequences *)
Section Seq.
Variable cf : config.
Variable id : test_id.
Definition followed (r : res (state * option exn)) (pass : nat) (k : prog) : res (state * option exn) :=
  do (st, x) <- r ;; match x with Some _ => Ok (st, x) | None => exec cf id pass k st end.

Lemma seq_act pass n k st : exec cf id pass (Act n k) st = followed (exec cf id pass (Act n Nil) st) pass k.
Proof. reflexivity. Qed.
Lemma seq_check pass line w abort e k st :
  exec cf id pass (Check line w abort e k) st = followed (exec cf id pass (Check line w abort e Nil) st) pass k.
Proof.
  cbn [exec]. unfold followed. destruct (check_begin cf line st); cbn [bind]; auto. destruct (exec cf id pass e a) as [[st2 x]|]; cbn [bind]; auto.
  destruct (conclude _ _ _ _ _ _ _) as [[st3 y]|]; cbn [bind]; auto. destruct (check_end _ _); cbn [bind]; auto. now destruct y.
Qed.
Lemma seq_section pass s b k st : exec cf id pass (InSection s b k) st = followed (exec cf id pass (InSection s b Nil) st) pass k.
Proof.
  cbn [exec]. unfold followed. destruct (section_enter cf s st) as [[st1 e]|]; cbn [bind]; auto. destruct e.
  - destruct (exec cf id pass b st1) as [[st2 x]|]; cbn [bind]; auto. destruct (section_exit _ _ _ _); cbn [bind]; auto. now destruct x.
  - destruct (section_exit _ _ _ _); cbn [bind]; auto.
Qed.
Lemma seq_capture pass l b k st : exec cf id pass (Capture l b k) st = followed (exec cf id pass (Capture l b Nil) st) pass k.
Proof.
  cbn [exec]. unfold followed. destruct (add_captures cf _ st) as [st1|]; cbn [bind]; auto.
  destruct (exec cf id pass b st1) as [[st2 x]|]; cbn [bind]; auto. destruct (capture_end _ _ _); cbn [bind]; auto. now destruct x.
Qed.
End Seq.

Section Deep.
Variables cf cf' : config.
Hypothesis LO : looser cf cf'.
Hypothesis verbose : cf_verbosity cf = Full.
Variable id : test_id.
Variables may should : bool.
Notation normal := (normal may should).
Notation B := (behave id may should (cf_max_capture_length cf') (cf_max_message_length cf')).

Definition deep (p : prog) : Prop := forall pass st cx s t pre lvo L r,
  normal st cx s -> skipped s = false -> in_check st = false ->
  length (current_section (inf st)) + nesting p <= cf_max_nested cf' ->
  length (locations (inf st)) + scopes p <= cf_max_nested cf' + 2 ->
  length (captures (inf st)) + capturing p <= cf_max_captures cf' ->
  levels (inf st) = pre ++ lvo -> length pre = depth (inf st) ->
  seek t (secs p ++ L) lvo (leaf_executed (inf st)) -> room cf st ->
  exec cf id pass p st = Ok r ->
  depth (inf st) + reach t p <= cf_max_nested cf /\ length (captures (inf st)) + capreach t p <= cf_max_captures cf /\
  length (locations (inf st)) + screach t p <= cf_max_nested cf + 2.

(** After a first statement [q], with sections [A]. *)
Lemma deep_after q k pass st cx s t pre lvo L r : plain q -> deep k ->
  normal st cx s -> skipped s = false -> in_check st = false ->
  length (current_section (inf st)) + Nat.max (nesting q) (nesting k) <= cf_max_nested cf' ->
  length (locations (inf st)) + Nat.max (scopes q) (scopes k) <= cf_max_nested cf' + 2 ->
  length (captures (inf st)) + Nat.max (capturing q) (capturing k) <= cf_max_captures cf' ->
  levels (inf st) = pre ++ lvo -> length pre = depth (inf st) ->
  seek t (secs q ++ secs k ++ L) lvo (leaf_executed (inf st)) -> room cf st ->
  followed cf id (exec cf id pass q st) pass k = Ok r ->
  depth (inf st) + reach (past t q) k <= cf_max_nested cf /\ length (captures (inf st)) + capreach (past t q) k <= cf_max_captures cf /\
  length (locations (inf st)) + screach (past t q) k <= cf_max_nested cf + 2.
Proof using LO verbose.
  intros PQ DK N NS I NE SC CA LV D SK R H. unfold followed in H. bstep H as [st1 x] E.
  destruct (room_exec cf cf' LO id pass q st R) as [E'|([st1' x'] & E1 & E2 & R1)]; [congruence|].
  rewrite E in E1. injection E1 as <- <-. cbn [fst] in R1.
  assert (verbose' : cf_verbosity cf' = Full) by (rewrite (lo_verbosity _ _ LO); auto).
  assert (G := exec_behave cf' verbose' id may should q (plain_regular q PQ) pass st cx s t pre lvo (secs k ++ L) N I ltac:(lia) ltac:(lia) ltac:(lia) LV D SK).
  destruct (plain_behave id may should (cf_max_capture_length cf') (cf_max_message_length cf') q PQ pass cx t s NS) as (ev & s' & EB & NS' & _).
  unfold good in G. rewrite EB in G. destruct G as (lvo' & lf' & E3 & RE). rewrite E3 in E2. injection E2 as <- <-.
  rewrite past_pass_over.
  assert (X := DK pass _ cx s' (pass_over t (secs q)) pre lvo' L r (normal_upd _ _ _ _ _ ev s' (pre ++ lvo') lf' N) NS' I).
  cbn [inf upd current_section captures levels depth leaf_executed locations] in X. rewrite bump_length in X.
  apply X; auto; try lia. eapply seek_after; eauto.
Qed.

(** Code with no section. *)
Definition deep_flat (p : prog) : Prop := forall pass st cx s r,
  normal st cx s -> skipped s = false ->
  length (locations (inf st)) + scopes p <= cf_max_nested cf' + 2 ->
  length (captures (inf st)) + capturing p <= cf_max_captures cf' -> room cf st ->
  exec cf id pass p st = Ok r ->
  length (captures (inf st)) + own_captures p <= cf_max_captures cf /\ length (locations (inf st)) + scopes p <= cf_max_nested cf + 2.

Lemma flat_after q k pass st cx s r : flat q -> plain q -> deep_flat k -> normal st cx s -> skipped s = false ->
  length (locations (inf st)) + Nat.max (scopes q) (scopes k) <= cf_max_nested cf' + 2 ->
  length (captures (inf st)) + Nat.max (capturing q) (capturing k) <= cf_max_captures cf' -> room cf st ->
  followed cf id (exec cf id pass q st) pass k = Ok r ->
  length (captures (inf st)) + own_captures k <= cf_max_captures cf /\ length (locations (inf st)) + scopes k <= cf_max_nested cf + 2.
Proof using LO verbose.
  intros FQ PQ DK N NS SC CA R H. unfold followed in H. bstep H as [st1 x] E.
  destruct (room_exec cf cf' LO id pass q st R) as [E'|([st1' x'] & E1 & E2 & R1)]; [congruence|].
  rewrite E in E1. injection E1 as <- <-. cbn [fst] in R1.
  assert (verbose' : cf_verbosity cf' = Full) by (rewrite (lo_verbosity _ _ LO); auto).
  assert (G := exec_flat cf' verbose' id may should q FQ (plain_regular q PQ) pass st cx s N ltac:(lia) ltac:(lia)).
  destruct (plain_behave id may should (cf_max_capture_length cf') (cf_max_message_length cf') q PQ pass cx None s NS) as (ev & s' & EB & NS' & _).
  unfold fine in G. rewrite EB in G. destruct G as (h & E3 & SE & ->). rewrite E3 in E2. injection E2 as <- <-.
  destruct (snd (flow pass q)); [contradiction|].
  assert (X := DK pass _ cx s' r (normal_upd _ _ _ _ _ ev s' (levels (inf st)) (leaf_executed (inf st)) (normal_in_check _ _ _ _ _ (in_check st && negb (fst (flow pass q))) N)) NS').
  cbn [inf upd captures locations set_in_check] in X. apply X; auto; lia.
Qed.

Lemma check_deep line w abort e k pass st cx s r : (flat e -> plain e -> deep_flat e) -> plain (Check line w abort e k) ->
  normal st cx s -> skipped s = false ->
  length (locations (inf st)) + S (scopes e) <= cf_max_nested cf' + 2 ->
  length (captures (inf st)) + capturing e <= cf_max_captures cf' -> room cf st ->
  exec cf id pass (Check line w abort e k) st = Ok r ->
  length (captures (inf st)) + (match w with IsTrue _ _ => own_captures e | _ => 0 end) <= cf_max_captures cf /\
  length (locations (inf st)) + S (scopes e) <= cf_max_nested cf + 2.
Proof using LO verbose.
  intros DE P N NS SC CA R H. cbn [exec] in H. bstep H as st1 E1. bstep H as [st2 x] E2. clear H.
  destruct (room_check_begin cf cf' LO line st R) as [E|(st1' & E & E' & R1)]; [congruence|]. rewrite E1 in E. injection E as <-.
  destruct (check_begin_eq cf' may should line st cx s N ltac:(lia)) as [E3 N1]. rewrite E3 in E'. injection E' as <-.
  pose proof R1 as (_ & R2 & R3). pose proof R as (_ & _ & R4).
  cbn [inf open_at with_locations locations captures] in R2, R3. rewrite app_length in R2. cbn [length] in R2.
  assert (ME : mute e -> scopes e = 0) by apply mute_scopes.
  assert (PL : flat e -> plain e -> length (captures (inf st)) + own_captures e <= cf_max_captures cf /\ length (locations (inf st)) + S (scopes e) <= cf_max_nested cf + 2).
  { intros FE PE. assert (X := DE FE PE pass _ _ s (st2, x) N1 NS). cbn [inf open_at with_locations locations captures] in X. rewrite app_length in X. cbn [length] in X.
    specialize (X ltac:(lia) ltac:(lia) R1 E2). lia. }
  cbn [plain] in P. destruct w; destruct P as [[P _] _]; [apply PL; apply P|..]; (destruct P as [P|[F P]]; [rewrite (ME P); lia|specialize (PL F P); lia]).
Qed.

Lemma deep_flat_all p : flat p -> plain p -> deep_flat p.
Proof using LO verbose.
  induction p as [|n k IHp|when y k IHp|line w abort e IHe k IHp|line message abort k IHp|sec b IHp1 k IHp2|texts b IHp1 k IHp2|accepts notify b IHp1 k IHp2];
    cbn [flat]; intros F P; try contradiction; intros pass st cx s r N NS SC CA R H; cbn [scopes capturing own_captures] in *.
  - destruct R as (_ & R1 & R2). lia.
  - cbn [plain] in P. rewrite seq_act in H. apply (flat_after (Act n Nil) k pass st cx s r); cbn [scopes capturing flat plain]; auto.
  - destruct F as [F1 F2]. destruct (plain_code line w abort e k P) as [PE PK]. pose proof H as H0. rewrite seq_check in H.
    assert (PC : plain (Check line w abort e Nil)) by (clear -P; cbn [plain] in *; tauto).
    assert (X := flat_after (Check line w abort e Nil) k pass st cx s r ltac:(cbn; auto) PC (IHp F2 PK) N NS).
    cbn [scopes capturing] in X. specialize (X ltac:(lia) ltac:(lia) R H).
    assert (Y := check_deep line w abort e k pass st cx s r IHe P N NS ltac:(lia) ltac:(lia) R H0). destruct w; lia.
  - destruct F as [F1 F2]. cbn [plain] in P. destruct P as [P1 P2].
    assert (HK : length (captures (inf st)) + own_captures k <= cf_max_captures cf /\ length (locations (inf st)) + scopes k <= cf_max_nested cf + 2).
    { rewrite seq_capture in H. assert (X := flat_after (Capture texts b Nil) k pass st cx s r). cbn [plain flat capturing scopes] in X. apply X; auto; lia. }
    cbn [exec] in H. bstep H as st1 E1. bstep H as [st2 x] E2.
    assert (TM : length (map (fun l => l pass) texts) = length texts) by apply map_length. set (tx := map (fun l => l pass) texts) in *. rewrite <- TM in *.
    clearbody tx. clear TM.
    destruct (room_add_captures cf cf' LO tx st R) as [E|(st1' & E & E' & R1)]; [congruence|]. rewrite E1 in E. injection E as <-.
    rewrite add_captures_eq in E'; [|apply N|unfold text, str in *; lia]. injection E' as <-.
    assert (X := IHp1 F1 P1 pass _ _ s (st2, x) (normal_caps cf' may should tx _ _ _ N) NS).
    cbn [inf add_caps set_inf with_captures captures locations] in X.
    assert (TL : length (texts_of cf' tx) = length tx) by apply map_length. rewrite app_length, TL in X.
    specialize (X ltac:(unfold text, str in *; lia) ltac:(unfold text, str in *; lia) R1 E2). unfold text, str in *; lia.
Qed.

Lemma deep_check line w abort e k pass st cx s r : plain (Check line w abort e k) ->
  normal st cx s -> skipped s = false ->
  length (locations (inf st)) + S (scopes e) <= cf_max_nested cf' + 2 ->
  length (captures (inf st)) + capturing e <= cf_max_captures cf' -> room cf st ->
  exec cf id pass (Check line w abort e k) st = Ok r ->
  length (captures (inf st)) + (match w with IsTrue _ _ => own_captures e | _ => 0 end) <= cf_max_captures cf /\
  length (locations (inf st)) + S (scopes e) <= cf_max_nested cf + 2.
Proof using LO verbose. apply check_deep. apply deep_flat_all. Qed.

Lemma past_flat t p : leaves p = 0 -> past t p = t.
Proof. intros E. unfold past. destruct t; auto. rewrite E. cbn. f_equal. lia. Qed.

Lemma deep_section sec b k : plain b -> deep b -> plain k -> deep k -> deep (InSection sec b k).
Proof using LO verbose.
  intros PB DB PK DK pass st cx s t pre lvo L r N NS I NE SC CA LV D SK R H.
  assert (verbose' : cf_verbosity cf' = Full) by (rewrite (lo_verbosity _ _ LO); auto).
  pose proof (n_depth _ _ _ _ _ N) as ND. pose proof (lo_nested _ _ LO) as LN. cbn [nesting capturing scopes secs] in *.
  assert (HK : depth (inf st) + reach (past t (InSection sec b Nil)) k <= cf_max_nested cf /\
               length (captures (inf st)) + capreach (past t (InSection sec b Nil)) k <= cf_max_captures cf /\
               length (locations (inf st)) + screach (past t (InSection sec b Nil)) k <= cf_max_nested cf + 2).
  { rewrite seq_section in H. apply (deep_after (InSection sec b Nil) k pass st cx s t pre lvo L r); auto; cbn [plain nesting capturing scopes secs]; auto; lia. }
  assert (PA : past t (InSection sec b Nil) = match t with Some j => if j <? Nat.max 1 (leaves b) then None else Some (j - Nat.max 1 (leaves b)) | None => None end).
  { unfold past. cbn [leaves]. rewrite Nat.add_0_r. reflexivity. }
  cbn [exec] in H. bstep H as [st1 entered] E1.
  destruct (room_section_enter cf cf' LO sec st R) as [E|([st1' e'] & E & E' & DM & RM)]; [congruence|].
  rewrite E1 in E. injection E as <- <-.
  rewrite (section_enter_eq cf' verbose' may should sec st cx s pre lvo N ltac:(lia) LV D ltac:(lia)) in E'.
  cbn [reach capreach screach]. destruct t as [j|]; rewrite PA in HK; [|lia].
  cbn [seek] in SK. destruct SK as (LE & ID & CP & MX & V). rewrite LE in E'. cbn [orb] in E'.
  destruct (Nat.ltb_spec j (Nat.max 1 (leaves b))) as [J|J]; [|lia].
  assert (ENT : forall start, Ok (open_section sec start (pre ++ enter_top (LevelProofs.top lvo) :: tl lvo) st, true) = Ok (st1, entered) ->
     seek (Some j) (secs b ++ []) (tl lvo) false ->
     depth (inf st) + Nat.max (S (reach (Some j) b)) (reach None k) <= cf_max_nested cf /\
     length (captures (inf st)) + Nat.max (capreach (Some j) b) (capreach None k) <= cf_max_captures cf /\
     length (locations (inf st)) + Nat.max (S (screach (Some j) b)) (screach None k) <= cf_max_nested cf + 2).
  { intros start [= <- <-] SKb. bstep H as [st2 x] E2. destruct RM as [[_ RM]|[F _]]; [|discriminate].
    assert (X := DB pass _ _ s (Some j) (pre ++ [enter_top (LevelProofs.top lvo)]) (tl lvo) [] (st2, x) (normal_section may should sec start (pre ++ enter_top (LevelProofs.top lvo) :: tl lvo) st cx s N) NS I).
    cbn [inf open_section current_section captures levels depth leaf_executed locations] in X.
    rewrite !app_length in X. cbn [length] in X. rewrite LE in X.
    specialize (X ltac:(lia) ltac:(lia) ltac:(lia) ltac:(rewrite <- app_assoc; reflexivity) ltac:(lia) SKb RM E2). lia. }
  destruct (enter_cases b (secs k ++ L) _ _ _ j V CP) as [EC|[EC|EC]].
  - destruct EC as (F1 & F2 & ->). rewrite F1, Nat.eqb_refl, F2 in E'. cbn [negb andb] in E'. rewrite <- F2 in E'. eapply ENT; [exact E'|].
    rewrite F2. cbn [seek LevelProofs.top cur_id prev_id max_id tl]. repeat split; auto; try lia. constructor.
  - destruct EC as (F1 & F2 & F3 & F4 & F5).
    assert (C0 : cur_id (LevelProofs.top (tl lvo)) = 0) by (destruct (tl lvo); [congruence|]; inversion ID; auto).
    rewrite F1 in E'. destruct (Nat.eqb_spec (cur_id (LevelProofs.top lvo)) (S (cur_id (LevelProofs.top lvo)))); [lia|].
    rewrite Nat.eqb_refl in E'. destruct (tl lvo) as [|z lvo'] eqn:TL; [congruence|]. cbn [length Nat.ltb Nat.leb andb negb] in E'.
    eapply ENT; [exact E'|].
    cbn [seek]. rewrite C0, F4, app_nil_r, Nat.sub_0_r. repeat split; auto; try lia. inversion ID; auto.
  - destruct EC as (F1 & F2 & F3). unfold weight in F3. lia.
Qed.

Lemma deep_all p : plain p -> deep p.
Proof using LO verbose.
  induction p as [|n k IHp|when y k IHp|line w abort e IHe k IHp|line message abort k IHp|sec b IHp1 k IHp2|texts b IHp1 k IHp2|accepts notify b IHp1 k IHp2];
    cbn [plain]; intros P; try contradiction.
  - intros pass st cx s t pre lvo L r N NS I NE SC CA LV D SK R H. cbn [reach capreach screach]. destruct R as ((R1 & _) & R2 & R3). lia.
  - intros pass st cx s t pre lvo L r N NS I NE SC CA LV D SK R H. rewrite seq_act in H.
    assert (X := deep_after (Act n Nil) k pass st cx s t pre lvo L r Logic.I (IHp P) N NS). rewrite past_flat in X by reflexivity.
    cbn [reach capreach screach]. apply X; auto.
  - destruct (plain_code line w abort e k P) as [PE PK]. pose proof (code_flat e PE) as FE.
    intros pass st cx s t pre lvo L r N NS I NE SC CA LV D SK R H. pose proof H as H0. rewrite seq_check in H.
    assert (ML := flat_no_leaves _ FE). assert (SE : secs e = []) by (apply flat_secs, FE).
    assert (X := fun Q => deep_after (Check line w abort e Nil) k pass st cx s t pre lvo L r Q (IHp PK) N NS I).
    rewrite past_flat in X by (cbn [leaves]; lia). cbn [nesting capturing scopes secs] in X, NE, SC, CA, SK. rewrite SE in X, SK. cbn [app] in X, SK.
    assert (PC : plain (Check line w abort e Nil)) by (clear -P; cbn [plain] in *; tauto).
    assert (Y := deep_check line w abort e k pass st cx s r P N NS ltac:(lia) ltac:(lia) R H0).
    specialize (X PC ltac:(lia) ltac:(lia) ltac:(lia) LV D SK R H). cbn [reach capreach screach]. destruct w; lia.
  - destruct P. apply deep_section; auto.
  - destruct P as [P1 P2]. intros pass st cx s t pre lvo L r N NS I NE SC CA LV D SK R H. cbn [nesting capturing scopes secs] in *.
    rewrite <- app_assoc in SK.
    assert (HK : depth (inf st) + reach (past t b) k <= cf_max_nested cf /\ length (captures (inf st)) + capreach (past t b) k <= cf_max_captures cf /\
      length (locations (inf st)) + screach (past t b) k <= cf_max_nested cf + 2).
    { rewrite seq_capture in H. assert (X := deep_after (Capture texts b Nil) k pass st cx s t pre lvo L r).
      replace (past t (Capture texts b Nil)) with (past t b) in X by (unfold past; cbn [leaves]; now rewrite Nat.add_0_r).
      cbn [plain nesting capturing scopes secs] in X. rewrite app_nil_r in X. apply X; auto; lia. }
    cbn [exec] in H. bstep H as st1 E1. bstep H as [st2 x] E2.
    assert (TM : length (map (fun l => l pass) texts) = length texts) by apply map_length. set (tx := map (fun l => l pass) texts) in *. rewrite <- TM in *.
    cbn [reach capreach screach]. rewrite <- TM. clearbody tx. clear TM.
    destruct (room_add_captures cf cf' LO tx st R) as [E|(st1' & E & E' & R1)]; [congruence|]. rewrite E1 in E. injection E as <-.
    rewrite add_captures_eq in E'; [|apply N|unfold text, str in *; lia]. injection E' as <-.
    assert (X := IHp1 P1 pass _ _ s t pre lvo (secs k ++ L) (st2, x) (normal_caps cf' may should tx _ _ _ N) NS I).
    cbn [inf current_section add_caps set_inf with_captures captures levels depth leaf_executed locations] in X.
    assert (TL : length (texts_of cf' tx) = length tx) by apply map_length. rewrite app_length, TL in X.
    specialize (X ltac:(unfold text, str in *; lia) ltac:(unfold text, str in *; lia) ltac:(unfold text, str in *; lia) LV D SK R1 E2). unfold text, str in *; lia.
Qed.

(** Every pass is made, unless a limit is met. *)
Lemma deep_passes p : plain p -> nesting p <= cf_max_nested cf' -> scopes p <= S (cf_max_nested cf') -> capturing p <= cf_max_captures cf' ->
  forall n j fuel st cx s r, normal st cx s -> skipped s = false -> in_check st = false -> enclosing cx = [] -> captured cx = [] ->
  number_of_passes p = j + S n -> progress p (levels (inf st)) j -> outermost cf st ->
  passes cf id p fuel j st = Ok r ->
  forall i, j <= i < j + S n -> reach (Some i) p <= cf_max_nested cf /\ capreach (Some i) p <= cf_max_captures cf /\ screach (Some i) p <= S (cf_max_nested cf).
Proof using LO verbose.
  intros PL NE SC CA. induction n as [n IH] using lt_wf_ind. intros j fuel st cx s r N NS I EN CP NP PR O H i J.
  destruct fuel as [|fuel]; [discriminate|]. cbn [passes] in H.
  set (st1 := set_inf st _) in H.
  assert (ES : current_section (inf st) = []) by (apply map_eq_nil with (f := sd_id); rewrite (n_sections _ _ _ _ _ N); auto).
  assert (E1 : st1 = upd st [] s (map reset_level (levels (inf st))) false None).
  { unfold st1, upd. rewrite <- (n_held _ _ _ _ _ N), <- (n_status _ _ _ _ _ N). change (tally []) with (mkcounts 0 0 0).
    rewrite bump_0, plus_0, app_nil_r. destruct st as [[] ? ? ? ? ? ? ? ?]; reflexivity. }
  assert (N1 : normal st1 cx s) by (rewrite E1; apply normal_upd with (s := s); auto).
  assert (SK : seek (Some j) (secs p ++ []) (map reset_level (levels (inf st))) false).
  { rewrite app_nil_r. cbn [seek]. destruct PR as [[-> ->]|(P1 & P2 & P3)].
    - cbn. repeat split; auto; try lia. constructor.
    - destruct (levels (inf st)) as [|l0 lv]; [congruence|]. cbn [map LevelProofs.top tl reset_level cur_id prev_id max_id] in *.
      repeat split; auto; try lia. + apply idle_reset. + rewrite Nat.sub_0_r. now apply Inv_reset. }
  assert (D0 : depth (inf st) = 0) by (rewrite (n_depth _ _ _ _ _ N), ES; reflexivity).
  assert (CL : captures (inf st) = []) by (rewrite (n_captures _ _ _ _ _ N); auto).
  assert (O1 : outermost cf st1).
  { destruct O as ((S0 & L & C) & D & L1 & C1). split; [|split; [|split]]; auto. split; [|split]; auto.
    destruct S0 as (A1 & A2 & A3 & A4). unfold safe. cbn. rewrite map_length. auto. }
  bstep H as [st2 x] E.
  assert (X := deep_all p PL j st1 cx s (Some j) [] (map reset_level (levels (inf st))) [] (st2, x) N1 NS I
    ltac:(cbn [inf st1 set_inf with_levels with_leaf_executed current_section]; rewrite ES; exact NE)
    ltac:(cbn [inf st1 set_inf with_levels with_leaf_executed locations]; destruct O as (_ & _ & LO1 & _); rewrite LO1; lia)
    ltac:(cbn [inf st1 set_inf with_levels with_leaf_executed captures]; rewrite CL; exact CA) eq_refl
    ltac:(cbn [inf st1 set_inf with_levels with_leaf_executed depth length]; auto) SK (proj1 O1) E).
  cbn [inf st1 set_inf with_levels with_leaf_executed depth captures locations] in X. rewrite D0, CL in X. cbn [length Nat.add] in X.
  assert (LOC1 : length (locations (inf st)) = 1) by apply O. rewrite LOC1 in X.
  destruct (Nat.eq_dec i j) as [->|IJ]; [lia|].
  assert (verbose' : cf_verbosity cf' = Full) by (rewrite (lo_verbosity _ _ LO); auto).
  assert (G := exec_behave cf' verbose' id may should p (plain_regular p PL) j st1 cx s (Some j) [] (map reset_level (levels (inf st))) [] N1 I
    ltac:(cbn [inf st1 set_inf with_levels with_leaf_executed current_section]; rewrite ES; exact NE)
    ltac:(cbn [inf st1 set_inf with_levels with_leaf_executed locations]; destruct O as (_ & _ & LO1 & _); rewrite LO1; lia)
    ltac:(cbn [inf st1 set_inf with_levels with_leaf_executed captures]; rewrite CL; exact CA) eq_refl
    ltac:(cbn [inf st1 set_inf with_levels with_leaf_executed depth length]; auto) SK).
  destruct (plain_behave id may should (cf_max_capture_length cf') (cf_max_message_length cf') p PL j cx (Some j) s NS) as (ev & s' & EB & NS' & _).
  unfold good in G. rewrite EB in G. change (leaf_executed (inf st1)) with false in G. destruct G as (lvo' & lf' & E' & RE).
  destruct (room_exec cf cf' LO id j p st1 (proj1 O1)) as [F|([st2' x'] & F & F' & R2)]; [congruence|].
  rewrite E in F. injection F as <- <-. rewrite E' in F'. injection F' as <- <-. cbn [fst] in R2.
  apply scope_exec in E. assert (O2 := outer_scope _ _ _ O1 R2 E).
  rewrite E1, upd_upd in H, O2. cbn [app] in H, O2.
  destruct (pass_levels p st n j ev s' lvo' lf' ES PR NP RE) as (lv' & AP1 & AP2).
  rewrite AP1 in H. set (st3 := set_inf _ _) in H.
  assert (E3 : st3 = upd st ev s' lv' lf' None) by reflexivity.
  destruct n as [|n]; [lia|]. cbn [Nat.eqb] in AP2.
  assert (O3 : outermost cf st3).
  { pose proof O2 as ((S0 & L & C) & D & L1 & C1). destruct S0 as (A1 & A2 & A3 & A4).
    unfold after_pass in AP1.
    assert (LL : length lv' <= cf_max_nested cf).
    { destruct (levels (inf (upd st ev s' lvo' lf' None))) as [|c l'] eqn:LV.
      - apply (f_equal levels) in AP1. cbn in AP1. cbn in LV. rewrite <- AP1, LV. cbn. lia.
      - destruct l' as [|c' l'].
        + destruct (prev_id c =? max_id c).
          * apply (f_equal levels) in AP1. cbn in AP1. rewrite <- AP1. cbn. lia.
          * apply (f_equal levels) in AP1. cbn in AP1. cbn in LV. rewrite <- AP1, LV. exact (proj2 A1).
        + apply (f_equal levels) in AP1. cbn in AP1. cbn in LV. rewrite <- AP1, LV. exact (proj2 A1). }
    rewrite E3. unfold outermost, room, safe. cbn in A1, A2, A3, A4, L, C, D, L1, C1 |- *. repeat split; auto; lia. }
  destruct (negb _ && negb _) eqn:CT.
  2:{ rewrite E3 in CT. cbn [inf upd levels status] in CT. rewrite is_skipped_intern, NS' in CT.
      destruct lv' as [|c l']; [tauto|]. discriminate. }
  apply (IH n ltac:(lia) (S j) fuel st3 cx s' r); auto; try lia.
  - rewrite E3. apply normal_upd with (s := s). exact N.
  - right. exact AP2.
Qed.
End Deep.
