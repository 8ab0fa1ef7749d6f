(** Passes, section events and positions of checks, from the specification of runs (C22, C23, C26, C27). *)
From Verif.Spec Require Import TextSpec FilterSpec Events RunSpec TreeSpec.
From Verif.Model Require Import Base.

Section Tree.
Context {ID : Type}.
Variable id : ID.
Variables may should : bool.
Variables mc mm : nat.
Notation B := (behave id may should mc mm).

Lemma mute_flat p : mute p -> flat p.
Proof using. clear -p. induction p; cbn; intuition. Qed.
Lemma mute_regular p : mute p -> regular p.
Proof using. clear -p. induction p; cbn; intuition. now apply mute_flat. Qed.
Lemma mute_scopes p : mute p -> scopes p = 0.
Proof using. clear -p. induction p; cbn; try tauto; intros M; rewrite ?IHp1, ?IHp2 by tauto; reflexivity. Qed.
Lemma mute_nesting p : mute p -> nesting p = 0.
Proof using. clear -p. induction p; cbn; try tauto; intros M; rewrite ?IHp1, ?IHp2 by tauto; reflexivity. Qed.
Lemma mute_leaves p : mute p -> leaves p = 0.
Proof using. clear -p. induction p; cbn; intuition. Qed.

Lemma mute_behave p : mute p -> forall pass cx s, exists x, B pass cx None p s = ([], s, x).
Proof.
  induction p as [|n k IHp|when y k IHp|line w abort e IHe k IHp|line message abort k IHp|sec b IHp1 k IHp2|texts b IHp1 k IHp2|accepts notify b IHp1 k IHp2];
    cbn [mute]; intros M pass cx s; cbn [behave]; try contradiction.
  - eauto.
  - destruct (when pass); eauto.
  - destruct M as [M1 M2]. destruct (IHp1 M1 pass (mkctx (enclosing cx) (captured cx ++ map (fun l => fit mc (List.concat (l pass))) texts) (where_ cx)) s) as [x ->].
    cbn [after past]. destruct x; [|eauto]. destruct (IHp2 M2 pass cx s) as [x ->]. eauto.
  - destruct M as (_ & M1 & M2). destruct (IHp1 M1 pass cx s) as [x ->]. cbn [past].
    destruct (IHp2 M2 pass cx s) as [x' E]. destruct x as [|y f g]; cbn [after]; [rewrite E; eauto|].
    destruct (accepts y); [rewrite E|]; eauto.
Qed.

(** The code evaluated by the checks of a plain body. *)
Lemma plain_code line w abort e k : plain (Check line w abort e k) -> (mute e \/ flat e /\ plain e) /\ plain k.
Proof using. clear. cbn [plain]. destruct w; tauto. Qed.
Lemma mute_visit p : mute p -> forall a leaf, visit a leaf p = [].
Proof using. clear -p. induction p; cbn; try tauto; intros M a leaf; auto. now rewrite IHp1, IHp2. Qed.
Lemma flat_walk p : flat p -> walk p = [].
Proof using. clear -p. induction p; cbn; try tauto; intros M; rewrite ?IHp, ?IHp1, ?IHp2 by tauto; auto. Qed.
Lemma flat_no_leaves p : flat p -> leaves p = 0.
Proof using. clear -p. induction p; cbn; try tauto; intros M; rewrite ?IHp, ?IHp1, ?IHp2 by tauto; auto. Qed.
Lemma flat_nesting p : flat p -> nesting p = 0.
Proof using. clear -p. induction p; cbn; try tauto; intros M; rewrite ?IHp, ?IHp1, ?IHp2 by tauto; auto. Qed.
Lemma code_flat e : mute e \/ flat e /\ plain e -> flat e.
Proof using. clear. intros [M|[F _]]; auto using mute_flat. Qed.

Lemma steps_app (a b : list (event ID)) : steps (a ++ b) = steps a ++ steps b.
Proof. apply flat_map_app. Qed.
Lemma brackets_app (a b : list (event ID)) : brackets (a ++ b) = brackets a ++ brackets b.
Proof. apply flat_map_app. Qed.

Lemma worsen_not_skipped ok s : skipped s = false -> skipped (worsen may should ok s) = false.
Proof. unfold worsen. destruct ok; auto. destruct (may || should); auto. now destruct s. Qed.

(** Section events of one pass. *)
Fixpoint walk_pass (leaf : option nat) (p : prog) : list bracket :=
  match p with
  | Nil => []
  | Act _ k | Throw _ _ k | Skip _ _ _ k => walk_pass leaf k
  | Check _ _ _ e k => walk_pass leaf k
  | InSection s b k =>
    match leaf with
    | None => []
    | Some j =>
      let n := Nat.max 1 (leaves b) in
      if j <? n then (if j =? 0 then [Start s] else []) ++ walk_pass leaf b ++ (if S j =? n then [End s] else [])
      else walk_pass (Some (j - n)) k
    end
  | Capture _ b k => match leaf with
    | None => []
    | Some j => if j <? leaves b then walk_pass leaf b else walk_pass (Some (j - leaves b)) k
    end
  | Catch _ _ b k => []
  end.

Lemma walk_pass_none p : walk_pass None p = [].
Proof using. clear -p. induction p; cbn; auto. Qed.
Lemma walk_pass_beyond p : forall j, leaves p <= j -> plain p -> walk_pass (Some j) p = [].
Proof using.
  induction p as [|n k IHp|when y k IHp|line w abort e IHe k IHp|line message abort k IHp|sec b IHp1 k IHp2|texts b IHp1 k IHp2|accepts notify b IHp1 k IHp2];
    intros j L P; cbn [walk_pass leaves plain] in *; auto; try contradiction.
  - apply IHp; [lia|]. apply P.
  - destruct (Nat.ltb_spec j (Nat.max 1 (leaves b))); [lia|]. apply IHp2; [lia|]. apply P.
  - destruct (Nat.ltb_spec j (leaves b)); [lia|]. apply IHp2; [lia|apply P].
Qed.

Lemma plain_behave p : plain p -> forall pass cx leaf s, skipped s = false ->
  exists ev s', B pass cx leaf p s = (ev, s', Finished) /\ skipped s' = false /\ steps ev = visit (enclosing cx) leaf p /\
    brackets ev = walk_pass leaf p /\ forall e, In e ev -> match e with SectionEnded _ b _ => b = false | _ => True end.
Proof.
  induction p as [|n k IHp|when y k IHp|line w abort e IHe k IHp|line message abort k IHp|sec b IHp1 k IHp2|texts b IHp1 k IHp2|accepts notify b IHp1 k IHp2];
    cbn [plain]; intros M pass cx leaf s NS; cbn [behave visit]; try contradiction.
  - exists [], s. cbn. intuition.
  - destruct (IHp M pass cx leaf s NS) as (ev & s' & E & N & S1 & S2 & S3). cbn [after]. rewrite E.
    exists ([User n] ++ ev), s'. split; [reflexivity|]. cbn [app steps flat_map brackets walk_pass]. fold (@steps ID) (@brackets ID).
    split; [exact N|]. split; [f_equal; exact S1|]. split; [exact S2|]. intros x [<-|I]; auto. now apply S3.
  - destruct M as [M1 M2].
    set (inside := mkctx (enclosing cx) (captured cx) (mkloc line InCheck)).
    assert (X : exists ev s1 x ok what, B pass inside None e s = (ev, s1, x) /\ conclusion mm pass w x = Some (ok, what) /\ negb ok && abort = false /\
       skipped s1 = false /\ steps ev = visit (enclosing cx) None e /\ brackets ev = [] /\
       forall e, In e ev -> match e with SectionEnded _ b _ => b = false | _ => True end).
    { assert (PL : flat e /\ plain e -> (abort = true -> exists what, conclusion mm pass w Finished = Some (true, what)) ->
         exists ev s1 x ok what, B pass inside None e s = (ev, s1, x) /\ conclusion mm pass w x = Some (ok, what) /\ negb ok && abort = false /\
         skipped s1 = false /\ steps ev = visit (enclosing cx) None e /\ brackets ev = [] /\
         forall e, In e ev -> match e with SectionEnded _ b _ => b = false | _ => True end).
      { intros [_ PE] AB. destruct (IHe PE pass inside None s NS) as (ev & s1 & E & N & S1 & S2 & S3). rewrite walk_pass_none in S2.
        assert (CO : exists ok what, conclusion mm pass w Finished = Some (ok, what) /\ negb ok && abort = false).
        { destruct abort; [destruct (AB eq_refl) as [what ->]; eauto|].
          destruct w; cbn [conclusion]; do 2 eexists; (split; [reflexivity|apply andb_false_r]). }
        destruct CO as (ok & what & CO1 & CO2). exists ev, s1, Finished, ok, what. auto 10. }
      assert (MU : mute e -> abort = false -> (forall x, exists ok what, conclusion mm pass w x = Some (ok, what)) ->
         exists ev s1 x ok what, B pass inside None e s = (ev, s1, x) /\ conclusion mm pass w x = Some (ok, what) /\ negb ok && abort = false /\
         skipped s1 = false /\ steps ev = visit (enclosing cx) None e /\ brackets ev = [] /\
         forall e, In e ev -> match e with SectionEnded _ b _ => b = false | _ => True end).
      { intros ME -> C. destruct (mute_behave e ME pass inside s) as [x E]. destruct (C x) as (ok & what & CO).
        exists [], s, x, ok, what. rewrite (mute_visit e ME). repeat split; auto; [apply andb_false_r|]. intros y []. }
      destruct w as [what outcome|type accepts|type accepts matches describe|source]; destruct M1 as [M1 M1'].
      - apply PL; auto. intros ->. cbn. rewrite M1' by auto. eauto.
      - destruct M1; [apply MU|apply PL; congruence]; auto. intros [|x f g]; cbn [conclusion]; [|destruct (accepts x)]; eauto.
      - destruct M1; [apply MU|apply PL; congruence]; auto. intros [|x f g]; cbn [conclusion]; [|destruct (accepts x); [destruct (matches x)|]]; eauto.
      - destruct M1; [apply MU|apply PL; congruence]; auto. intros [|[|what|] f g]; cbn [conclusion]; eauto. }
    destruct X as (ev0 & s1 & x & ok & what & E1 & E2 & E3 & N1 & T1 & T2 & T3). rewrite E1, E2. cbn [after]. unfold assertion. rewrite N1. cbn [after]. rewrite E3.
    destruct (IHp M2 pass cx leaf (worsen may should ok s1)) as (ev & s' & E & N & S1 & S2 & S3); [now apply worsen_not_skipped|]. rewrite E.
    eexists _, s'. split; [reflexivity|]. split; [exact N|]. rewrite !steps_app, !brackets_app, T1, T2. cbn [walk_pass app].
    rewrite <- S1, <- S2. split; [destruct ok; reflexivity|]. split; [destruct ok; reflexivity|].
    intros y I. apply in_app_iff in I. destruct I as [I|I]; [now apply T3|]. destruct I as [<-|I]; [destruct ok; exact Logic.I|now apply S3].
  - destruct M as [M1 M2]. destruct leaf as [j|]; [|change (walk_pass None (InSection sec b k)) with (@nil bracket); rewrite <- (walk_pass_none k); apply IHp2; auto].
    destruct (Nat.ltb_spec j (Nat.max 1 (leaves b))) as [J|J].
    + set (inside := mkctx (enclosing cx ++ [sec]) (captured cx) (mkloc (sec_line sec) SectionScope)).
      destruct (IHp1 M1 pass inside (Some j) s NS) as (ev & s1 & E & N & S1 & S2 & S3). rewrite E.
      destruct (IHp2 M2 pass cx None s1 N) as (ev' & s' & E' & N' & S1' & S2' & S3'). cbn [after]. rewrite E'.
      eexists _, s'. split; [reflexivity|]. split; [exact N'|]. rewrite !steps_app, !brackets_app, S1, S2, S1', S2', walk_pass_none.
      cbn [walk_pass]. destruct (Nat.ltb_spec j (Nat.max 1 (leaves b))); [|lia]. rewrite N, app_nil_r.
      split; [destruct (j =? 0), (S j =? Nat.max 1 (leaves b)); cbn; rewrite ?app_nil_r; reflexivity|].
      split; [destruct (j =? 0), (S j =? Nat.max 1 (leaves b)); reflexivity|].
      intros x I. rewrite !in_app_iff in I. destruct I as [[I|[I|I]]|I]; [|now apply S3| |now apply S3'].
      * destruct (j =? 0); [destruct I as [<-|[]]; auto|destruct I].
      * destruct (S j =? _); [destruct I as [<-|[]]; auto|destruct I].
    + destruct (IHp2 M2 pass cx (Some (j - Nat.max 1 (leaves b))) s NS) as (ev & s' & E & H). rewrite E.
      exists ev, s'. split; [reflexivity|]. cbn [walk_pass]. destruct (Nat.ltb_spec j (Nat.max 1 (leaves b))); [lia|]. exact H.
  - destruct M as [M1 M2].
    set (inside := mkctx (enclosing cx) (captured cx ++ map (fun l => fit mc (List.concat (l pass))) texts) (where_ cx)).
    destruct (IHp1 M1 pass inside leaf s NS) as (ev & s1 & E & N & S1 & S2 & S3). rewrite E.
    destruct (IHp2 M2 pass cx (past leaf b) s1 N) as (ev' & s' & E' & N' & S1' & S2' & S3'). cbn [after]. rewrite E'.
    eexists _, s'. split; [reflexivity|]. split; [exact N'|]. rewrite steps_app, brackets_app, S1, S1', S2, S2'.
    split; [reflexivity|]. split.
    + cbn [walk_pass]. destruct leaf as [j|]; cbn [past]; [|now rewrite !walk_pass_none].
      destruct (Nat.ltb_spec j (leaves b)); [now rewrite walk_pass_none, app_nil_r|]. now rewrite walk_pass_beyond.
    + intros x I. apply in_app_iff in I. destruct I; [now apply S3|now apply S3'].
Qed.

Lemma flat_map_seq_split {A} (f : nat -> list A) a n : forall m,
  flat_map f (seq a (n + m)) = flat_map f (seq a n) ++ flat_map f (seq (a + n) m).
Proof. intros m. now rewrite seq_app, flat_map_app. Qed.

Lemma flat_map_ext_in {A X} (f g : X -> list A) l : (forall x, In x l -> f x = g x) -> flat_map f l = flat_map g l.
Proof. induction l; cbn; intros H; auto. f_equal; auto. Qed.

Lemma flat_map_shift {A} n : forall (f : nat -> list A) a, flat_map f (seq a n) = flat_map (fun j => f (j + a)) (seq 0 n).
Proof.
  induction n; intros f a; cbn [seq flat_map]; auto. f_equal. rewrite IHn. rewrite (IHn _ 1).
  apply flat_map_ext_in. intros. f_equal. lia.
Qed.

Lemma bracket_sum {A} (x y : list A) f n : 1 <= n ->
  flat_map (fun j => (if j =? 0 then x else []) ++ f j ++ (if S j =? n then y else [])) (seq 0 n) = x ++ flat_map f (seq 0 n) ++ y.
Proof.
  set (g := fun j => _).
  assert (T : forall m a, 1 <= a -> a + m = n -> flat_map g (seq a m) = flat_map f (seq a m) ++ if m =? 0 then [] else y).
  { induction m as [|m IH]; intros a H1 H2; cbn [seq flat_map]; auto. rewrite IH by lia. unfold g at 1.
    destruct (Nat.eqb_spec a 0); [lia|]. change (S m =? 0) with false. cbn [app]. rewrite <- !app_assoc. f_equal.
    destruct (Nat.eqb_spec (S a) n), (Nat.eqb_spec m 0); try lia; [subst m|]; cbn; rewrite ?app_nil_r; reflexivity. }
  intros H. destruct n as [|n]; [lia|]. cbn [seq flat_map]. rewrite (T n 1) by lia. unfold g. change (0 =? 0) with true. cbn [app]. rewrite <- !app_assoc.
  f_equal. f_equal. destruct (Nat.eqb_spec 1 (S n)), (Nat.eqb_spec n 0); try lia; [subst n|]; cbn; rewrite ?app_nil_r; reflexivity.
Qed.

(** All the passes together walk the tree. *)
Lemma walk_passes p : plain p -> flat_map (fun j => walk_pass (Some j) p) (seq 0 (leaves p)) = walk p.
Proof.
  induction p as [|n k IHp|when y k IHp|line w abort e IHe k IHp|line message abort k IHp|sec b IHp1 k IHp2|texts b IHp1 k IHp2|accepts notify b IHp1 k IHp2];
    intros P; cbn [walk leaves plain] in *; auto; try contradiction.
  - destruct (plain_code line w abort e k P) as [PE PK]. apply code_flat in PE.
    rewrite (flat_walk e PE), (flat_no_leaves e PE). cbn [app plus]. apply IHp, PK.
  - destruct P as [P1 P2]. set (n := Nat.max 1 (leaves b)). rewrite flat_map_seq_split.
    replace (flat_map _ (seq (0 + n) (leaves k))) with (walk k).
    2:{ rewrite <- (IHp2 P2). cbn [plus]. rewrite (flat_map_shift _ _ n). apply flat_map_ext_in. intros j _. cbn [walk_pass].
        fold n. destruct (Nat.ltb_spec (j + n) n); [lia|]. f_equal. f_equal. lia. }
    replace (flat_map _ (seq 0 n)) with ([Start sec] ++ walk b ++ [End sec]); [now rewrite <- !app_assoc|].
    transitivity (flat_map (fun j => (if j =? 0 then [Start sec] else []) ++ walk_pass (Some j) b ++ (if S j =? n then [End sec] else [])) (seq 0 n)).
    2:{ apply flat_map_ext_in. intros j I. apply in_seq in I. cbn [walk_pass]. fold n. destruct (Nat.ltb_spec j n); [reflexivity|lia]. }
    rewrite bracket_sum by (unfold n; lia). rewrite <- (IHp1 P1). f_equal. f_equal. unfold n. destruct (leaves b) eqn:L; [|reflexivity].
    cbn [Nat.max seq flat_map]. rewrite walk_pass_beyond; auto. lia.
  - destruct P as [P1 P2]. rewrite flat_map_seq_split, <- (IHp1 P1), <- (IHp2 P2). f_equal.
    + apply flat_map_ext_in. intros j I. apply in_seq in I. cbn [walk_pass]. destruct (Nat.ltb_spec j (leaves b)); [reflexivity|lia].
    + cbn [plus]. rewrite (flat_map_shift _ _ (leaves b)). apply flat_map_ext_in. intros j I. cbn [walk_pass].
      destruct (Nat.ltb_spec (j + leaves b) (leaves b)); [lia|]. f_equal. f_equal. lia.
Qed.

Lemma walk_nested p : nested (walk p).
Proof.
  assert (A : forall a b, nested a -> nested b -> nested (a ++ b)).
  { induction 1 as [|s a a' H1 IH1 H2 IH2]; intros H; auto. rewrite <- app_comm_cons, <- app_assoc. cbn [app].
    constructor; auto. }
  induction p; cbn [walk]; auto using nested_nil. constructor; auto.
Qed.

Lemma plain_passes p : plain p -> forall line n pass s, skipped s = false ->
  exists ev s', behave_passes id may should mc mm (mkctx [] [] (mkloc line TestCaseScope)) p n pass s = (ev, s', Finished) /\
    skipped s' = false /\ steps ev = flat_map (fun j => visit [] (Some j) p) (seq pass n) /\
    brackets ev = flat_map (fun j => walk_pass (Some j) p) (seq pass n).
Proof.
  intros P line. induction n as [|n IH]; intros pass s NS; cbn [behave_passes].
  - exists [], s. auto.
  - destruct (plain_behave p P pass (mkctx [] [] (mkloc line TestCaseScope)) (Some pass) s NS) as (ev & s1 & E & N & S1 & S2 & _).
    rewrite E. cbn [after]. rewrite N. destruct (IH (S pass) s1 N) as (ev' & s' & E' & N' & S1' & S2'). rewrite E'.
    exists (ev ++ ev'), s'. rewrite steps_app, brackets_app, S1, S2, S1', S2'. auto.
Qed.

Lemma plain_regular p : plain p -> regular p.
Proof using. clear -p.
  induction p as [|n k IHp|when y k IHp|line w abort e IHe k IHp|line message abort k IHp|sec b IHp1 k IHp2|texts b IHp1 k IHp2|accepts notify b IHp1 k IHp2];
    cbn [regular]; intros P; auto; try (cbn [plain] in P; tauto).
  destruct (plain_code line w abort e k P) as [PE PK]. split; [|split; auto].
  - now apply code_flat.
  - destruct PE as [M|[_ PE]]; auto using mute_regular.
Qed.
(** ** Positions *)
Definition within (p : prog) (pass : nat) (cx : context) (e : event ID) : Prop :=
  let check sections captures (l : location) what success :=
    exists s c line w abort code k, sections = enclosing cx ++ s /\ captures = captured cx ++ c /\
      stands mc pass p (Check line w abort code k) s c /\ l = mkloc line (precision pass code) /\
      match w with IsTrue m outcome => what = m pass /\ success = outcome pass | _ => True end in
  match e with
  | AssertionSucceeded _ sections captures l what => check sections captures l what true
  | AssertionFailed _ sections captures l what _ _ => check sections captures l what false
  | TestCaseSkipped _ sections captures l message =>
    exists s c line m abort k, sections = enclosing cx ++ s /\ captures = captured cx ++ c /\
      stands mc pass p (Skip line m abort k) s c /\ l = mkloc line Exact /\ message = m pass
  | _ => True
  end.
Definition thrown_within (p : prog) (pass : nat) (cx : context) (x : ending) : Prop :=
  match x with
  | Finished => True
  | Threw AbortExn _ _ => True
  | Threw y from gone => exists s c when k, enclosing from = enclosing cx ++ s /\ captured from = captured cx ++ c /\
      stands mc pass p (Throw when y k) s c /\ when pass = true
  end.

Lemma within_sub p q pass cx cx' s0 c0 : enclosing cx' = enclosing cx ++ s0 -> captured cx' = captured cx ++ c0 ->
  (forall r s c, stands mc pass q r s c -> stands mc pass p r (s0 ++ s) (c0 ++ c)) ->
  (forall e, within q pass cx' e -> within p pass cx e) /\ (forall x, thrown_within q pass cx' x -> thrown_within p pass cx x).
Proof.
  intros E1 E2 H. split.
  - intros e. unfold within. rewrite E1, E2.
    destruct e; auto.
    + intros (s & c & ln & w & a & cd & k & -> & -> & A & B' & C). exists (s0 ++ s), (c0 ++ c), ln, w, a, cd, k. rewrite !app_assoc. auto 10.
    + intros (s & c & ln & w & a & cd & k & -> & -> & A & B' & C). exists (s0 ++ s), (c0 ++ c), ln, w, a, cd, k. rewrite !app_assoc. auto 10.
    + intros (s & c & ln & m & a & k & -> & -> & A & B'). exists (s0 ++ s), (c0 ++ c), ln, m, a, k. rewrite !app_assoc. auto 10.
  - intros [|y from gone]; auto. cbn. destruct y; auto; rewrite E1, E2;
    intros (s & c & w & k & -> & -> & A & B'); exists (s0 ++ s), (c0 ++ c), w, k; rewrite !app_assoc; auto 10.
Qed.

Lemma within_same p q pass cx cx' : enclosing cx' = enclosing cx -> captured cx' = captured cx ->
  (forall r s c, stands mc pass q r s c -> stands mc pass p r s c) ->
  (forall e, within q pass cx' e -> within p pass cx e) /\ (forall x, thrown_within q pass cx' x -> thrown_within p pass cx x).
Proof. intros E1 E2 H. apply (within_sub p q pass cx cx' [] []); rewrite ?app_nil_r; auto. Qed.

Definition located (p : prog) (pass : nat) (cx : context) (r : behaviour) : Prop :=
  let '(ev, _, x) := r in Forall (within p pass cx) ev /\ thrown_within p pass cx x.

Lemma located_after p pass cx r f : located p pass cx r -> (forall s, located p pass cx (f s)) -> located p pass cx (after r f).
Proof.
  destruct r as [[ev s] x]. intros [H1 H2] F. cbn [after]. destruct x as [|y g h]; [|split; auto].
  specialize (F s). destruct (f s) as [[ev' s'] x']. destruct F as [F1 F2]. split; auto. now apply Forall_app.
Qed.
Lemma located_weaken p q pass cx cx' r : (forall e, within q pass cx' e -> within p pass cx e) ->
  (forall x, thrown_within q pass cx' x -> thrown_within p pass cx x) -> located q pass cx' r -> located p pass cx r.
Proof. destruct r as [[ev s] x]. intros H1 H2 [H3 H4]. split; auto. eapply Forall_impl; eauto. Qed.

Lemma behave_located p : forall pass cx leaf s, located p pass cx (B pass cx leaf p s).
Proof.
  induction p as [|n k IHp|when y k IHp|line w abort e IHe k IHp|line message abort k IHp|sec b IHp1 k IHp2|texts b IHp1 k IHp2|accepts notify b IHp1 k IHp2];
    intros pass cx leaf s; cbn [behave].
  - now split.
  - apply located_after; [split; [repeat constructor|exact I]|]. intros s'.
    destruct (within_same (Act n k) k pass cx cx) as [W1 W2]; auto; [now constructor|]. eapply located_weaken; eauto.
  - destruct (when pass) eqn:Wn.
    + split; [constructor|]. destruct y; cbn; auto; exists [], [], when, k; rewrite !app_nil_r; repeat split; auto; constructor.
    + destruct (within_same (Throw when y k) k pass cx cx) as [W1 W2]; auto; [now constructor|]. eapply located_weaken; eauto.
  - set (inside := mkctx (enclosing cx) (captured cx) (mkloc line InCheck)).
    destruct (within_same (Check line w abort e k) e pass cx inside) as [W1 W2]; auto; [now constructor|].
    destruct (within_same (Check line w abort e k) k pass cx cx) as [W3 W4]; auto; [now constructor|].
    specialize (IHe pass inside None s). destruct (B pass inside None e s) as [[ev s1] x].
    apply (located_weaken _ _ _ _ _ _ W1 W2) in IHe. destruct IHe as [H1 H2].
    destruct (conclusion mm pass w x) as [[ok what]|] eqn:C; [|split; auto].
    apply located_after; [split; auto; exact I|]. intros s2. apply located_after.
    + unfold assertion. destruct (skipped s2); [split; [constructor|exact I]|]. split; [|exact I]. constructor; [|constructor].
      assert (P : match w with IsTrue m outcome => what = m pass /\ ok = outcome pass | _ => True end).
      { destruct w; auto. destruct x; cbn in C; [|discriminate]. injection C as <- <-. auto. }
      destruct ok; cbn; exists [], [], line, w, abort, e, k; rewrite !app_nil_r; repeat split; auto; constructor.
    + intros s3. destruct (negb ok && abort); [split; [constructor|exact I]|]. eapply located_weaken; eauto.
  - apply located_after.
    + split; [|exact I]. constructor; [|constructor]. cbn. exists [], [], line, message, abort, k. rewrite !app_nil_r. repeat split. constructor.
    + intros s2. destruct abort; [split; [constructor|exact I]|].
      destruct (within_same (Skip line message false k) k pass cx cx) as [W1 W2]; auto; [now constructor|]. eapply located_weaken; eauto.
  - destruct (within_same (InSection sec b k) k pass cx cx) as [W3 W4]; auto; [now constructor|].
    assert (L : forall t s', located (InSection sec b k) pass cx (B pass cx t k s')) by (intros; apply (located_weaken _ _ _ _ _ _ W3 W4); auto).
    destruct leaf as [j|]; [|apply L].
    destruct (j <? Nat.max 1 (leaves b)); [|apply L].
    set (inside := mkctx (enclosing cx ++ [sec]) (captured cx) (mkloc (sec_line sec) SectionScope)).
    destruct (within_sub (InSection sec b k) b pass cx inside [sec] []) as [W1 W2]; auto; [cbn; now rewrite app_nil_r|intros; now constructor|].
    specialize (IHp1 pass inside (Some j) s). destruct (B pass inside (Some j) b s) as [[ev s1] x].
    apply (located_weaken _ _ _ _ _ _ W1 W2) in IHp1. destruct IHp1 as [H1 H2].
    assert (H0 : Forall (within (InSection sec b k) pass cx) (if j =? 0 then [SectionStarted sec] else [])) by (destruct (j =? 0); repeat constructor).
    destruct x as [|y g h].
    + apply located_after; [|intros; apply L]. split; [|exact I]. repeat (apply Forall_app; split); auto.
      destruct (S j =? _); repeat constructor.
    + split; [apply Forall_app; auto|exact H2].
  - set (cs := map (fun l => fit mc (List.concat (l pass))) texts).
    set (inside := mkctx (enclosing cx) (captured cx ++ cs) (where_ cx)).
    destruct (within_sub (Capture texts b k) b pass cx inside [] cs) as [W1 W2]; auto; [cbn; now rewrite app_nil_r|intros; now constructor|].
    destruct (within_same (Capture texts b k) k pass cx cx) as [W3 W4]; auto; [now constructor|].
    apply located_after; [apply (located_weaken _ _ _ _ _ _ W1 W2)|intros; apply (located_weaken _ _ _ _ _ _ W3 W4)]; auto.
  - destruct (within_same (Catch accepts notify b k) b pass cx cx) as [W1 W2]; auto; [now constructor|].
    destruct (within_same (Catch accepts notify b k) k pass cx cx) as [W3 W4]; auto; [now apply at_handled|].
    specialize (IHp1 pass cx leaf s). destruct (B pass cx leaf b s) as [[ev s1] x].
    apply (located_weaken _ _ _ _ _ _ W1 W2) in IHp1. destruct IHp1 as [H1 H2].
    assert (L : forall t s', located (Catch accepts notify b k) pass cx (B pass cx t k s')) by (intros; apply (located_weaken _ _ _ _ _ _ W3 W4); auto).
    destruct x as [|y g h]; [|destruct (accepts y)]; [| |split; auto].
    all: apply located_after; auto; split; auto; exact I.
Qed.

Definition top line := mkctx [] [] (mkloc line TestCaseScope).

(** Passes: the index of the pass each event belongs to. *)
Lemma passes_located p line : forall n pass s,
  let '(ev, _, x) := behave_passes id may should mc mm (top line) p n pass s in
  Forall (fun e => exists i, pass <= i < pass + n /\ report_of mc p i e) ev /\
  match x with
  | Finished | Threw AbortExn _ _ => True
  | Threw y from gone => exists i, pass <= i < pass + n /\ thrown_at mc p i y (enclosing from) (captured from)
  end.
Proof.
  assert (R : forall i e, within p i (top line) e -> report_of mc p i e).
  { intros i e. unfold within, report_of. destruct e; auto; cbn [enclosing captured top app].
    - intros (s & c & ln & w & a & cd & k & -> & -> & H). eauto 10.
    - intros (s & c & ln & w & a & cd & k & -> & -> & H). eauto 10.
    - intros (s & c & ln & m & a & k & -> & -> & H). exists ln, m, a, k. exact H. }
  induction n as [|n IH]; intros pass s; cbn [behave_passes]; [split; auto|].
  pose proof (behave_located p pass (top line) (Some pass) s) as L. destruct (B pass (top line) (Some pass) p s) as [[ev s1] x].
  destruct L as [L1 L2].
  assert (F : Forall (fun e => exists i, pass <= i < pass + S n /\ report_of mc p i e) ev).
  { eapply Forall_impl; [|exact L1]. intros e H. exists pass. split; [lia|]. apply R, H. }
  cbn [after]. destruct x as [|y g h].
  - destruct (skipped s1); [rewrite app_nil_r; auto|]. specialize (IH (S pass) s1).
    destruct (behave_passes _ _ _ _ _ _ p n (S pass) s1) as [[ev' s'] x']. destruct IH as [I1 I2]. split.
    + apply Forall_app; split; auto. eapply Forall_impl; [|exact I1]. intros e (i & H1 & H2). exists i. split; auto. lia.
    + destruct x' as [|[|what|] g h]; auto; destruct I2 as (i & H1 & H2); exists i; split; auto; lia.
  - split; auto. destruct y as [|what|]; auto; exists pass; (split; [lia|]); destruct L2 as (s' & c & w & k & -> & -> & H); exists w, k; exact H.
Qed.

End Tree.
