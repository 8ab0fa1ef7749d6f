(** The current test (C31). *)
From Verif.Spec Require Import NestedSpec.
From Verif.Model Require Import Base Nested.

Lemma exec_owners c : forall current,
  exec_code c current =
  if forallb (fun x => match snd x with Some _ => true | None => false end) (fst (owners current c))
  then Ok (flat_map (fun x => match snd x with Some t => [(fst x, t)] | None => [] end) (fst (owners current c)), current, snd (owners current c))
  else Err Terminate.
Proof.
  induction c as [|n k IH| |t body IHb k IHk|body IHb k IHk]; intros current; cbn [exec_code owners].
  - reflexivity.
  - rewrite IH. destruct (owners current k) as [l x]. cbn [fst snd forallb flat_map]. destruct current as [t|]; cbn [get_current_test bind andb]; [|reflexivity].
    destruct (forallb _ l); reflexivity.
  - reflexivity.
  - cbv zeta. rewrite IHb. specialize (IHk current). destruct (owners current k) as [l x]. cbn [fst snd] in *. rewrite forallb_app, flat_map_app.
    destruct (forallb _ (fst (owners (Some t) body))); cbn [bind get_current_test andb]; [|reflexivity]. rewrite IHk. destruct (forallb _ l); reflexivity.
  - rewrite IHb. specialize (IHk current). destruct (owners current k) as [l x]. cbn [fst snd] in *. rewrite forallb_app, flat_map_app.
    destruct (forallb _ (fst (owners current body))); cbn [bind andb]; [|reflexivity]. rewrite IHk. destruct (forallb _ l); reflexivity.
Qed.

Lemma exec_restores c current l current' x : exec_code c current = Ok (l, current', x) ->
  current' = current /\ x = snd (owners current c) /\ map (fun y => (fst y, Some (snd y))) l = fst (owners current c).
Proof.
  rewrite exec_owners. destruct (forallb _ _) eqn:F; [|discriminate]. intros [= <- <- <-]. repeat split.
  induction (fst (owners current c)) as [|[n [t|]] r IH]; [reflexivity| |discriminate]. cbn [forallb snd andb] in F. cbn [flat_map fst snd app map]. now rewrite IH.
Qed.

Lemma exec_terminates c current :
  (Exists (fun x => snd x = None) (fst (owners current c)) -> exec_code c current = Err Terminate) /\
  (~ Exists (fun x => snd x = None) (fst (owners current c)) -> exists r, exec_code c current = Ok r).
Proof.
  rewrite exec_owners. set (l := fst (owners current c)). assert (E : forallb (fun x => match snd x with Some _ => true | None => false end) l = true <-> ~ Exists (fun x => snd x = None) l).
  { rewrite forallb_forall, Exists_exists. split.
    - intros H (x & Hx & N). specialize (H x Hx). rewrite N in H. discriminate.
    - intros H x Hx. destruct (snd x) eqn:X; [reflexivity|]. exfalso. eauto. }
  destruct (forallb _ l); split; intros H.
  - exfalso. apply E in H; auto.
  - eauto.
  - reflexivity.
  - exfalso. apply E in H. discriminate.
Qed.

Lemma inside_defined c t : exists r, exec_code c (Some t) = Ok r.
Proof.
  rewrite exec_owners. replace (forallb _ _) with true; [eauto|]. symmetry. revert t.
  induction c as [|n k IH| |u body IHb k IHk|body IHb k IHk]; intros t; cbn [owners]; auto.
  - specialize (IH t). destruct (owners (Some t) k). exact IH.
  - specialize (IHb u). specialize (IHk t). destruct (owners (Some t) k). cbn [fst] in *. now rewrite forallb_app, IHb, IHk.
  - specialize (IHb t). specialize (IHk t). destruct (owners (Some t) k). cbn [fst] in *. now rewrite forallb_app, IHb, IHk.
Qed.

(** ** Threads *)
Definition mine {A} (i : nat) (x : nat * A) : bool := fst x =? i.

Lemma mine_pair {A} i j (l : list A) : filter (mine i) (map (pair j) l) = if j =? i then map (pair j) l else [].
Proof. unfold mine. induction l as [|x l IH]; cbn [map filter fst]; [destruct (j =? i); reflexivity|]. destruct (j =? i); cbn [map snd]; [now rewrite IH|exact IH]. Qed.

Lemma threads_alone schedule : forall threads threads1 threads' log i, threads i = threads1 i -> threads_do schedule threads = Ok (threads', log) ->
  exists threads1', threads_do (filter (mine i) schedule) threads1 = Ok (threads1', filter (mine i) log) /\ threads1' i = threads' i.
Proof.
  induction schedule as [|[j s] schedule IH]; intros threads threads1 threads' log i A; cbn [threads_do]; [intros [= <- <-]; exists threads1; auto|].
  destruct (thread_do s (threads j)) as [[th l]|] eqn:D; cbn [bind]; [|discriminate].
  destruct (threads_do schedule _) as [[ths rest]|] eqn:R; cbn [bind]; [|discriminate]. intros [= <- <-].
  rewrite filter_app, mine_pair. cbn [filter]. unfold mine at 1. cbn [fst]. destruct (Nat.eqb_spec j i) as [->|NE].
  - cbn [threads_do]. rewrite <- A, D. cbn [bind].
    destruct (IH (fun k => if k =? i then th else threads k) (fun k => if k =? i then th else threads1 k) _ _ i ltac:(cbv beta; now rewrite Nat.eqb_refl) R) as (t1 & E & F). rewrite E. cbn [bind]. exists t1. auto.
  - apply (IH (fun k => if k =? j then th else threads k) threads1 _ _ i ltac:(cbv beta; now rewrite (proj2 (Nat.eqb_neq i j) (not_eq_sym NE)))) in R. exact R.
Qed.

Lemma threads_fail schedule : forall threads threads1 e, (forall i, threads i = threads1 i) -> threads_do schedule threads = Err e ->
  exists i, threads_do (filter (mine i) schedule) threads1 = Err e.
Proof.
  assert (X : forall i schedule threads threads1, threads i = threads1 i ->
    match threads_do (filter (mine i) schedule) threads, threads_do (filter (mine i) schedule) threads1 with
    | Ok _, Ok _ => True | Err a, Err b => a = b | _, _ => False end).
  { intros i. clear. induction schedule as [|[j s] schedule IH]; intros threads threads1 A; cbn [filter]; [exact I|]. change (mine i (j, s)) with (j =? i).
    destruct (Nat.eqb_spec j i) as [->|NE]; [|exact (IH threads threads1 A)]. cbn [threads_do]. rewrite <- A. destruct (thread_do s (threads i)) as [[th l]|]; cbn [bind]; [|reflexivity].
    specialize (IH (fun k => if k =? i then th else threads k) (fun k => if k =? i then th else threads1 k) ltac:(cbv beta; now rewrite Nat.eqb_refl)).
    destruct (threads_do _ (fun k => if k =? i then th else threads k)) as [[? ?]|], (threads_do _ (fun k => if k =? i then th else threads1 k)) as [[? ?]|]; cbn [bind]; tauto.
}
  induction schedule as [|[j s] schedule IH]; intros threads threads1 e A; cbn [threads_do]; [discriminate|].
  destruct (thread_do s (threads j)) as [[th l]|e'] eqn:D; cbn [bind].
  2:{ intros [= <-]. exists j. cbn [filter]. unfold mine at 1. cbn [fst]. rewrite Nat.eqb_refl. cbn [threads_do]. rewrite <- A, D. reflexivity. }
  destruct (threads_do schedule _) as [[ths rest]|e''] eqn:R; cbn [bind]; [discriminate|]. intros [= <-].
  destruct (IH (fun k => if k =? j then th else threads k) (fun k => if k =? j then th else threads1 k) _ ltac:(intros k; cbv beta; now rewrite A) R) as (i & E). exists i. cbn [filter]. unfold mine at 1. cbn [fst].
  destruct (Nat.eqb_spec j i) as [->|NE].
  - cbn [threads_do]. rewrite <- A, D. cbn [bind]. rewrite E. reflexivity.
  - specialize (X i schedule (fun k => if k =? j then th else threads1 k) threads1 ltac:(cbv beta; now rewrite (proj2 (Nat.eqb_neq i j) (not_eq_sym NE)))). rewrite E in X.
    destruct (threads_do (filter (mine i) schedule) threads1); [contradiction|]. now subst.
Qed.

Lemma threads_independent schedule threads :
  match threads_do schedule threads with
  | Ok (threads', log) => forall i, exists threads1,
      threads_do (filter (fun x => fst x =? i) schedule) threads = Ok (threads1, filter (fun x => fst x =? i) log) /\ threads1 i = threads' i
  | Err e => exists i, threads_do (filter (fun x => fst x =? i) schedule) threads = Err e
  end.
Proof.
  destruct (threads_do schedule threads) as [[threads' log]|e] eqn:E.
  - intros i. exact (threads_alone schedule threads threads threads' log i eq_refl E).
  - exact (threads_fail schedule threads threads e (fun _ => eq_refl) E).
Qed.

(** The checks of each thread are those of the test cases it has begun. *)
Fixpoint thread_of (open : list nat) : thread :=
  match open with [] => idle | t :: open' => mkthread (Some t) (th_current (thread_of open') :: th_saved (thread_of open')) end.

Lemma of_thread_app {A} i (a b : list (nat * A)) : of_thread i (a ++ b) = of_thread i a ++ of_thread i b.
Proof. unfold of_thread. now rewrite filter_app, map_app. Qed.
Lemma of_thread_pair {A} i j (l : list A) : of_thread i (map (pair j) l) = if j =? i then l else [].
Proof.
  unfold of_thread. change (fun x : nat * A => fst x =? i) with (@mine A i). rewrite mine_pair. destruct (j =? i); [|reflexivity].
  rewrite map_map. cbn [snd]. apply map_id.
Qed.
Lemma of_thread_cons {A} i j (x : A) l : of_thread i ((j, x) :: l) = if j =? i then x :: of_thread i l else of_thread i l.
Proof. unfold of_thread. cbn [filter fst]. now destruct (j =? i). Qed.

Lemma thread_step_of s open :
  match s, open with
  | Begin t, _ => thread_do s (thread_of open) = Ok (thread_of (t :: open), [])
  | CheckNow n, t :: _ => thread_do s (thread_of open) = Ok (thread_of open, [(n, t)])
  | End, _ :: o => thread_do s (thread_of open) = Ok (thread_of o, [])
  | CheckNow _, [] => thread_do s (thread_of open) = Err Terminate
  | End, [] => thread_do s (thread_of open) = Err UB
  end.
Proof. destruct s, open as [|u o]; try reflexivity. cbn. destruct (thread_of o); reflexivity. Qed.

Lemma threads_recorded schedule : forall threads open, (forall i, threads i = thread_of (open i)) ->
  match threads_do schedule threads with
  | Ok (_, log) => forall i, recorded (open i) (of_thread i schedule) = Some (of_thread i log)
  | Err _ => exists i, recorded (open i) (of_thread i schedule) = None
  end.
Proof.
  induction schedule as [|[j s] schedule IH]; intros threads open A; cbn [threads_do]; [reflexivity|].
  assert (NEXT : forall o l, thread_do s (threads j) = Ok (thread_of o, l) ->
    (forall rest, recorded (open j) (s :: rest) = option_map (app l) (recorded o rest)) ->
    match (do (th, l) <- thread_do s (threads j) ;;
           do (threads', rest) <- threads_do schedule (fun k => if k =? j then th else threads k) ;;
           Ok (threads', map (pair j) l ++ rest)) with
    | Ok (_, log) => forall i, recorded (open i) (of_thread i ((j, s) :: schedule)) = Some (of_thread i log)
    | Err _ => exists i, recorded (open i) (of_thread i ((j, s) :: schedule)) = None
    end).
  { intros o l D ST. rewrite D. cbn [bind].
    specialize (IH (fun k => if k =? j then thread_of o else threads k) (fun k => if k =? j then o else open k)
      ltac:(intros k; cbv beta; destruct (k =? j); auto)).
    destruct (threads_do schedule _) as [[ths rest]|e]; cbn [bind].
    - intros i. specialize (IH i). cbv beta in IH. rewrite of_thread_cons, of_thread_app, of_thread_pair, (Nat.eqb_sym j i).
      destruct (Nat.eqb_spec i j) as [EQ|NE]; [subst i; rewrite ST, IH; reflexivity|exact IH].
    - destruct IH as [i IH]. exists i. cbv beta in IH. rewrite of_thread_cons, (Nat.eqb_sym j i). destruct (Nat.eqb_spec i j) as [EQ|NE]; [subst i; rewrite ST, IH; reflexivity|exact IH]. }
  pose proof (thread_step_of s (open j)) as ST. rewrite <- A in ST.
  destruct s as [t|n|], (open j) as [|u o] eqn:O.
  - apply (NEXT _ _ ST). intros rest. cbn [recorded]. now destruct (recorded _ rest).
  - apply (NEXT _ _ ST). intros rest. cbn [recorded]. now destruct (recorded _ rest).
  - rewrite ST. cbn [bind]. exists j. rewrite of_thread_cons, Nat.eqb_refl, O. reflexivity.
  - rewrite (A j) in ST at 2. rewrite O in ST. apply (NEXT _ _ ST). intros rest. reflexivity.
  - rewrite ST. cbn [bind]. exists j. rewrite of_thread_cons, Nat.eqb_refl, O. reflexivity.
  - apply (NEXT _ _ ST). intros rest. cbn [recorded]. now destruct (recorded _ rest).
Qed.
Lemma threads_record schedule :
  match threads_do schedule (fun _ => idle) with
  | Ok (_, log) => forall i, recorded [] (of_thread i schedule) = Some (of_thread i log)
  | Err _ => exists i, recorded [] (of_thread i schedule) = None
  end.
Proof. exact (threads_recorded schedule (fun _ => idle) (fun _ => []) (fun _ => eq_refl)). Qed.
