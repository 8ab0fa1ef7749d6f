From Verif.Spec Require Import TextSpec FilterSpec PrintSpec CliSpec.
From Verif.Model Require Import Base Vector StringUtil Run Print Cli.
From Verif.Proofs Require Import Lists VectorProofs AppendProofs PrintProofs.

(** ** Texts *)
Lemma same_text_eq a b : same_text a b = true <-> a = b.
Proof. unfold same_text. destruct (list_eq_dec ascii_dec a b); split; congruence. Qed.
Lemma same_text_refl a : same_text a a = true.
Proof. now apply same_text_eq. Qed.
Lemma same_text_seqb a b : same_text a b = seqb b a.
Proof.
  destruct (same_text a b) eqn:E, (seqb b a) eqn:F; auto.
  - apply same_text_eq in E. subst. apply seqb_neq in F. congruence.
  - apply seqb_eq in F. subst. now rewrite same_text_refl in E.
Qed.
Lemma seqb_refl a : seqb a a = true.
Proof. now apply seqb_eq. Qed.
Lemma dashed_starts arg : starts_with arg dash = dashed arg.
Proof. unfold dash, dashed. destruct arg as [|c arg]; [reflexivity|]. cbn. rewrite same_text_seqb. cbn. reflexivity. Qed.

(** ** Messages *)
Lemma say_total mm silent st l : exists st', say mm silent st l = Ok st' /\ p_found st' = p_found st /\ p_args st' = p_args st /\ p_bad st' = p_bad st /\
  (silent = true -> st' = st) /\ (silent = false -> exists s, cli_print mm l = Ok s /\ p_out st' = p_out st ++ [s]).
Proof.
  unfold say. destruct silent.
  - exists st. repeat split; auto. discriminate.
  - destruct (cli_print_total mm l) as (s & E & _). rewrite E. cbn [bind]. eexists. split; [reflexivity|]. repeat split; auto; try discriminate.
    intros _. exists s. auto.
Qed.

(** ** The table *)
Definition active (e : expected) : bool := negb (e_ignored e || negb (is_option e)).
Definition long (e : expected) : str := last (e_names e) [].
Definition find_active (l : list expected) (arg : str) : option (text * option text) :=
  option_map (fun ie => (long (snd ie), e_value_name (snd ie))) (find_option 0 l arg).
Definition swallows (l : list expected) (arg : str) : bool := 0 <? ignored_values l arg.

Lemma find_option_spec l arg : forall i j e, find_option i l arg = Some (j, e) ->
  i <= j /\ nth_error l (j - i) = Some e /\ active e = true /\ named e arg = true.
Proof.
  induction l as [|x l IH]; intros i j e; cbn [find_option]; [discriminate|].
  assert (R : find_option (S i) l arg = Some (j, e) -> i <= j /\ nth_error (x :: l) (j - i) = Some e /\ active e = true /\ named e arg = true).
  { intros H. destruct (IH _ _ _ H) as (H1 & H2 & H3). split; [lia|]. split; [|exact H3]. replace (j - i) with (S (j - S i)) by lia. exact H2. }
  destruct (e_ignored x || negb (is_option x)) eqn:A; [exact R|].
  destruct (negb (named x arg)) eqn:B; [exact R|]. intros [= <- <-]. rewrite Nat.sub_diag. repeat split; auto.
  - unfold active. now rewrite A.
  - now apply negb_false_iff.
Qed.

Lemma find_option_shift l arg : forall i j, option_map snd (find_option i l arg) = option_map snd (find_option j l arg).
Proof. induction l as [|x l IH]; intros i j; cbn [find_option]; auto. destruct (e_ignored x || negb (is_option x)); auto. destruct (negb (named x arg)); auto. Qed.

Lemma back_names e : is_option e = true -> back (e_names e) = Ok (long e).
Proof.
  unfold is_option, back, long. intros H. destruct (rev (e_names e)) as [|x r] eqn:E.
  - apply (f_equal (@rev _)) in E. rewrite rev_involutive in E. rewrite E in H. discriminate.
  - apply (f_equal (@rev _)) in E. rewrite rev_involutive in E. rewrite E. cbn [rev]. now rewrite last_last.
Qed.

Lemma at_index_ok {A} (l : list A) i : i < length l -> exists x, at_index l i = Ok x /\ nth_error l i = Some x.
Proof. intros H. unfold at_index. destruct (nth_error l i) eqn:E; [eauto|]. apply nth_error_None in E. lia. Qed.
Lemma put_index_ok {A} (l : list A) i x : i < length l -> exists l', put_index l i x = Ok l' /\ length l' = length l /\
  nth_error l' i = Some x /\ forall j, j <> i -> nth_error l' j = nth_error l j.
Proof.
  intros H. unfold put_index. destruct (Nat.ltb_spec i (length l)); [|lia]. eexists. split; [reflexivity|].
  assert (L : length (firstn i l) = i) by (rewrite firstn_length; lia). split; [|split].
  - rewrite app_length. cbn [length]. rewrite skipn_length, L. lia.
  - rewrite nth_error_app2 by lia. rewrite L, Nat.sub_diag. reflexivity.
  - intros j N. destruct (Nat.lt_ge_cases j i).
    + rewrite nth_error_app1 by lia. apply nth_error_firstn. exact H1.
    + rewrite nth_error_app2 by lia. rewrite L. replace (j - i) with (S (j - S i)) by lia. cbn [nth_error].
      rewrite nth_error_skipn. f_equal. lia.
Qed.

(** ** What a command line consists of, for any table *)
Fixpoint gread (find : text -> option (text * option text)) (swallow : text -> bool) (argv : list text) : list item :=
  match argv with
  | [] => []
  | arg :: rest =>
    if dashed arg then
      match find arg with
      | Some (long, None) => Given long None :: gread find swallow rest
      | Some (long, Some called) =>
        match rest with
        | value :: rest' => Given long (Some (value, called)) :: gread find swallow rest'
        | [] => [NoValue arg]
        end
      | None =>
        if swallow arg
        then match rest with _ :: rest' => Unknown arg :: gread find swallow rest' | [] => [Unknown arg] end
        else Unknown arg :: gread find swallow rest
      end
    else Filtering arg :: gread find swallow rest
  end.

Lemma short_induction {A} (P : list A -> Prop) : (forall l, (forall l', length l' < length l -> P l') -> P l) -> forall l, P l.
Proof.
  intros H l. assert (G : forall n l, length l <= n -> P l).
  { induction n as [|n IH]; intros l0 L; apply H; intros l' L'; [lia|]. apply IH. lia. }
  exact (G (length l) l (le_n _)).
Qed.

Lemma gread_ext f g s t : (forall a, f a = g a) -> (forall a, s a = t a) -> forall argv, gread f s argv = gread g t argv.
Proof.
  intros F G. induction argv as [argv IH] using short_induction. destruct argv as [|a rest]; [reflexivity|]. cbn [gread].
  rewrite F, G. destruct (dashed a).
  - destruct (g a) as [[l [v|]]|].
    + destruct rest as [|x rest]; [reflexivity|]. f_equal. apply IH. cbn [length]. lia.
    + f_equal. apply IH. cbn [length]. lia.
    + destruct (t a).
      * destruct rest as [|x rest]; [reflexivity|]. f_equal. apply IH. cbn [length]. lia.
      * f_equal. apply IH. cbn [length]. lia.
  - f_equal. apply IH. cbn [length]. lia.
Qed.

(** No value missing, no option repeated. *)
Fixpoint accepted (seen : list text) (l : list item) : bool :=
  match l with
  | [] => true
  | Given long _ :: l' => negb (existsb (seqb long) seen) && accepted (long :: seen) l'
  | NoValue _ :: _ => false
  | _ :: l' => accepted seen l'
  end.

Lemma existsb_seqb x l : existsb (seqb x) l = true <-> In x l.
Proof.
  rewrite existsb_exists. split.
  - intros (y & H & E). apply seqb_eq in E. now subst.
  - intros H. exists x. split; auto. apply seqb_refl.
Qed.

Lemma NoDup_right {A} (a b : list A) : NoDup (a ++ b) -> NoDup b.
Proof. induction a as [|x a IH]; cbn; auto. intros H. inversion H; auto. Qed.

Lemma accepted_spec l : forall seen, NoDup seen ->
  (accepted seen l = true <-> (forall arg, ~ In (NoValue arg) l) /\ NoDup (rev (given l) ++ seen)).
Proof.
  induction l as [|x l IH]; intros seen N.
  - cbn. split; auto.
  - destruct x as [lo v|a|a|a]; cbn [accepted given flat_map app].
    + fold (given l). rewrite andb_true_iff, negb_true_iff. cbn [rev]. rewrite <- app_assoc. cbn [app]. split.
      * intros [H1 H2]. assert (N2 : NoDup (lo :: seen)).
        { constructor; auto. intros H. apply existsb_seqb in H. congruence. }
        apply (IH _ N2) in H2 as [H3 H4]. split; [|exact H4]. intros a [H|H]; [discriminate|]. exact (H3 a H).
      * intros [H1 H2]. assert (N2 : NoDup (lo :: seen)) by (apply NoDup_right in H2; exact H2).
        split.
        -- destruct (existsb (seqb lo) seen) eqn:E; auto. apply existsb_seqb in E. inversion N2; contradiction.
        -- apply (IH _ N2). split; auto. intros a H. apply (H1 a). now right.
    + split; [discriminate|]. intros [H _]. destruct (H a). now left.
    + fold (given l). rewrite (IH _ N). split; intros [H1 H2]; split; auto; intros b; [intros [H|H]; [discriminate|exact (H1 b H)]|].
      intros H. apply (H1 b). now right.
    + fold (given l). rewrite (IH _ N). split; intros [H1 H2]; split; auto; intros b; [intros [H|H]; [discriminate|exact (H1 b H)]|].
      intros H. apply (H1 b). now right.
Qed.

Lemma accepted_acceptable argv : accepted [] (read argv) = true <-> acceptable argv.
Proof.
  rewrite (accepted_spec _ [] (NoDup_nil _)). rewrite app_nil_r. unfold acceptable. split; intros [H1 H2]; split; auto.
  - apply NoDup_rev in H2. now rewrite rev_involutive in H2.
  - now apply NoDup_rev.
Qed.

Section Parsing.
Variable cc : cli_config.
Variable exp : list expected.
Variable settings : parser_settings.

Definition positional_of : option expected := List.find (fun e => negb (e_ignored e || is_option e)) exp.

(** What is asked of a table. *)
Hypothesis once : forall e, In e exp -> active e = true -> e_repeatable e = false.
Hypothesis distinct : forall i j e e', nth_error exp i = Some e -> nth_error exp j = Some e' -> active e = true -> active e' = true ->
  long e = long e' -> i = j.
Hypothesis disjoint : forall i e arg, find_option 0 exp arg = Some (i, e) -> ignored_values exp arg = 0.
Hypothesis positional_fine : forall e, positional_of = Some e -> e_repeatable e = true /\ exists v, e_value_name e = Some v.
Hypothesis optional : forall e, In e exp -> e_mandatory e = false.

Definition positional_name : option text := match positional_of with Some e => e_value_name e | None => None end.
Definition items (argv : list str) : list item := gread (find_active exp) (swallows exp) argv.

Definition inv (st : parser) : Prop :=
  length (p_found st) = length exp /\
  forall i e, nth_error exp i = Some e -> active e = true ->
    nth_error (p_found st) i = Some (existsb (seqb (long e)) (map a_name (p_args st))).

Lemma ignored_values_le l arg : ignored_values l arg <= 1.
Proof. induction l as [|e l IH]; cbn [ignored_values]; auto. destruct (negb (e_ignored e)); auto. destruct (negb (named e arg)); auto. destruct (has_value e); auto. Qed.

Lemma find_positional_spec found : length found = length exp ->
  match positional_of with
  | None => find_positional 0 exp found = Ok None
  | Some e => exists i, find_positional 0 exp found = Ok (Some (i, e)) /\ nth_error exp i = Some e /\ active e = false
  end.
Proof using positional_fine.
  intros L. revert positional_fine. unfold positional_of.
  assert (G : forall l k, (forall j, j < length l -> k + j < length found) ->
    (forall e, List.find (fun e => negb (e_ignored e || is_option e)) l = Some e -> e_repeatable e = true /\ exists v, e_value_name e = Some v) ->
    match List.find (fun e => negb (e_ignored e || is_option e)) l with
    | None => find_positional k l found = Ok None
    | Some e => exists i, find_positional k l found = Ok (Some (i, e)) /\ k <= i /\ nth_error l (i - k) = Some e /\ active e = false
    end).
  { induction l as [|x l IH]; intros k H F; cbn [List.find find_positional] in *; [reflexivity|].
    destruct (e_ignored x || is_option x) eqn:A; cbn [negb] in *.
    - assert (H' : forall j, j < length l -> S k + j < length found) by (intros j Hj; specialize (H (S j)); cbn [length] in H; lia).
      specialize (IH (S k) H' F). destruct (List.find _ l) as [e|]; [|exact IH].
      destruct IH as (i & E & Hi & N & Ac). exists i. split; [exact E|]. split; [lia|]. split; [|exact Ac].
      replace (i - k) with (S (i - S k)) by lia. exact N.
    - destruct (F x eq_refl) as [R _]. destruct (at_index_ok found k) as (b & E & _).
      { specialize (H 0). cbn [length] in H. lia. }
      rewrite E. cbn [bind]. rewrite R, andb_false_r. exists k. rewrite Nat.sub_diag. repeat split; auto.
      apply orb_false_iff in A as [_ A]. unfold active. rewrite A. cbn. rewrite orb_true_r. reflexivity. }
  intros F. specialize (G exp 0). cbn in G. specialize (G ltac:(intros; lia) F).
  destruct (List.find _ exp) as [e|]; [|exact G]. destruct G as (i & E & _ & N & A). rewrite Nat.sub_0_r in N. eauto.
Qed.

(** The parser never fails within the capacity, and never forgets an error. *)
Lemma parse_option_total st arg rest : length (p_found st) = length exp -> length (p_args st) < c_max_args cc ->
  exists st' n, parse_option cc exp settings st arg rest = Ok (st', n) /\ length (p_found st') = length exp /\
    length (p_args st') <= S (length (p_args st)) /\ (p_bad st = true -> p_bad st' = true).
Proof.
  intros L C. unfold parse_option. destruct (find_option 0 exp arg) as [[i e]|] eqn:F.
  - destruct (find_option_spec _ _ _ _ _ F) as (_ & N & A & _). rewrite Nat.sub_0_r in N.
    assert (I : i < length exp) by (apply nth_error_Some; congruence).
    assert (O : is_option e = true).
    { unfold active in A. apply negb_true_iff, orb_false_iff in A as [_ A]. now apply negb_false_iff in A. }
    destruct (at_index_ok (p_found st) i) as (f & Ef & _); [lia|]. rewrite Ef. cbn [bind].
    destruct (f && negb (e_repeatable e)).
    + match goal with |- context [say ?a ?b ?c ?d] => destruct (say_total a b c d) as (st' & E & X1 & X2 & X3 & _); rewrite E end.
      cbn [bind]. exists (set_bad st'), 0. repeat split; cbn; auto; try congruence; try lia. rewrite X2. lia.
    + destruct (put_index_ok (p_found st) i true) as (found & Ep & Lp & _); [lia|]. rewrite Ep. cbn [bind].
      rewrite (back_names e O). cbn [bind].
      assert (P : forall a, push_back (c_max_args cc) (p_args st) a = Ok (p_args st ++ [a])).
      { intros a. unfold push_back. destruct (Nat.eqb_spec (length (p_args st)) (c_max_args cc)); [lia|reflexivity]. }
      destruct (e_value_name e) as [v|].
      * destruct rest as [|x rest].
        -- match goal with |- context [say ?a ?b ?c ?d] => destruct (say_total a b c d) as (st' & E & X1 & X2 & X3 & _); rewrite E end.
           cbn [bind]. exists (set_bad st'), 0. cbn in *. repeat split; auto; try congruence. rewrite X2. lia.
        -- cbn [p_args]. rewrite P. cbn [bind]. eexists; eexists. split; [reflexivity|]. cbn. rewrite app_length. cbn. repeat split; auto; lia.
      * cbn [p_args]. rewrite P. cbn [bind]. eexists; eexists. split; [reflexivity|]. cbn. rewrite app_length. cbn. repeat split; auto; lia.
  - match goal with |- context [say ?a ?b ?c ?d] => destruct (say_total a b c d) as (st' & E & X1 & X2 & X3 & _); rewrite E end.
    cbn [bind]. exists st', 0. repeat split; auto; try congruence. rewrite X2. lia.
Qed.

Lemma parse_positional_total st arg : length (p_found st) = length exp -> length (p_args st) < c_max_args cc ->
  exists st', parse_positional cc exp settings st arg = Ok st' /\ length (p_found st') = length exp /\
    length (p_args st') <= S (length (p_args st)) /\ (p_bad st = true -> p_bad st' = true).
Proof using positional_fine.
  intros L C. unfold parse_positional. pose proof (find_positional_spec (p_found st) L) as F.
  destruct positional_of as [e|].
  - destruct F as (i & F & N & A). rewrite F. cbn [bind].
    assert (I : i < length exp) by (apply nth_error_Some; congruence).
    unfold push_back. destruct (Nat.eqb_spec (length (p_args st)) (c_max_args cc)); [lia|]. cbn [bind].
    destruct (put_index_ok (p_found st) i true) as (found & Ep & Lp & _); [lia|]. rewrite Ep. cbn [bind].
    eexists. split; [reflexivity|]. cbn. rewrite app_length. cbn. repeat split; auto; lia.
  - rewrite F. cbn [bind]. match goal with |- context [say ?a ?b ?c ?d] => destruct (say_total a b c d) as (st' & E & X1 & X2 & X3 & _); rewrite E end.
    cbn [bind]. eexists. split; [reflexivity|]. cbn. repeat split; auto; try congruence. rewrite X2. lia.
Qed.

Lemma parse_loop_total argv : forall skip st, length (p_found st) = length exp -> length (p_args st) + length argv <= c_max_args cc ->
  exists st', parse_loop cc exp settings skip argv st = Ok st' /\ length (p_found st') = length exp /\ (p_bad st = true -> p_bad st' = true).
Proof using positional_fine.
  induction argv as [|arg rest IH]; intros skip st L C; cbn [parse_loop length] in *; [eauto|].
  destruct skip as [|skip]; [|apply IH; lia].
  destruct (starts_with arg dash).
  - destruct (parse_option_total st arg rest L) as (st1 & n & E & L1 & C1 & B1); [lia|]. rewrite E. cbn [bind].
    destruct (IH (n + ignored_values exp arg) st1 L1) as (st2 & E2 & L2 & B2); [lia|]. rewrite E2. exists st2. auto.
  - destruct (parse_positional_total st arg L) as (st1 & E & L1 & C1 & B1); [lia|]. rewrite E. cbn [bind].
    destruct (IH 0 st1 L1) as (st2 & E2 & L2 & B2); [lia|]. rewrite E2. exists st2. auto.
Qed.

(** The warning about an unknown argument. *)
Definition warning (arg s : text) : Prop :=
  cli_print (c_max_message cc) [warning_prefix (with_color settings); Text (quote " unknown command line argument '"); Text arg;
                                Text (quote "'" ++ [ascii_of_nat 10])] = Ok s.

Definition names_of (l : list argument) : list text := map a_name l.
Definition too_many (l : list item) : bool :=
  match positional_name with Some _ => false | None => existsb (fun i => match i with Filtering _ => true | _ => false end) l end.

Lemma positional_name_spec : positional_name = None <-> positional_of = None.
Proof using positional_fine.
  unfold positional_name. destruct positional_of as [e|]; [|tauto]. destruct (positional_fine e eq_refl) as (_ & v & ->). split; discriminate.
Qed.

Lemma long_nonempty e : active e = true -> Forall (fun n => n <> []) (e_names e) -> long e <> [].
Proof.
  intros A F. unfold active, is_option in A. unfold long. destruct (e_names e) as [|n l]; [now rewrite orb_true_r in A|].
  rewrite Forall_forall in F. apply F. clear. revert n. induction l as [|m l IH]; intros n; cbn [last]; [now left|]. right. apply IH.
Qed.
Hypothesis named_well : forall e, In e exp -> Forall (fun n => n <> []) (e_names e).

Definition seen (st : parser) : list text := filter (fun n => negb (seqb n [])) (names_of (p_args st)).

Lemma parse_loop_spec argv : forall st, inv st -> length (p_args st) + length argv <= c_max_args cc ->
  exists st', parse_loop cc exp settings 0 argv st = Ok st' /\
    (silent settings = true -> p_out st' = p_out st) /\
    (accepted (names_of (p_args st)) (items argv) = true ->
       p_args st' = p_args st ++ recorded positional_name (items argv) /\
       p_bad st' = p_bad st || too_many (items argv) /\
       (positional_of <> None -> silent settings = false ->
          exists ws, p_out st' = p_out st ++ ws /\ Forall2 warning (unknown (items argv)) ws)) /\
    (accepted (names_of (p_args st)) (items argv) = false -> p_bad st' = true) /\
    length (p_found st') = length exp.
Proof using once distinct disjoint positional_fine named_well.
  induction argv as [argv IH] using short_induction. intros st Hinv C.
  assert (SIL : forall skip argv st st', silent settings = true -> parse_loop cc exp settings skip argv st = Ok st' -> p_out st' = p_out st).
  { clear - positional_fine. intros skip argv. revert skip. induction argv as [|a l IH]; intros skip st st' HS E; cbn [parse_loop] in E; [congruence|].
    destruct skip; [|eauto]. destruct (starts_with a dash).
    - destruct (parse_option cc exp settings st a l) as [[st1 n]|] eqn:E1; cbn [bind] in E; [|discriminate].
      rewrite (IH _ _ _ HS E). clear E. unfold parse_option in E1. rewrite HS in E1. unfold say in E1. cbn [bind] in E1.
      destruct (find_option 0 exp a) as [[i e]|]; [|congruence].
      destruct (at_index (p_found st) i) as [f|]; cbn [bind] in E1; [|discriminate].
      destruct (f && negb (e_repeatable e)); [injection E1 as <- <-; reflexivity|].
      destruct (put_index (p_found st) i true) as [f'|]; cbn [bind] in E1; [|discriminate].
      destruct (back (e_names e)); cbn [bind] in E1; [|discriminate].
      destruct (e_value_name e).
      + destruct l; [injection E1 as <- <-; reflexivity|]. destruct (push_back _ _ _); cbn [bind] in E1; [|discriminate]. injection E1 as <- <-; reflexivity.
      + destruct (push_back _ _ _); cbn [bind] in E1; [|discriminate]. injection E1 as <- <-; reflexivity.
    - destruct (parse_positional cc exp settings st a) as [st1|] eqn:E1; cbn [bind] in E; [|discriminate].
      rewrite (IH _ _ _ HS E). clear E. unfold parse_positional in E1. rewrite HS in E1. unfold say in E1. cbn [bind] in E1.
      destruct (find_positional 0 exp (p_found st)) as [[[i e]|]|]; cbn [bind] in E1; try discriminate; [|injection E1 as <-; reflexivity].
      destruct (push_back _ _ _); cbn [bind] in E1; [|discriminate]. destruct (put_index _ _ _); cbn [bind] in E1; [|discriminate]. injection E1 as <-; reflexivity. }
  destruct argv as [|arg rest].
  { exists st. cbn. rewrite app_nil_r. unfold too_many. cbn. destruct Hinv as [L _].
    split; [reflexivity|]. split; [auto|]. split; [|split; [discriminate|exact L]]. intros _. split; [reflexivity|]. split.
    - destruct positional_name; now rewrite orb_false_r.
    - intros _ _. exists []. rewrite app_nil_r. auto. }
  destruct Hinv as [L HF]. cbn [length] in C. unfold items. cbn [gread]. fold (items rest).
  rewrite <- dashed_starts. cbn [parse_loop]. destruct (starts_with arg dash) eqn:D.
  - (* an option *)
    destruct (find_option 0 exp arg) as [[i e]|] eqn:F.
    + assert (FA : find_active exp arg = Some (long e, e_value_name e)) by (unfold find_active; now rewrite F). rewrite FA.
      pose proof (disjoint _ _ _ F) as IG. rewrite IG.
      destruct (find_option_spec _ _ _ _ _ F) as (_ & N & A & _). rewrite Nat.sub_0_r in N.
      assert (I0 : i < length exp) by (apply nth_error_Some; congruence).
      assert (O : is_option e = true).
      { unfold active in A. apply negb_true_iff, orb_false_iff in A as [_ A]. now apply negb_false_iff in A. }
      assert (R : e_repeatable e = false) by (apply once; [eapply nth_error_In; eauto|exact A]).
      unfold parse_option. rewrite F. pose proof (HF i e N A) as FI.
      unfold at_index. rewrite FI. cbn [bind]. rewrite R. cbn [negb]. rewrite andb_true_r.
      fold (names_of (p_args st)).
      destruct (existsb (seqb (long e)) (names_of (p_args st))) eqn:DUP.
      * (* duplicate *)
        match goal with |- context [say ?a ?b ?c ?d] => destruct (say_total a b c d) as (st1 & E & X1 & X2 & X3 & X4 & _); rewrite E end.
        cbn [bind]. destruct (parse_loop_total rest 0 (set_bad st1)) as (st2 & E2 & L2 & B2); [cbn; congruence|cbn; rewrite X2; lia|].
        cbn [Nat.add]. rewrite E2. exists st2. split; [reflexivity|]. split.
        { intros HS. rewrite (SIL _ _ _ _ HS E2). cbn. now rewrite (X4 HS). }
        match goal with |- context [accepted ?n ?l = false] => assert (BAD : accepted n l = false) end.
        { destruct (e_value_name e); [destruct rest|]; cbn [accepted]; rewrite ?DUP; reflexivity. }
        rewrite BAD. split; [discriminate|]. split; auto.
      * destruct (put_index_ok (p_found st) i true) as (found & Ep & Lp & Pi & Pj); [lia|]. rewrite Ep. cbn [bind].
        rewrite (back_names e O). cbn [bind].
        assert (P : forall a, push_back (c_max_args cc) (p_args st) a = Ok (p_args st ++ [a])).
        { intros a. unfold push_back. destruct (Nat.eqb_spec (length (p_args st)) (c_max_args cc)); [lia|reflexivity]. }
        assert (INV : forall a b o, a_name a = long e -> inv (mkparser found (p_args st ++ [a]) b o)).
        { intros a b o Ea. split; cbn [p_found p_args]; [congruence|]. intros j e' N' A'. rewrite map_app, existsb_app. cbn [map existsb]. rewrite Ea, orb_false_r.
          destruct (Nat.eq_dec j i) as [->|NE].
          - rewrite N in N'. injection N' as <-. rewrite Pi, seqb_refl, orb_true_r. reflexivity.
          - rewrite (Pj j NE), (HF j e' N' A').
            replace (seqb (long e') (long e)) with false; [now rewrite orb_false_r|]. symmetry. apply seqb_neq. intros Q. apply NE.
            eapply distinct; eauto. }
        assert (GO : forall a rest', a_name a = long e -> length rest' <= length rest -> exists st',
          parse_loop cc exp settings 0 rest' (mkparser found (p_args st ++ [a]) (p_bad st) (p_out st)) = Ok st' /\
          (silent settings = true -> p_out st' = p_out st) /\
          (accepted (long e :: names_of (p_args st)) (items rest') = true ->
            p_args st' = p_args st ++ a :: recorded positional_name (items rest') /\ p_bad st' = p_bad st || too_many (items rest') /\
            (positional_of <> None -> silent settings = false -> exists ws, p_out st' = p_out st ++ ws /\ Forall2 warning (unknown (items rest')) ws)) /\
          (accepted (long e :: names_of (p_args st)) (items rest') = false -> p_bad st' = true) /\ length (p_found st') = length exp).
        { intros a rest' Ea Lr. edestruct (IH rest') as (st' & E & HS & HA & HB & HL); [cbn [length]; lia|apply (INV a (p_bad st) (p_out st) Ea)|cbn [p_args]; rewrite app_length; cbn [length]; lia|].
          exists st'. split; [exact E|]. split; [exact HS|].
          assert (PERM : accepted (names_of (p_args (mkparser found (p_args st ++ [a]) (p_bad st) (p_out st)))) (items rest') = accepted (long e :: names_of (p_args st)) (items rest')).
          { cbn [p_args]. unfold names_of. rewrite map_app. cbn [map]. rewrite Ea. generalize (items rest'), (map a_name (p_args st)), (long e). clear.
            assert (G : forall l s s', (forall x, existsb (seqb x) s = existsb (seqb x) s') -> accepted s l = accepted s' l).
            { induction l as [|x l IH]; intros s s' H; auto. destruct x; cbn [accepted]; auto. rewrite H. f_equal. apply IH. intros y. cbn. now rewrite H. }
            intros l s x. apply G. intros y. rewrite existsb_app. cbn. rewrite orb_false_r. apply orb_comm. }
          rewrite PERM in HA, HB. cbn [p_args p_bad p_out] in *. split; [|split; auto].
          intros HX. destruct (HA HX) as (H1 & H2 & H3). rewrite <- app_assoc in H1. auto. }
        destruct (e_value_name e) as [v|] eqn:EV.
        -- destruct rest as [|x rest'].
           ++ match goal with |- context [say ?a ?b ?c ?d] => destruct (say_total a b c d) as (st1 & E & X1 & X2 & X3 & X4 & _); rewrite E end.
              cbn [bind parse_loop]. exists (set_bad st1). cbn in *. repeat split; auto; try discriminate; try congruence.
              intros HS. now rewrite (X4 HS).
           ++ cbn [p_args p_found p_bad p_out]. rewrite P. cbn [bind Nat.add parse_loop].
              destruct (GO (mkargument (long e) (Some v) (Some x)) rest' eq_refl) as (st' & E & HS & HA & HB & HL); [cbn [length]; lia|].
              rewrite E. exists st'. split; [reflexivity|]. split; [exact HS|]. cbn [accepted]. fold (items rest').
              unfold text, str in *. rewrite DUP. cbn [negb andb].
              unfold too_many, recorded, unknown in *. cbn [flat_map record_item existsb app orb] in *. auto.
        -- cbn [p_args p_found p_bad p_out]. rewrite P. cbn [bind Nat.add].
           destruct (GO (mkargument (long e) None None) rest eq_refl (le_n _)) as (st' & E & HS & HA & HB & HL).
           rewrite E. exists st'. split; [reflexivity|]. split; [exact HS|]. cbn [accepted]. fold (items rest).
           unfold text, str in *. rewrite DUP. cbn [negb andb].
           unfold too_many, recorded, unknown in *. cbn [flat_map record_item existsb app orb] in *. auto.
    + (* unknown *)
      assert (FA : find_active exp arg = None) by (unfold find_active; now rewrite F). rewrite FA.
      change (swallows exp arg) with (0 <? ignored_values exp arg). unfold parse_option. rewrite F.
      match goal with |- context [say ?a ?b ?c ?d] => destruct (say_total a b c d) as (st1 & E & X1 & X2 & X3 & X4 & X5); rewrite E end.
      cbn [bind Nat.add].
      assert (INV : inv st1) by (split; [congruence|]; rewrite X1, X2; exact HF).
      assert (GO : forall rest', length rest' <= length rest -> exists st', parse_loop cc exp settings 0 rest' st1 = Ok st' /\
          (silent settings = true -> p_out st' = p_out st) /\
          (accepted (names_of (p_args st)) (items rest') = true ->
            p_args st' = p_args st ++ recorded positional_name (items rest') /\ p_bad st' = p_bad st || too_many (items rest') /\
            (positional_of <> None -> silent settings = false -> exists ws, p_out st' = p_out st ++ ws /\ Forall2 warning (arg :: unknown (items rest')) ws)) /\
          (accepted (names_of (p_args st)) (items rest') = false -> p_bad st' = true) /\ length (p_found st') = length exp).
      { intros rest' Lr. edestruct (IH rest') as (st' & E' & HS & HA & HB & HL); [cbn [length]; lia|exact INV|rewrite X2; lia|].
        exists st'. split; [exact E'|]. split; [intros H; rewrite (HS H); now rewrite (X4 H)|]. rewrite X2, X3 in *.
        split; [|split; auto]. intros HX. destruct (HA HX) as (H1 & H2 & H3). split; [exact H1|]. split; [exact H2|].
        intros H4 H5. destruct (H3 H4 H5) as (ws & W1 & W2). destruct (X5 H5) as (s & Y1 & Y2). exists (s :: ws).
        split; [rewrite W1, Y2, <- app_assoc; reflexivity|]. constructor; auto. }
      destruct (Nat.ltb_spec 0 (ignored_values exp arg)) as [SW|SW].
      * assert (IG : ignored_values exp arg = 1) by (pose proof (ignored_values_le exp arg); lia). rewrite IG.
        destruct rest as [|x rest']; cbn [parse_loop].
        -- destruct (GO [] (le_n _)) as (st' & E' & HS & HA & HB & HL). cbn [parse_loop] in E'. injection E' as <-. exists st1. cbn in HA, HB. cbn. auto.
        -- destruct (GO rest') as (st' & E' & HS & HA & HB & HL); [cbn [length]; lia|]. rewrite E'. exists st'. fold (items rest').
           split; [reflexivity|]. cbn [accepted]. unfold too_many, recorded, unknown in *. cbn [flat_map record_item existsb app orb] in *. auto.
      * assert (IG : ignored_values exp arg = 0) by lia. rewrite IG.
        destruct (GO rest (le_n _)) as (st' & E' & HS & HA & HB & HL). rewrite E'. exists st'. fold (items rest).
        split; [reflexivity|]. cbn [accepted]. unfold too_many, recorded, unknown in *. cbn [flat_map record_item existsb app orb] in *. auto.
  - (* positional *)
    fold (items rest). unfold parse_positional. pose proof (find_positional_spec (p_found st) L) as F.
    assert (CASES : (exists e, positional_of = Some e) \/ positional_of = None) by (destruct positional_of; eauto).
    destruct CASES as [[e PO]|PO]; rewrite PO in F.
    + destruct F as (i & F & N & A). rewrite F. cbn [bind].
      assert (I0 : i < length exp) by (apply nth_error_Some; congruence).
      unfold push_back. destruct (Nat.eqb_spec (length (p_args st)) (c_max_args cc)); [lia|]. cbn [bind].
      destruct (put_index_ok (p_found st) i true) as (found & Ep & Lp & Pi & Pj); [lia|]. rewrite Ep. cbn [bind].
      destruct (positional_fine e PO) as (_ & v & EV). rewrite EV.
      assert (PN : positional_name = Some v) by (unfold positional_name; now rewrite PO).
      set (a := mkargument [] (Some v) (Some arg)).
      assert (INV : inv (mkparser found (p_args st ++ [a]) (p_bad st) (p_out st))).
      { split; cbn [p_found p_args]; [congruence|]. intros j e' N' A'. rewrite map_app, existsb_app. cbn [map existsb a a_name]. rewrite orb_false_r.
        destruct (Nat.eq_dec j i) as [->|NE]; [congruence|]. rewrite (Pj j NE), (HF j e' N' A').
        replace (seqb (long e') []) with false; [now rewrite orb_false_r|]. symmetry. apply seqb_neq.
        apply long_nonempty; auto. apply named_well. eapply nth_error_In; eauto. }
      destruct (IH rest ltac:(cbn [length]; lia) _ INV) as (st' & E' & HS & HA & HB & HL); [cbn [p_args]; rewrite app_length; cbn [length]; lia|].
      rewrite E'. exists st'. split; [reflexivity|]. split; [exact HS|]. cbn [p_args p_bad p_out accepted] in *.
      assert (PERM : accepted (names_of (p_args st ++ [a])) (items rest) = accepted (names_of (p_args st)) (items rest)).
      { unfold names_of. rewrite map_app. cbn [map a a_name].
        assert (NZ : forall lo, In lo (given (items rest)) -> lo <> []).
        { clear - named_well. unfold items. induction rest as [rest IH] using short_induction. destruct rest as [|y l]; [intros lo []|]. cbn [gread].
          assert (FA : forall a lo v, find_active exp a = Some (lo, v) -> lo <> []).
          { intros a lo v. unfold find_active. destruct (find_option 0 exp a) as [[i e]|] eqn:F; [|discriminate]. cbn. intros [= <- _].
            destruct (find_option_spec _ _ _ _ _ F) as (_ & N & A & _). apply long_nonempty; auto. apply named_well. eapply nth_error_In; eauto. }
          intros lo H. destruct (dashed y).
          - destruct (find_active exp y) as [[lo' [v|]]|] eqn:F.
            + destruct l as [|x l]; [destruct H|]. cbn in H. destruct H as [<-|H]; [eauto|]. apply (IH l) in H; auto; cbn [length]; lia.
            + cbn in H. destruct H as [<-|H]; [eauto|]. apply (IH l) in H; auto; cbn [length]; lia.
            + destruct (swallows exp y).
              * destruct l as [|x l]; [destruct H|]. cbn in H. apply (IH l) in H; auto; cbn [length]; lia.
              * cbn in H. apply (IH l) in H; auto; cbn [length]; lia.
          - cbn in H. apply (IH l) in H; auto; cbn [length]; lia. }
        revert NZ. generalize (items rest), (map a_name (p_args st)). clear.
        assert (G : forall l s s', (forall lo, In lo (given l) -> lo <> []) -> (forall x, x <> [] -> existsb (seqb x) s = existsb (seqb x) s') -> accepted s l = accepted s' l).
        { induction l as [|x l IH]; intros s s' NZ H; auto. destruct x as [lo v|b|b|b]; cbn [accepted] in *; auto. rewrite H by (apply NZ; now left). f_equal. apply IH.
          - intros q Hq. apply NZ. now right.
          - intros y Hy. cbn. rewrite H; auto. }
        intros l s NZ. apply G; auto. intros x Hx. rewrite existsb_app. cbn. replace (seqb x []) with false; [now rewrite !orb_false_r|].
        symmetry. now apply seqb_neq. }
      rewrite PERM in HA, HB. split; [|auto]. intros HX. destruct (HA HX) as (H1 & H2 & H3). split.
      { rewrite H1, PN, <- app_assoc. reflexivity. }
      split; [|exact H3]. rewrite H2. unfold too_many. rewrite PN. reflexivity.
    + rewrite F. cbn [bind].
      match goal with |- context [say ?a ?b ?c ?d] => destruct (say_total a b c d) as (st1 & E & X1 & X2 & X3 & X4 & X5); rewrite E end.
      cbn [bind]. assert (INV : inv (set_bad st1)) by (split; cbn; [congruence|]; rewrite X1, X2; exact HF).
      destruct (IH rest ltac:(cbn [length]; lia) _ INV) as (st' & E' & HS & HA & HB & HL); [cbn; rewrite X2; lia|].
      rewrite E'. exists st'. split; [reflexivity|]. cbn [set_bad p_args p_bad p_out accepted] in *.
      split; [intros H; rewrite (HS H); now rewrite (X4 H)|]. rewrite X2 in *. split; [|auto].
      intros HX. destruct (HA HX) as (H1 & H2 & _).
      assert (PN : positional_name = None) by (now apply positional_name_spec).
      split; [rewrite H1, PN; reflexivity|]. split; [|congruence]. rewrite H2. unfold too_many. rewrite PN. cbn. now rewrite orb_true_r.
Qed.

Lemma check_mandatory_skip l : forall i st, (forall e, In e l -> e_mandatory e = false) -> i + length l <= length (p_found st) ->
  check_mandatory cc settings i l st = Ok st.
Proof.
  induction l as [|e l IH]; intros i st H L; cbn [check_mandatory length] in *; auto.
  destruct (at_index_ok (p_found st) i) as (b & E & _); [lia|]. rewrite E. cbn [bind]. rewrite (H e) by now left. rewrite andb_false_r. cbn [andb bind].
  apply IH; [intros; apply H; now right|lia].
Qed.

Lemma parse_with_spec path argv : check_expected exp = Ok tt -> length argv <= c_max_args cc ->
  exists out result, parse_with cc exp settings path argv = Ok (out, result) /\
    (silent settings = true -> out = []) /\
    (accepted [] (items argv) = true ->
       (positional_of <> None -> silent settings = false -> Forall2 warning (unknown (items argv)) out) /\
       (tolerant settings = true \/ too_many (items argv) = false ->
          result = Some (mkinput (extract_executable path) (recorded positional_name (items argv))))) /\
    (accepted [] (items argv) = false -> tolerant settings = false -> result = None) /\
    (tolerant settings = true -> result <> None).
Proof using once distinct disjoint positional_fine optional named_well.
  intros T C. unfold parse_with. rewrite T. cbn [bind].
  destruct (parse_loop_spec argv (mkparser (map (fun _ => false) exp) [] false [])) as (st & E & HS & HA & HB & HL); [|cbn [p_args length]; lia|].
  { split; cbn; [now rewrite map_length|]. intros i e N _. rewrite nth_error_map, N. reflexivity. }
  rewrite E. cbn [bind]. rewrite check_mandatory_skip; [|apply optional|lia]. cbn [bind p_args p_bad p_out names_of map app orb] in *.
  eexists; eexists. split; [reflexivity|]. split; [exact HS|]. split; [|split].
  - intros H. destruct (HA H) as (H1 & H2 & H3). split.
    + intros H4 H5. destruct (H3 H4 H5) as (ws & -> & H6). exact H6.
    + rewrite H1, H2. intros [-> | ->]; [rewrite andb_false_r|]; reflexivity.
  - intros H HT. rewrite (HB H), HT. reflexivity.
  - intros ->. rewrite andb_false_r. discriminate.
Qed.
End Parsing.
