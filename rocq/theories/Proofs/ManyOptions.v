(** Several options of a reporter (C34). *)
From Verif.Spec Require Import TextSpec FilterSpec PrintSpec Events VerdictSpec SessionSpec CliSpec.
From Verif.Model Require Import Base Vector StringUtil Print Filter Run Cli File Session.
From Verif.Proofs Require Import Lists VectorProofs AppendProofs ReplaceProofs FilterProofs RunProofs PrintProofs CliProofs CliFacts SessionProofs SessionFacts ConfigProofs ReporterProofs.

Lemma find_last_colons a b : ~ occurs (lit "::") (a ++ lit ":") -> find_from (lit "::" ++ a ++ lit "::" ++ b) (lit "::") 2 = Some (length a + 2).
Proof.
  intros H. unfold find_from. replace (2 <=? _) with true by (symmetry; apply Nat.leb_le; rewrite app_length; cbn; lia).
  change (skipn 2 (lit "::" ++ a ++ lit "::" ++ b)) with (a ++ lit "::" ++ b). rewrite find_colons by exact H. f_equal. lia.
Qed.
Lemma find_no_colons a : ~ occurs (lit "::") a -> find_from (lit "::" ++ a) (lit "::") 2 = None.
Proof.
  intros H. unfold find_from. replace (2 <=? _) with true by (symmetry; apply Nat.leb_le; rewrite app_length; cbn; lia).
  change (skipn 2 (lit "::" ++ a)) with a. now rewrite find_absent.
Qed.
Lemma cut_rejoined arg l : cut_at_colons arg l -> arg = rejoined l /\ l <> [].
Proof.
  induction 1 as [o|o rest l _ _ (IH & NE)]; [split; [reflexivity|discriminate]|]. split; [|discriminate].
  destruct l as [|o' l]; [contradiction|]. cbn [rejoined]. rewrite IH. reflexivity.
Qed.

Lemma bad_find option : ~ In "="%char option \/ hd_error option = Some "="%char -> Base.find option (lit "=") = None \/ Base.find option (lit "=") = Some 0.
Proof.
  intros [H|H].
  - left. apply find_absent. intros (a & b & ->). apply H. rewrite !in_app_iff. right. left. now left.
  - right. destruct option as [|c o]; [discriminate|]. cbn in H. injection H as ->. reflexivity.
Qed.

Section Options.
Variable lm : limits.
Variables (i : nat) (p : reporter).

Definition good (s : modes * r_memory p) (k v : text) (s' : modes * r_memory p) (o : list Session.output) : Prop :=
  exists said known warnings, r_configure p (fst s) (snd s) k v = Ok (snd s', fst s', said, known) /\
    o = Configured i k v :: map Printed (said ++ warnings) /\
    if known : bool then warnings = []
    else exists t, cli_print (l_max_message_length lm) [make_colored (lit "warning:") (m_color (fst s')) color_warning; Text (lit " unknown reporter option '"); Text k;
                        Text (lit "'" ++ [ascii_of_nat 10])] = Ok t /\ warnings = [t].
Definition bad (s : modes * r_memory p) (option : text) (o : list Session.output) : Prop :=
  exists t, cli_print (l_max_message_length lm) [make_colored (lit "warning:") (m_color (fst s)) color_warning; Text (lit " badly formatted reporter option '"); Text option;
                        Text (lit "'; expected 'key=value'" ++ [ascii_of_nat 10])] = Ok t /\ o = [Printed t].

Definition step (s : modes * r_memory p) (option : str) (again : modes -> r_memory p -> res (modes * r_memory p * list Session.output)) :
  res (modes * r_memory p * list Session.output) :=
  let '(m, memory) := s in
    match Base.find option (lit "=") with
    | None | Some 0 =>
      do s <- cli_print (mm lm) [warning_prefix (m_color m); Text (lit " badly formatted reporter option '"); Text option;
                            Text (lit "'; expected 'key=value'" ++ newline)] ;;
      do (m', memory', rest) <- again m memory ;;
      Ok (m', memory', Printed s :: rest)
    | Some equal_pos =>
      let option_name := firstn equal_pos option in
      let option_value := skipn (equal_pos + 1) option in
      do (memory1, m1, said, known) <- r_configure p m memory option_name option_value ;;
      do warning <-
        (if known : bool then Ok []
         else do s <- cli_print (mm lm) [warning_prefix (m_color m1); Text (lit " unknown reporter option '"); Text option_name;
                                    Text (lit "'" ++ newline)] ;; Ok [s]) ;;
      do (m', memory', rest) <- again m1 memory1 ;;
      Ok (m', memory', Configured i option_name option_value :: map Printed (said ++ warning) ++ rest)
    end.

Lemma one_step s option tail s'' out again : handled good bad s (option :: tail) s'' out ->
  (forall s' o', handled good bad s' tail s'' o' -> again (fst s') (snd s') = Ok (fst s'', snd s'', o')) ->
  step s option again = Ok (fst s'', snd s'', out).
Proof.
  intros H A. destruct s as [m memory]. unfold step. inversion H as [|? k v s' o ? ? o' NE NI G H' |? ? o ? ? o' B G H']; subst.
  - destruct G as (said & known & w & C & -> & W). destruct (find_equal k v NE NI) as (n & F & X & Y). change (lit "=" ++ v) with ("="%char :: v) in F, X, Y.
    unfold text, str in *. rewrite F, X, Y. cbn [fst snd] in C. rewrite C. cbn [bind]. destruct s' as [m1 memory1]. cbn [fst snd] in *.
    specialize (A _ _ H'). cbn [fst snd] in A. destruct known.
    + subst w. cbn [bind]. rewrite A. reflexivity.
    + destruct W as (t & E & ->). match goal with |- context [cli_print ?a ?b] => assert (X0 : cli_print a b = Ok t) by exact E; rewrite X0 end.
      cbn [bind]. rewrite A. reflexivity.
  - destruct G as (t & E & ->). cbn [fst snd] in E. specialize (A _ _ H'). cbn [fst snd] in A.
    change (cli_print (mm lm) [warning_prefix (m_color m); Text (lit " badly formatted reporter option '"); Text option; Text (lit "'; expected 'key=value'" ++ newline)] = Ok t) in E.
    destruct (bad_find option B) as [F|F]; rewrite F, E; cbn [bind]; rewrite A; reflexivity.
Qed.

Lemma many_loop arg l : cut_at_colons arg l -> forall n s s' out, length l <= n -> handled good bad s (options_read l) s' out ->
  option_loop lm n i p (fst s) (snd s) (lit "::" ++ arg) = Ok (fst s', snd s', out).
Proof.
  induction 1 as [o NO|o rest l NO C IH]; intros n s s' out LN H.
  - destruct n as [|n]; [cbn in LN; lia|]. cbn [option_loop]. rewrite find_no_colons by exact NO. unfold substr_from.
    replace (2 <=? _) with true by (symmetry; apply Nat.leb_le; rewrite app_length; cbn; lia).
    change (skipn 2 (lit "::" ++ o)) with o. cbn [bind]. cbn [options_read] in H.
    pose proof (one_step s o [] s' out (fun m memory => Ok (m, memory, [])) H) as Z. unfold step in Z. destruct s as [m memory]. cbn [fst snd]. apply Z.
    intros s1 o' H'. inversion H'; subst. reflexivity.
  - destruct n as [|n]; [cbn in LN; lia|]. cbn [length] in LN. cbn [option_loop]. rewrite find_last_colons by exact NO.
    assert (SK : skipn (length o + 2) (lit "::" ++ o ++ quote "::" ++ rest) = lit "::" ++ rest).
    { rewrite app_assoc, skipn_app, skipn_all2 by (rewrite app_length; cbn; lia).
      replace (_ - _) with 0 by (rewrite app_length; cbn; lia). reflexivity. }
    rewrite SK. unfold substr_from. replace (2 <=? _) with true by (symmetry; apply Nat.leb_le; rewrite app_length; cbn; lia).
    change (skipn 2 (lit "::" ++ rest)) with rest. cbn [bind].
    destruct (cut_rejoined _ _ C) as [R NE]. destruct l as [|o' l]; [contradiction|]. cbn [options_read] in H. rewrite <- R in H.
    pose proof (one_step s _ _ s' out (fun m memory => option_loop lm n i p m memory (lit "::" ++ rest)) H) as Z. unfold step in Z.
    destruct s as [m memory]. cbn [fst snd]. apply Z. intros s1 o1 H1. apply IH; [lia|exact H1].
Qed.
End Options.

Lemma cut_length arg l : cut_at_colons arg l -> length l <= S (length arg).
Proof. induction 1; cbn [length]; [lia|]. rewrite !app_length. cbn [length quote list_ascii_of_string]. lia. Qed.

Lemma many_options lm r i p arg options memory m said s' out : nth_error (g_reporters r) i = Some p ->
  (forall j q, j < i -> nth_error (g_reporters r) j = Some q -> r_name q <> r_name p) ->
  cut_at_colons arg (r_name p :: options) -> r_name p <> [] -> hd_error (r_name p) <> Some ":"%char ->
  r_initialize p (modes_of r) = Ok (memory, m, said) ->
  handled (good lm i p) (bad lm p) (m, memory) (options_read options) s' out ->
  parse_reporter lm r arg = Ok (set_reporter r i (fst s') (Holds p (snd s')), [Initialized i] ++ map Printed said ++ out).
Proof.
  intros N F C NE HD I H. inversion C as [? NO|? rest ? NO C']; subst.
  - rewrite (reporter_found_alone lm r i p N F) by (split; [|split]; assumption). rewrite I. cbn [bind]. inversion H; subst. cbn [fst snd]. rewrite app_nil_r. reflexivity.
  - change (quote "::") with (lit "::"). rewrite (reporter_found lm r i p rest N F) by (split; [|split]; assumption). rewrite I. cbn [bind].
    pose proof (many_loop lm i p rest options C' (S (length (lit "::" ++ rest))) (m, memory) s' out) as L.
    unfold text, str in *. cbn [fst snd] in L. rewrite L; [cbn [bind]; reflexivity| |exact H].
    pose proof (cut_length _ _ C'). rewrite app_length. cbn [length lit list_ascii_of_string]. unfold text, str in *. lia.
Qed.

(** Every argument is cut in one way. *)
Lemma cut_exists arg : exists name options, cut_at_colons arg (name :: options).
Proof.
  remember (length arg) as n eqn:E. assert (LE : length arg <= n) by lia. clear E. revert arg LE. induction n as [|n IH]; intros arg LE.
  - destruct arg; [|cbn in LE; lia]. exists [], []. constructor. intros ([] & b & X); discriminate.
  - destruct (Base.find arg (lit "::")) as [k|] eqn:F.
    + destruct (find_some _ _ _ F) as (a & b & -> & <- & M). destruct (IH b) as (o & l & C).
      { rewrite !app_length in LE. cbn in LE. lia. }
      exists a, (o :: l). apply (cut_more a b _); [|exact C]. intros (x & y & X).
      assert (LX : length x < length a) by (apply (f_equal (@length _)) in X; rewrite !app_length in X; cbn in X; lia).
      assert (O : a ++ lit "::" ++ b = x ++ lit "::" ++ (y ++ lit ":" ++ b)).
      { transitivity ((a ++ lit ":") ++ lit ":" ++ b); [now rewrite <- app_assoc|]. change (lit ":") with (quote ":"). rewrite X. rewrite <- !app_assoc. reflexivity. }
      destruct (find_occurs _ (lit "::") x _ O) as (k & F' & LK). rewrite F in F'. injection F' as <-. lia.
    + exists arg, []. constructor. apply find_none_occurs. exact F.
Qed.
Lemma cut_unique arg l : cut_at_colons arg l -> forall l', cut_at_colons arg l' -> l' = l.
Proof.
  induction 1 as [o NO|o rest l NO C IH]; intros l' C'.
  - inversion C' as [|o' rest' l1 NO' C1 E]; subst; [reflexivity|]. exfalso. apply NO. exists o', rest'. reflexivity.
  - inversion C' as [? NO'|o' rest' l1 NO' C1 E]; subst.
    + exfalso. apply NO'. exists o, rest. reflexivity.
    + pose proof (find_colons o rest NO) as F1. pose proof (find_colons o' rest' NO') as F2. cbn [app lit list_ascii_of_string quote] in E, F1, F2. unfold text, str in *. rewrite <- E, F2 in F1.
      assert (o = o' /\ ":"%char :: ":"%char :: rest = ":"%char :: ":"%char :: rest') as [-> R] by (apply app_inv_len; [symmetry; exact E|congruence]).
      injection R as <-. f_equal. now apply IH.
Qed.

(** When all options are read as given. *)
Lemma read_right arg options : cut_at_colons arg options ->
  (options_read options = options <-> length options <= 1 \/ exists o, options = [o; o]).
Proof.
  intros C. inversion C as [o NO|o rest l NO C' ]; subst; [cbn; split; [left; lia|reflexivity]|].
  destruct (cut_rejoined _ _ C') as [R NE]. destruct l as [|o' l]; [contradiction|]. cbn [options_read]. rewrite <- R. split.
  - intros E. injection E as E1 E2. right. exists o.
    assert (rest = o).
    { destruct (le_lt_dec (length o + 2) (length rest)) as [L|L].
      - apply (f_equal (@length _)) in E1. rewrite firstn_length in E1. lia.
      - rewrite firstn_all2 in E1 by (unfold text in *; lia). exact E1. }
    clear E1 E2. destruct l as [|o2 l]; [cbn [rejoined] in R; now subst|]. exfalso. apply NO. exists o', (rejoined (o2 :: l) ++ quote ":").
    rewrite <- H, R. change (rejoined (o' :: o2 :: l)) with (o' ++ quote "::" ++ rejoined (o2 :: l)). now rewrite <- !app_assoc.
  - intros [L|(x & E)]; [cbn in L; lia|]. injection E as -> -> ->. cbn [rejoined] in R. subst rest. cbn [options_read]. f_equal. apply firstn_all2. lia.
Qed.

Lemma cut_once arg : exists name options, cut_at_colons arg (name :: options) /\ forall l, cut_at_colons arg l -> l = name :: options.
Proof. destruct (cut_exists arg) as (name & options & C). exists name, options. split; [exact C|]. exact (cut_unique _ _ C). Qed.
