From Verif.Spec Require Import TextSpec FilterSpec PrintSpec CliSpec.
From Verif.Model Require Import Base Vector StringUtil Run Print Cli.
From Verif.Proofs Require Import Lists VectorProofs AppendProofs PrintProofs CliProofs.

(** ** Tables *)
Lemma forallb_in {A} (f : A -> bool) l x : forallb f l = true -> In x l -> f x = true.
Proof. intros H. rewrite forallb_forall in H. apply H. Qed.

Fixpoint long_once (l : list expected) : bool :=
  match l with
  | [] => true
  | e :: l' => (negb (active e) || negb (existsb (fun e' => active e' && seqb (long e) (long e')) l')) && long_once l'
  end.

Lemma long_once_spec l : long_once l = true -> forall i j e e', nth_error l i = Some e -> nth_error l j = Some e' -> active e = true -> active e' = true ->
  long e = long e' -> i = j.
Proof.
  assert (G : forall x l n y, negb (active x) || negb (existsb (fun e' => active e' && seqb (long x) (long e')) l) = true ->
    nth_error l n = Some y -> active x = true -> active y = true -> long x = long y -> False).
  { intros x l0 n y H N A B E. rewrite A in H. cbn in H. apply negb_true_iff in H. rewrite <- not_true_iff_false in H. apply H.
    apply existsb_exists. exists y. split; [eapply nth_error_In; eauto|]. rewrite B, E. apply seqb_refl. }
  induction l as [|x l IH]; intros H i j e e' Ni Nj A B E; [destruct i; discriminate|]. cbn [long_once] in H. apply andb_true_iff in H as [H1 H2].
  destruct i as [|i], j as [|j]; cbn [nth_error] in *; auto.
  - injection Ni as ->. destruct (G _ _ _ _ H1 Nj A B E).
  - injection Nj as ->. symmetry in E. destruct (G _ _ _ _ H1 Ni B A E).
  - f_equal. eapply IH; eauto.
Qed.

Definition apart (l : list expected) : bool :=
  forallb (fun e => negb (active e) || forallb (fun n => ignored_values l n =? 0) (e_names e)) l.
Lemma apart_spec l : apart l = true -> forall i e arg, find_option 0 l arg = Some (i, e) -> ignored_values l arg = 0.
Proof.
  intros H i e arg F. destruct (find_option_spec _ _ _ _ _ F) as (_ & N & A & M). apply nth_error_In in N.
  apply (forallb_in _ _ _ H) in N. rewrite A in N. cbn in N. unfold named in M. apply existsb_exists in M as (n & Hn & E).
  apply seqb_eq in E. subst. apply (forallb_in _ _ _ N) in Hn. now apply Nat.eqb_eq.
Qed.

Lemma named_same e arg : existsb (same_text arg) (e_names e) = named e arg.
Proof. unfold named. induction (e_names e) as [|n ns IH]; cbn [existsb]; [reflexivity|]. now rewrite IH, same_text_seqb. Qed.

Definition table (l : list expected) : list (list text * option text) := map (fun e => (e_names e, e_value_name e)) (filter active l).
Lemma find_active_lookup l arg : find_active l arg = lookup (table l) arg.
Proof.
  unfold find_active. generalize 0. induction l as [|e l IH]; intros i; [reflexivity|].
  assert (T : table (e :: l) = if active e then (e_names e, e_value_name e) :: table l else table l) by (unfold table; cbn [filter]; destruct (active e); reflexivity).
  rewrite T. cbn [find_option]. unfold active. destruct (e_ignored e || negb (is_option e)) eqn:A; cbn [negb].
  - apply IH.
  - cbn [lookup]. rewrite named_same. destruct (named e arg); cbn [negb]; [reflexivity|apply IH].
Qed.

Definition valued (l : list expected) : list text := flat_map (fun e => if e_ignored e && has_value e then e_names e else []) l.
Fixpoint valued_once (l : list expected) : bool :=
  match l with
  | [] => true
  | e :: l' => (negb (e_ignored e) || has_value e || forallb (fun n => negb (existsb (seqb n) (valued l'))) (e_names e)) && valued_once l'
  end.
Lemma swallows_valued l arg : valued_once l = true -> swallows l arg = existsb (same_text arg) (valued l).
Proof.
  unfold swallows. induction l as [|e l IH]; intros H; [reflexivity|]. cbn [valued_once] in H. apply andb_true_iff in H as [H1 H2].
  cbn [ignored_values valued flat_map]. fold (valued l). rewrite existsb_app. specialize (IH H2).
  destruct (e_ignored e); cbn [negb andb orb] in *; [|exact IH].
  pose proof (named_same e arg) as M.
  destruct (has_value e); cbn [orb] in H1.
  - unfold text, str in *. rewrite M. destruct (named e arg); cbn [negb orb]; [reflexivity|exact IH].
  - cbn [existsb orb]. destruct (named e arg) eqn:N; cbn [negb]; [|exact IH].
    unfold named in N. apply existsb_exists in N as (n & Hn & E). apply seqb_eq in E. subst n. apply (forallb_in _ _ _ H1) in Hn.
    apply negb_true_iff in Hn. symmetry. change (0 <? 0) with false. rewrite <- Hn. clear.
    induction (valued l) as [|v vs IHv]; cbn [existsb]; [reflexivity|].
    rewrite same_text_seqb, IHv. f_equal. destruct (seqb v arg) eqn:E, (seqb arg v) eqn:F; auto.
    + apply seqb_eq in E. subst. now rewrite seqb_refl in F.
    + apply seqb_eq in F. subst. now rewrite seqb_refl in E.
Qed.

Lemma read_gread argv : read argv = gread (lookup options) (fun a => existsb (same_text a) catch2_with_value) argv.
Proof.
  induction argv as [argv IH] using short_induction. destruct argv as [|a rest]; [reflexivity|]. cbn [read gread].
  destruct (dashed a).
  - destruct (lookup options a) as [[l [v|]]|].
    + destruct rest as [|x rest]; [reflexivity|]. f_equal. apply IH. cbn [length]. lia.
    + f_equal. apply IH. cbn [length]. lia.
    + destruct (existsb (same_text a) catch2_with_value).
      * destruct rest as [|x rest]; [reflexivity|]. f_equal. apply IH. cbn [length]. lia.
      * f_equal. apply IH. cbn [length]. lia.
  - f_equal. apply IH. cbn [length]. lia.
Qed.

Lemma items_read argv : items expected_args argv = read argv.
Proof.
  unfold items. rewrite read_gread. apply gread_ext.
  - intros a. rewrite find_active_lookup. reflexivity.
  - intros a. rewrite swallows_valued by (vm_compute; reflexivity). reflexivity.
Qed.

(** The facts about a table that [parse_with_spec] asks for, as one computation. *)
Definition good_table (l : list expected) : bool :=
  forallb (fun e => negb (active e) || negb (e_repeatable e)) l && long_once l && apart l &&
  match positional_of l with Some e => e_repeatable e && has_value e | None => true end &&
  forallb (fun e => negb (e_mandatory e)) l && forallb (fun e => forallb (fun n => negb (seqb n [])) (e_names e)) l.

Lemma parse_good cc exp settings path argv : good_table exp = true -> check_expected exp = Ok tt -> length argv <= c_max_args cc ->
  exists out result, parse_with cc exp settings path argv = Ok (out, result) /\
    (silent settings = true -> out = []) /\
    (accepted [] (items exp argv) = true ->
       (positional_of exp <> None -> silent settings = false -> Forall2 (warning cc settings) (unknown (items exp argv)) out) /\
       (tolerant settings = true \/ too_many exp (items exp argv) = false ->
          result = Some (mkinput (extract_executable path) (recorded (positional_name exp) (items exp argv))))) /\
    (accepted [] (items exp argv) = false -> tolerant settings = false -> result = None) /\
    (tolerant settings = true -> result <> None).
Proof.
  intros G T C. unfold good_table in G. repeat (apply andb_true_iff in G as [G ?]).
  apply parse_with_spec; auto.
  - intros e He A. apply (forallb_in _ _ _ G) in He. rewrite A in He. now apply negb_true_iff in He.
  - now apply long_once_spec.
  - now apply apart_spec.
  - intros e E. rewrite E in *. apply andb_true_iff in H1 as [H1 HV]. split; auto. unfold has_value in HV. destruct (e_value_name e); [eauto|discriminate].
  - intros e He. apply (forallb_in _ _ _ H0) in He. now apply negb_true_iff in He.
  - intros e He. apply (forallb_in _ _ _ H) in He. apply Forall_forall. intros n Hn. apply (forallb_in _ _ _ He) in Hn.
    apply negb_true_iff in Hn. now apply seqb_neq in Hn.
Qed.

Lemma parse_colors_total cc path argv : length argv <= c_max_args cc -> exists c, parse_color_options cc path argv = Ok ([], c).
Proof.
  intros C. unfold parse_color_options.
  destruct (parse_good cc output_args (mksettings true true true) path argv) as (out & r & E & S0 & _); [vm_compute; reflexivity..|exact C|].
  rewrite E, (S0 eq_refl). cbn [bind]. eauto.
Qed.

(** ** Help never fails *)
Lemma prints_total mm l : exists out, prints mm l = Ok out.
Proof.
  induction l as [|p l IH]; cbn [prints]; [eauto|]. destruct (cli_print_total mm p) as (s & E & _). rewrite E. cbn [bind].
  destruct IH as (out & ->). cbn [bind]. eauto.
Qed.

Lemma heading_total mm e : is_option e = true \/ has_value e = true -> exists h, heading mm e = Ok h.
Proof.
  intros H. unfold heading.
  assert (P : forall l, exists h, (do (ss, success) <- append_all (new_string mm) l ;; do ss' <- (if success : bool then Ok ss else truncate_end ss) ;; Ok (vcontent ss')) = Ok h).
  { intros l. destruct (append_all_content l (new_string mm) (wf_new mm)) as (ss & E & W & C & K). rewrite E. cbn [bind].
    destruct (_ <=? _); cbn [bind]; [eauto|]. destruct (truncate_end_spec ss W) as (ss' & E' & _). rewrite E'. cbn [bind]. eauto. }
  unfold is_option, has_value in H. destruct (e_names e).
  - destruct (e_value_name e); [|destruct H; discriminate]. cbn [bind]. apply P.
  - cbn [bind]. apply P.
Qed.

Lemma print_help_total cc name color : exists out, print_help cc name color = Ok out.
Proof.
  unfold print_help. destruct (usages expected_args) as [u|] eqn:U; [|vm_compute in U; discriminate]. cbn [bind].
  assert (G : forall l, (forall e, In e l -> is_option e = true \/ has_value e = true) -> exists r, listing (c_max_message cc) color l = Ok r).
  { induction l as [|e l IH]; intros H; cbn [listing]; [eauto|]. destruct IH as (r & Er); [intros; apply H; now right|].
    destruct (e_ignored e); [eauto|]. destruct (heading_total (c_max_message cc) e) as (h & ->); [apply H; now left|]. cbn [bind]. rewrite Er. cbn [bind]. eauto. }
  destruct (G expected_args) as (r & ->).
  - intros e He. apply (forallb_in (fun e => is_option e || has_value e)) in He; [|vm_compute; reflexivity]. now apply orb_true_iff in He.
  - cbn [bind]. apply prints_total.
Qed.

(** ** C32 *)
Lemma positional_expected : positional_name expected_args = Some (quote "test regex").
Proof. reflexivity. Qed.

Lemma parse_arguments_spec cc path argv : length argv <= c_max_args cc ->
  exists out result, parse_arguments cc path argv = Ok (out, result) /\
    (acceptable argv ->
       result = Some (mkinput (extract_executable path) (recorded (Some (quote "test regex")) (read argv))) /\
       exists color, parse_color_options cc path argv = Ok ([], color) /\
         Forall2 (warning cc (mksettings false false color)) (unknown (read argv)) out) /\
    (~ acceptable argv -> result = None).
Proof.
  intros C. unfold parse_arguments. destruct (parse_colors_total cc path argv C) as (color & EC). rewrite EC. cbn [bind app].
  destruct (parse_good cc expected_args (mksettings false false color) path argv) as (out & r & E & _ & A & B & _); [vm_compute; reflexivity..|exact C|].
  rewrite E. cbn [bind]. rewrite items_read in *. pose proof (accepted_acceptable argv) as AA.
  destruct (accepted [] (read argv)) eqn:ACC.
  - destruct (A eq_refl) as [A1 A2]. rewrite A2 by (right; reflexivity). eexists; eexists. split; [reflexivity|]. split; [|intros NA; destruct NA; now apply AA].
    intros _. split; [now rewrite positional_expected|]. exists color. split; [reflexivity|]. apply A1; [discriminate|reflexivity].
  - rewrite (B eq_refl eq_refl). destruct (cli_print_total (c_max_message cc) [Text newline]) as (s & Es & _). rewrite Es. cbn [bind].
    destruct (print_help_total cc path color) as (h & Eh). rewrite Eh. cbn [bind]. eexists; eexists. split; [reflexivity|]. split; [|auto]. intros HA. apply AA in HA. discriminate.
Qed.

(** ** C53 *)
Lemma find_if_none {A} (f : A -> bool) s : find_if f s = None -> forall x, In x s -> f x = false.
Proof. induction s as [|c s IH]; cbn [find_if]; [intros _ x []|]. destruct (f c) eqn:E; [discriminate|]. destruct (find_if f s); [discriminate|]. intros _ x [<-|H]; auto. Qed.
Lemma find_if_some {A} (f : A -> bool) s : forall n, find_if f s = Some n -> exists a x b, s = a ++ x :: b /\ length a = n /\ f x = true /\ forall y, In y a -> f y = false.
Proof.
  induction s as [|c s IH]; cbn [find_if]; intros n; [discriminate|]. destruct (f c) eqn:E.
  - intros [= <-]. exists [], c, s. repeat split; auto. intros y [].
  - destruct (find_if f s) as [m|]; [|discriminate]. intros [= <-]. destruct (IH m eq_refl) as (a & x & b & -> & L & F & N).
    exists (c :: a), x, b. cbn. repeat split; auto; try lia. intros y [<-|H]; auto.
Qed.
Lemma find_last_if_none {A} (f : A -> bool) s : find_last_if f s = None -> forall x, In x s -> f x = false.
Proof. unfold find_last_if. destruct (find_if f (rev s)) eqn:E; [discriminate|]. intros _ x H. apply (find_if_none f _ E). now apply -> in_rev. Qed.
Lemma find_last_if_some {A} (f : A -> bool) s n : find_last_if f s = Some n -> exists a x b, s = a ++ x :: b /\ length a = n /\ f x = true /\ forall y, In y b -> f y = false.
Proof.
  unfold find_last_if. destruct (find_if f (rev s)) as [m|] eqn:E; [|discriminate]. intros [= <-].
  destruct (find_if_some f _ _ E) as (a & x & b & R & L & F & N). apply (f_equal (@rev _)) in R. rewrite rev_involutive, rev_app_distr in R. cbn [rev] in R.
  rewrite <- app_assoc in R. cbn [app] in R. exists (rev b), x, (rev a). split; [exact R|]. rewrite R, app_length. cbn [length]. rewrite !rev_length, L.
  repeat split; auto; try lia. intros y H. apply N. now apply in_rev.
Qed.

Lemma is_separator_spec c : is_separator c = true <-> separator c.
Proof. unfold is_separator, separator, aeqb. rewrite orb_true_iff, !Ascii.eqb_eq. tauto. Qed.

Lemma extract_executable_spec path : exists file, file_of path file /\ stem_of file (extract_executable path).
Proof.
  unfold extract_executable.
  set (file := match find_last_if is_separator path with Some e => skipn (e + 1) path | None => path end). exists file. split.
  - unfold file, file_of. destruct (find_last_if is_separator path) as [n|] eqn:E.
    + destruct (find_last_if_some _ _ _ E) as (a & x & b & R & L & F & N).
      assert (Q : skipn (n + 1) path = b).
      { rewrite R, <- L. replace (a ++ x :: b) with ((a ++ [x]) ++ b) by (rewrite <- app_assoc; reflexivity).
        replace (length a + 1) with (length (a ++ [x])) by (rewrite app_length; reflexivity). rewrite skipn_app, skipn_all, Nat.sub_diag. reflexivity. }
      rewrite Q. exists (a ++ [x]). split; [rewrite <- app_assoc; exact R|]. split.
      * apply Forall_forall. intros c Hc Hs. apply is_separator_spec in Hs. rewrite N in Hs by auto. discriminate.
      * right. exists a, x. split; [reflexivity|]. now apply is_separator_spec.
    + exists []. repeat split; auto. apply Forall_forall. intros c Hc Hs. apply is_separator_spec in Hs.
      rewrite (find_last_if_none _ _ E c Hc) in Hs. discriminate.
  - unfold stem_of. clearbody file. destruct (find_last_if (aeqb ".") file) as [n|] eqn:E.
    + destruct (find_last_if_some _ _ _ E) as (a & x & b & R & L & F & N). right. exists b.
      apply Ascii.eqb_eq in F. subst x. replace (length file - (length file - n)) with n by (rewrite R, app_length in *; lia).
      assert (Q : firstn n file = a) by (rewrite R, <- L, firstn_app, firstn_all, Nat.sub_diag; cbn; apply app_nil_r). rewrite Q.
      split; [exact R|]. intros H. specialize (N _ H). unfold aeqb in N. rewrite Ascii.eqb_refl in N. discriminate.
    + left. split; [|reflexivity]. intros H. specialize (find_last_if_none _ _ E _ H). unfold aeqb. rewrite Ascii.eqb_refl. discriminate.
Qed.

(** The result is unique. *)
Lemma file_of_unique path f g : file_of path f -> file_of path g -> f = g.
Proof.
  intros (a & Ea & Fa & Ha) (b & Eb & Fb & Hb). revert f g path b Ea Eb Fa Fb Ha Hb.
  assert (G : forall a b f g : text, a ++ f = b ++ g -> Forall (fun c => ~ separator c) f -> (b = [] \/ exists b' c, b = b' ++ [c] /\ separator c) -> length b <= length a).
  { intros a' b f g E F [->|(b' & c & -> & Hc)]; [cbn; lia|]. destruct (Nat.le_gt_cases (length (b' ++ [c])) (length a')) as [H|H]; auto.
    exfalso. rewrite app_length in H. cbn [length] in H. assert (H' : length a' <= length b') by lia.
    assert (X : f = skipn (length a') (b' ++ [c] ++ g)).
    { rewrite app_assoc, <- E. rewrite skipn_app, skipn_all, Nat.sub_diag. reflexivity. }
    rewrite skipn_app in X. replace (length a' - length b') with 0 in X by lia. cbn [skipn] in X. rewrite X in F.
    apply Forall_app in F as [_ F]. cbn [app] in F. inversion F; subst. contradiction. }
  intros f g path b Ea Eb Fa Fb Ha Hb. assert (E : a ++ f = b ++ g) by congruence.
  pose proof (G _ _ _ _ E Fa Hb). symmetry in E. pose proof (G _ _ _ _ E Fb Ha). symmetry in E.
  assert (L : length a = length b) by lia. clear - E L. revert b E L. induction a as [|x a IH]; intros [|y b] E L; cbn in *; auto; try lia.
  injection E as _ E. eapply IH; eauto.
Qed.
Lemma stem_of_unique file s t : stem_of file s -> stem_of file t -> s = t.
Proof.
  intros [[N ->]|(e & E & N)] [[M ->]|(e' & E' & M)]; auto.
  - destruct N. rewrite E'. apply in_or_app. right. now left.
  - destruct M. rewrite E. apply in_or_app. right. now left.
  - rewrite E in E'. clear E. revert t E'. induction s as [|c s IH]; intros [|d t] E; cbn in E; auto.
    + exfalso. injection E as <- E. apply N. rewrite E. apply in_or_app. right. now left.
    + exfalso. injection E as -> E. apply M. rewrite <- E. apply in_or_app. right. now left.
    + injection E as -> E. f_equal. auto.
Qed.

(** ** Reading the result through the API *)
Lemma recorded_get items name : name <> [] ->
  option_map a_value (List.find (fun a => seqb (a_name a) name) (recorded (Some (quote "test regex")) items)) = setting items name.
Proof.
  intros NE. induction items as [|i l IH]; [reflexivity|]. unfold recorded in *. cbn [flat_map].
  destruct i as [lo [[v c]|]|a|a|a]; cbn [record_item app setting List.find a_name]; auto.
  - rewrite <- same_text_seqb. destruct (same_text name lo); auto.
  - rewrite <- same_text_seqb. destruct (same_text name lo); auto.
  - destruct (seqb [] name) eqn:E; auto. apply seqb_eq in E. congruence.
Qed.

Lemma recorded_filters items : (forall lo v, In (Given lo v) items -> lo <> []) ->
  positional_values (quote "test regex") (recorded (Some (quote "test regex")) items) = Ok (filters items).
Proof.
  induction items as [|i l IH]; intros NE; [reflexivity|]. unfold recorded in *. cbn [flat_map].
  assert (IH' : positional_values (quote "test regex") (flat_map (record_item (Some (quote "test regex"))) l) = Ok (filters l)).
  { apply IH. intros lo v H. apply (NE lo v). now right. }
  destruct i as [lo v|a|a|a]; cbn [record_item app filters flat_map]; auto.
  - assert (N : lo <> []) by (apply (NE lo v); now left). destruct v as [[v c]|]; cbn [app positional_values is_option_argument a_name negb andb];
      unfold is_option_argument; cbn [a_name]; destruct lo; try congruence; exact IH'.
  - cbn [positional_values]. unfold is_option_argument, value_name_is. cbn [a_name a_value_name a_value negb andb].
    rewrite seqb_refl, IH'. reflexivity.
Qed.

Lemma lookup_nonempty arg lo v : lookup options arg = Some (lo, v) -> lo <> [].
Proof.
  assert (G : forall l, forallb (fun x => negb (seqb (last (fst x) []) [])) l = true -> lookup l arg = Some (lo, v) -> lo <> []).
  { induction l as [|[ns w] l IH]; intros H; cbn [lookup forallb fst] in *; [discriminate|]. apply andb_true_iff in H as [H1 H2].
    destruct (existsb (same_text arg) ns); [|auto]. intros [= <- <-]. apply negb_true_iff, seqb_neq in H1. exact H1. }
  apply G. reflexivity.
Qed.

Lemma read_nonempty argv : forall lo v, In (Given lo v) (read argv) -> lo <> [].
Proof.
  rewrite read_gread. induction argv as [argv IH] using short_induction. destruct argv as [|a rest]; [intros lo v []|]. cbn [gread].
  assert (IH1 : forall lo v, In (Given lo v) (gread (lookup options) (fun a => existsb (same_text a) catch2_with_value) rest) -> lo <> []) by (apply IH; cbn [length]; lia).
  intros lo v. destruct (dashed a).
  - destruct (lookup options a) as [[l [w|]]|] eqn:E.
    + destruct rest as [|x rest]; [intros [H|[]]; discriminate|]. intros [H|H]; [injection H as <- _; eapply lookup_nonempty; eauto|].
      eapply (IH rest); eauto. cbn [length]; lia.
    + intros [H|H]; [injection H as <- _; eapply lookup_nonempty; eauto|eauto].
    + destruct (existsb (same_text a) catch2_with_value).
      * destruct rest as [|x rest]; [intros [H|[]]; discriminate|]. intros [H|H]; [discriminate|]. eapply (IH rest); eauto. cbn [length]; lia.
      * intros [H|H]; [discriminate|eauto].
  - intros [H|H]; [discriminate|eauto].
Qed.

Lemma parsed_options cc path argv out inp : length argv <= c_max_args cc ->
  parse_arguments cc path argv = Ok (out, Some inp) ->
  (forall name, name <> [] -> option_map a_value (get_option inp name) = setting (read argv) name) /\
  for_each_positional_argument inp (quote "test regex") = Ok (filters (read argv)).
Proof.
  intros C E. destruct (parse_arguments_spec cc path argv C) as (out' & r & E' & A & B). rewrite E in E'. injection E' as <- <-.
  assert (ACC : acceptable argv).
  { apply accepted_acceptable. destruct (accepted [] (read argv)) eqn:ACC; auto. discriminate B. intros H. apply accepted_acceptable in H. congruence. }
  destruct (A ACC) as [[= ->] _]. split.
  - intros name NE. now apply recorded_get.
  - apply recorded_filters. apply read_nonempty.
Qed.

Lemma parse_fails cc path argv : length argv <= c_max_args cc ->
  ((exists out, parse_arguments cc path argv = Ok (out, None)) <-> ~ acceptable argv).
Proof.
  intros C. destruct (parse_arguments_spec cc path argv C) as (out & r & E & A & B). split.
  - intros (out' & E') H. rewrite E in E'. injection E' as -> ->. destruct (A H) as [? _]. discriminate.
  - intros H. rewrite (B H) in E. eauto.
Qed.
