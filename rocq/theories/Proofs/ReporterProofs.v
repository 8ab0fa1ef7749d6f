(** Colours (C35), reporters (C34, C54). *)
From Verif.Spec Require Import TextSpec FilterSpec PrintSpec Events VerdictSpec SessionSpec CliSpec.
From Verif.Model Require Import Base Vector StringUtil Print Filter Run Cli File Session.
From Verif.Proofs Require Import Lists VectorProofs AppendProofs ReplaceProofs FilterProofs RunProofs PrintProofs CliProofs CliFacts SessionProofs SessionFacts ConfigProofs.

(** ** The colour options as read by [parse_color_options] *)
Definition is_colour (long : text) : bool := seqb long (lit "--color") || seqb long (lit "--colour-mode").
Definition out_find (a : text) := lookup (table output_args) a.
Definition out_swallow (a : text) := existsb (same_text a) (valued output_args).
Definition all_names : list text := concat (map fst options) ++ catch2_with_value ++ concat (map fst (table output_args)) ++ valued output_args.

Lemma out_items argv : items output_args argv = gread out_find out_swallow argv.
Proof.
  unfold items. apply gread_ext.
  - intros a. apply find_active_lookup.
  - intros a. rewrite swallows_valued by (vm_compute; reflexivity). reflexivity.
Qed.

Definition aligned (a : text) : bool :=
  match lookup options a with
  | Some (long, None) => match out_find a with None => negb (out_swallow a) && negb (is_colour long) | _ => false end
  | Some (long, Some called) =>
    if is_colour long then match out_find a with Some (l, Some c) => seqb l long && seqb c called | _ => false end
    else match out_find a with None => out_swallow a | _ => false end
  | None => match out_find a with None => Bool.eqb (out_swallow a) (existsb (same_text a) catch2_with_value) | _ => false end
  end.

Lemma lookup_absent l a : ~ In a (concat (map fst l)) -> lookup l a = None.
Proof.
  induction l as [|[ns v] l IH]; intros H; [reflexivity|]. cbn [lookup map concat fst] in *. rewrite in_app_iff in H.
  destruct (existsb (same_text a) ns) eqn:E; [|tauto]. exfalso. apply H. left. apply existsb_exists in E as (n & Hn & E). apply same_text_eq in E. now subst.
Qed.
Lemma existsb_absent l a : ~ In a l -> existsb (same_text a) l = false.
Proof.
  intros H. destruct (existsb (same_text a) l) eqn:E; [|reflexivity]. exfalso. apply existsb_exists in E as (n & Hn & E). apply same_text_eq in E. now subst.
Qed.

Lemma aligned_all a : aligned a = true.
Proof.
  destruct (in_dec (list_eq_dec Ascii.ascii_dec) a all_names) as [H|H].
  - revert a H. apply forallb_forall. vm_compute. reflexivity.
  - unfold all_names in H. rewrite !in_app_iff in H. unfold aligned, out_find, out_swallow.
    rewrite !lookup_absent, !existsb_absent by tauto. reflexivity.
Qed.

Lemma setting_cons i l n : setting (i :: l) n = match i with Given long v => if same_text n long then Some (option_map fst v) else setting l n | _ => setting l n end.
Proof. destruct i; reflexivity. Qed.

Lemma out_reads argv :
  (forall n, is_colour n = true -> setting (gread out_find out_swallow argv) n = setting (read argv) n) /\
  given (gread out_find out_swallow argv) = filter is_colour (given (read argv)) /\
  (forall a, In (NoValue a) (gread out_find out_swallow argv) -> In (NoValue a) (read argv)).
Proof.
  assert (NS : forall n long, is_colour n = true -> is_colour long = false -> same_text n long = false).
  { intros n long H1 H2. destruct (same_text n long) eqn:E; [|reflexivity]. apply same_text_eq in E. subst. congruence. }
  induction argv as [argv IH] using short_induction. destruct argv as [|a rest]; [repeat split; auto|]. cbn [gread read].
  destruct (IH rest ltac:(cbn [length]; lia)) as (I1 & I2 & I3).
  destruct (dashed a).
  - pose proof (aligned_all a) as AL. unfold aligned in AL. destruct (lookup options a) as [[long [called|]]|] eqn:L.
    + destruct (is_colour long) eqn:IC.
      * destruct (out_find a) as [[l [c|]]|]; try discriminate. apply andb_true_iff in AL as [E1 E2]. apply seqb_eq in E1, E2. subst.
        destruct rest as [|v rest]; [repeat split; auto; intros x [H|[]]; left; exact H|].
        destruct (IH rest ltac:(cbn [length]; lia)) as (J1 & J2 & J3). repeat split.
        -- intros n Hn. rewrite !setting_cons, (J1 n Hn). reflexivity.
        -- cbn [given flat_map app filter]. fold (given (gread out_find out_swallow rest)) (given (read rest)). rewrite IC, J2. reflexivity.
        -- intros x [H|H]; [discriminate|]. right. auto.
      * destruct (out_find a) as [p|]; [discriminate|]. rewrite AL. destruct rest as [|v rest].
        -- repeat split; auto. intros x [H|[]]. discriminate.
        -- destruct (IH rest ltac:(cbn [length]; lia)) as (J1 & J2 & J3). repeat split.
           ++ intros n Hn. rewrite !setting_cons, (NS n long Hn IC). auto.
           ++ cbn [given flat_map app filter]. fold (given (gread out_find out_swallow rest)) (given (read rest)). rewrite IC. exact J2.
           ++ intros x [H|H]; [discriminate|]. right. auto.
    + destruct (out_find a) as [p|]; [discriminate|]. apply andb_true_iff in AL as [SW IC]. apply negb_true_iff in SW, IC. rewrite SW. repeat split.
      * intros n Hn. rewrite !setting_cons, (NS n long Hn IC). auto.
      * cbn [given flat_map app filter]. fold (given (gread out_find out_swallow rest)) (given (read rest)). rewrite IC. exact I2.
      * intros x [H|H]; [discriminate|]. right. auto.
    + destruct (out_find a) as [p|]; [discriminate|]. apply Bool.eqb_prop in AL. rewrite AL. destruct (existsb (same_text a) catch2_with_value).
      * destruct rest as [|v rest]; [repeat split; auto|]. destruct (IH rest ltac:(cbn [length]; lia)) as (J1 & J2 & J3). repeat split.
        -- intros n Hn. rewrite !setting_cons. auto.
        -- exact J2.
        -- intros x [H|H]; [discriminate|]. right. auto.
      * repeat split.
        -- intros n Hn. rewrite !setting_cons. auto.
        -- exact I2.
        -- intros x [H|H]; [discriminate|]. right. auto.
  - repeat split.
    + intros n Hn. rewrite !setting_cons. auto.
    + exact I2.
    + intros x [H|H]; [discriminate|]. right. auto.
Qed.

Lemma recorded_get_any p items name : name <> [] ->
  option_map a_value (List.find (fun a => seqb (a_name a) name) (recorded p items)) = setting items name.
Proof.
  intros NE. induction items as [|i l IH]; [reflexivity|]. unfold recorded in *. cbn [flat_map].
  destruct i as [lo [[v c]|]|a|a|a]; cbn [record_item app setting List.find a_name]; auto.
  - rewrite <- same_text_seqb. destruct (same_text name lo); auto.
  - rewrite <- same_text_seqb. destruct (same_text name lo); auto.
  - destruct p; cbn [app List.find a_name]; auto. destruct (seqb [] name) eqn:E; auto. apply seqb_eq in E. congruence.
Qed.

(** What a colour option says, given the setting before it. *)
Definition colour_of (yes no : str) (v : option (option text)) (before : bool) : bool :=
  match v with
  | Some (Some x) => if seqb x yes then true else if seqb x no then false else before
  | _ => before
  end.

Lemma parse_colors_spec cc path argv : length argv <= c_max_args cc -> acceptable argv ->
  parse_color_options cc path argv =
  Ok ([], colour_of (lit "ansi") (lit "none") (setting (read argv) (lit "--colour-mode"))
            (colour_of (lit "always") (lit "never") (setting (read argv) (lit "--color")) (c_default_color cc))).
Proof.
  intros L [A1 A2]. unfold parse_color_options.
  destruct (parse_good cc output_args (mksettings true true true) path argv) as (out & r & E & S0 & G & _); [vm_compute; reflexivity..|exact L|].
  rewrite out_items in G. destruct (out_reads argv) as (R1 & R2 & R3).
  assert (ACC : accepted [] (gread out_find out_swallow argv) = true).
  { apply (accepted_spec _ [] (NoDup_nil _)). split; [intros a H; apply (A1 a); auto|]. rewrite app_nil_r. apply NoDup_rev. rewrite R2. now apply NoDup_filter. }
  destruct (G ACC) as (_ & G2). rewrite E, (S0 eq_refl), (G2 (or_introl eq_refl)). cbn [bind]. f_equal. f_equal.
  rewrite <- (R1 (lit "--colour-mode")), <- (R1 (lit "--color")) by reflexivity.
  rewrite <- !(recorded_get_any (positional_name output_args)) by discriminate.
  unfold get_option. cbn [arguments]. unfold value_is.
  destruct (List.find (fun a => seqb (a_name a) (lit "--color")) _) as [a1|]; destruct (List.find (fun a => seqb (a_name a) (lit "--colour-mode")) _) as [a2|];
    cbn [option_map colour_of]; try (destruct (a_value a1)); try (destruct (a_value a2)); reflexivity.
Qed.

Definition colour_blind (p : reporter) : Prop :=
  (forall m memory m' said, r_initialize p m = Ok (memory, m', said) -> m_color m' = m_color m) /\
  (forall m memory k v memory' m' said known, r_configure p m memory k v = Ok (memory', m', said, known) -> m_color m' = m_color m).
Lemma colours_agree lm can_open r path argv out1 args r' out2 : length argv <= l_max_command_line_args lm ->
  parse_arguments (cli_of lm) path argv = Ok (out1, Some args) -> g_with_color r = l_default_with_color lm ->
  setting (read argv) (quote "--out") = None ->
  setting (read argv) (quote "--color") = None \/ setting (read argv) (quote "--colour-mode") = None ->
  (setting (read argv) (quote "--reporter") = None \/ forall p, In p (g_reporters r) -> colour_blind p) ->
  configure lm can_open r args = Ok (r', out2) ->
  parse_color_options (cli_of lm) path argv = Ok ([], g_with_color r').
Proof.
  intros L P D NO ONE BL C.
  assert (ACC : acceptable argv).
  { destruct (parse_arguments_spec (cli_of lm) path argv L) as (o & res & P' & _ & B). rewrite P in P'. injection P' as <- <-.
    apply accepted_acceptable. destruct (accepted [] (read argv)) eqn:E; [reflexivity|]. exfalso.
    assert (N : ~ acceptable argv) by (intros H; apply accepted_acceptable in H; congruence). specialize (B N). discriminate. }
  rewrite (parse_colors_spec (cli_of lm) path argv L ACC). do 2 f_equal. change (c_default_color (cli_of lm)) with (l_default_with_color lm). rewrite <- D.
  destruct (parsed_options (cli_of lm) _ _ _ _ L P) as [G _].
  pose proof (G (quote "--out") ltac:(discriminate)) as G1. pose proof (G (quote "--color") ltac:(discriminate)) as G2. pose proof (G (quote "--colour-mode") ltac:(discriminate)) as G3. pose proof (G (quote "--reporter") ltac:(discriminate)) as G4.
  change quote with lit in *. rewrite <- G1 in NO. rewrite <- G2, <- G3 in *. rewrite <- G4 in BL. clear G G1 G2 G3 G4.
  apply configure_steps in C as (r1 & b1 & o1 & r2 & b2 & o2 & r3 & o3 & r4 & o4 & o5 & S1 & S2 & S3 & S4 & S5 & ->).
  apply colour_step_effect in S1 as (_ & c1 & -> & C1). apply colour_step_effect in S2 as (_ & c2 & -> & C2).
  apply verbosity_step_effect in S3 as (_ & v & ->). pose proof (reporter_step_effect _ _ _ _ _ S5) as (_ & R5).
  destruct (get_option args (lit "--out")); [discriminate|]. cbn [ConfigProofs.file_step] in S4. injection S4 as <- <-.
  replace (g_with_color r') with c2.
  2:{ destruct R5 as [->|(i & p & m & memory & Np & -> & K)]; [reflexivity|]. cbn [g_with_color set_reporter]. symmetry.
      destruct BL as [BL|BL].
      - destruct (get_option args (lit "--reporter")) as [a|]; [discriminate|]. cbn [reporter_step] in S5. apply (f_equal (fun x => match x with Ok (a, _) => g_with_color a | Err _ => false end)) in S5. symmetry. exact S5.
      - apply nth_error_In in Np. destruct (BL p Np) as [B1 B2]. apply (K (fun m _ => m_color m = c2)).
        + intros memory0 m1 said X. rewrite (B1 _ _ _ _ X). reflexivity.
        + intros m0 memory0 k w memory1 m1 said known X <-. exact (B2 _ _ _ _ _ _ _ _ X). } cbn [g_with_color set_with_color] in C2.
  destruct (get_option args (lit "--colour-mode")) as [a1|], (get_option args (lit "--color")) as [a2|]; cbn [option_map colour_of] in *.
  - destruct ONE; discriminate.
  - destruct C1 as (w & -> & ->). subst c2. reflexivity.
  - destruct C2 as (w & -> & ->). subst c1. reflexivity.
  - congruence.
Qed.

(** ** Reporters *)
Section Reporters.
Variable lm : limits.

Lemma find_reporter_first l : forall k i p, nth_error l i = Some p -> (forall j q, j < i -> nth_error l j = Some q -> r_name q <> r_name p) ->
  find_reporter k l (r_name p) = Some (k + i, p).
Proof.
  induction l as [|q l IH]; intros k i p N F; [destruct i; discriminate|]. cbn [find_reporter]. destruct i as [|i].
  - injection N as <-. rewrite seqb_refl, Nat.add_0_r. reflexivity.
  - destruct (seqb (r_name q) (r_name p)) eqn:E; [apply seqb_eq in E; exfalso; apply (F 0 q); [lia|reflexivity|exact E]|].
    rewrite (IH (S k) i p N); [do 2 f_equal; lia|]. intros j q' Hj Hq. apply (F (S j) q'); [lia|exact Hq].
Qed.
Lemma find_reporter_none l name : forall k, (forall p, In p l -> r_name p <> name) -> find_reporter k l name = None.
Proof.
  induction l as [|q l IH]; intros k H; [reflexivity|]. cbn [find_reporter]. destruct (seqb (r_name q) name) eqn:E; [apply seqb_eq in E; exfalso; apply (H q); [now left|exact E]|].
  apply IH. intros p Hp. apply H. now right.
Qed.

Lemma find_absent s p : ~ occurs p s -> Base.find s p = None.
Proof. intros H. destruct (Base.find s p) as [n|] eqn:E; [|reflexivity]. exfalso. apply H. destruct (find_some _ _ _ E) as (a & b & X & _). exists a, b. exact X. Qed.

(** [a] followed by ["::"], when ["::"] does not occur earlier. *)
Lemma find_colons a b : ~ occurs (lit "::") (a ++ lit ":") -> Base.find (a ++ lit "::" ++ b) (lit "::") = Some (length a).
Proof.
  intros H. destruct (find_occurs (a ++ lit "::" ++ b) (lit "::") a b eq_refl) as (n & E & LE). rewrite E. f_equal.
  destruct (Nat.eq_dec n (length a)) as [->|NE]; [reflexivity|]. exfalso. apply H.
  destruct (find_some _ _ _ E) as (x & y & X & LX & _). subst n.
  assert (PX : length (x ++ lit "::") <= length (a ++ lit ":")) by (rewrite !app_length; cbn [length lit list_ascii_of_string]; lia).
  replace (a ++ lit "::" ++ b) with ((a ++ lit ":") ++ lit ":" ++ b) in X by (rewrite <- !app_assoc; reflexivity).
  symmetry in X. rewrite (app_assoc x) in X. destruct (app_prefix_le (x ++ lit "::") y (a ++ lit ":") (lit ":" ++ b) X PX) as (m & Q & _).
  exists x, m. rewrite Q, <- app_assoc. reflexivity.
Qed.

Definition option_text (o : text * text) : text := fst o ++ lit "=" ++ snd o.

Lemma find_equal k v : k <> [] -> ~ In "="%char k -> exists n, Base.find (k ++ lit "=" ++ v) (lit "=") = Some (S n) /\
  firstn (S n) (k ++ lit "=" ++ v) = k /\ skipn (S n + 1) (k ++ lit "=" ++ v) = v.
Proof.
  intros NE NI. assert (F : forall k, ~ In "="%char k -> Base.find (k ++ lit "=" ++ v) (lit "=") = Some (length k)).
  { clear. induction k as [|c k IH]; intros NI; [reflexivity|]. cbn [app]. cbn [Base.find]. change (lit "=") with ["="%char]. cbn [starts_with].
    destruct (aeqb "=" c) eqn:E; [apply aeqb_eq in E; exfalso; apply NI; left; congruence|]. cbn [andb].
    change ["="%char] with (lit "="). rewrite IH by (intros X; apply NI; now right). reflexivity. }
  destruct k as [|c k]; [contradiction|]. exists (length k). split; [rewrite F by exact NI; reflexivity|]. change (S (length k)) with (length (c :: k)). split.
  - rewrite firstn_app_le by lia. apply firstn_all.
  - rewrite skipn_app. rewrite skipn_all2 by lia. replace (length (c :: k) + 1 - length (c :: k)) with 1 by lia. reflexivity.
Qed.

(** The last option. *)
Lemma option_loop_last i p m memory k v n memory' m' said known : k <> [] -> ~ In "="%char k -> ~ occurs (lit "::") (option_text (k, v)) ->
  r_configure p m memory k v = Ok (memory', m', said, known) ->
  exists w, option_loop lm (S n) i p m memory (lit "::" ++ option_text (k, v)) = Ok (m', memory', Configured i k v :: map Printed (said ++ w)) /\
    if known then w = [] else exists s, cli_print (l_max_message_length lm) [make_colored (lit "warning:") (m_color m') color_warning; Text (lit " unknown reporter option '"); Text k; Text (lit "'" ++ [ascii_of_nat 10])] = Ok s /\ w = [s].
Proof.
  intros NE NI NO CF. cbn [option_loop]. assert (FF : find_from (lit "::" ++ option_text (k, v)) (lit "::") 2 = None).
  { unfold find_from. replace (2 <=? _) with true by (symmetry; apply Nat.leb_le; rewrite app_length; cbn; lia).
    change (skipn 2 (lit "::" ++ option_text (k, v))) with (option_text (k, v)). now rewrite find_absent. }
  rewrite FF. unfold substr_from. replace (2 <=? _) with true by (symmetry; apply Nat.leb_le; rewrite app_length; cbn; lia).
  change (skipn 2 (lit "::" ++ option_text (k, v))) with (option_text (k, v)). cbn [bind].
  destruct (find_equal k v NE NI) as (n' & F & X & Y). unfold option_text in *. cbn [fst snd] in *. rewrite F, X, Y, CF. cbn [bind].
  destruct known.
  - exists []. cbn [bind]. rewrite app_nil_r. split; reflexivity.
  - destruct (cli_print_total (mm lm) [warning_prefix (m_color m'); Text (lit " unknown reporter option '"); Text k; Text (lit "'" ++ newline)]) as (s & E & _).
    rewrite E. cbn [bind]. exists [s]. rewrite app_nil_r. split; [reflexivity|]. exists s. split; [exact E|reflexivity].
Qed.

Definition valid_name (name : text) : Prop := name <> [] /\ hd_error name <> Some ":"%char /\ ~ occurs (lit "::") (name ++ lit ":").

Lemma valid_start name rest : valid_name name -> match name ++ rest with [] => true | c :: _ => aeqb c ":"%char end = false.
Proof. intros (NE & H & _). destruct name as [|c name]; [contradiction|]. cbn in *. destruct (aeqb c ":") eqn:E; [apply aeqb_eq in E; congruence|reflexivity]. Qed.

Lemma occurs_prefix p a b : occurs p a -> occurs p (a ++ b).
Proof. intros (x & y & ->). exists x, (y ++ b). now rewrite <- !app_assoc. Qed.

Lemma reporter_found r i p rest : nth_error (g_reporters r) i = Some p ->
  (forall j q, j < i -> nth_error (g_reporters r) j = Some q -> r_name q <> r_name p) ->
  valid_name (r_name p) ->
  parse_reporter lm r (r_name p ++ lit "::" ++ rest) =
    do (memory, m, said) <- r_initialize p (modes_of r) ;;
    do (m', memory', out) <- option_loop lm (S (length (lit "::" ++ rest))) i p m memory (lit "::" ++ rest) ;;
    Ok (set_reporter r i m' (Holds p memory'), Initialized i :: map Printed said ++ out).
Proof.
  intros N F V. unfold parse_reporter. rewrite (valid_start _ _ V). destruct V as (V1 & V2 & V3).
  rewrite (find_colons _ rest V3).
  rewrite skipn_app, skipn_all, Nat.sub_diag, firstn_app, firstn_all, Nat.sub_diag. cbn [app skipn firstn]. rewrite app_nil_r.
  change (":"%char :: ":"%char :: rest) with (lit "::" ++ rest).
  rewrite (find_reporter_first _ 0 i p N F). pose proof (find_colons [] rest) as FC. cbn [app length] in FC. rewrite FC.
  2:{ intros (a & b & E). destruct a as [|x [|y a]]; discriminate. }
  reflexivity.
Qed.
Lemma reporter_found_alone r i p : nth_error (g_reporters r) i = Some p ->
  (forall j q, j < i -> nth_error (g_reporters r) j = Some q -> r_name q <> r_name p) ->
  r_name p <> [] /\ hd_error (r_name p) <> Some ":"%char /\ ~ occurs (lit "::") (r_name p) ->
  parse_reporter lm r (r_name p) =
    do (memory, m, said) <- r_initialize p (modes_of r) ;;
    Ok (set_reporter r i m (Holds p memory), Initialized i :: map Printed said).
Proof.
  intros N F (V1 & V2 & V3). unfold parse_reporter. replace (match r_name p with [] => true | c :: _ => aeqb c ":"%char end) with false.
  2:{ destruct (r_name p) as [|c t]; [contradiction|]. cbn in V2. destruct (aeqb c ":") eqn:E; [apply aeqb_eq in E; congruence|reflexivity]. }
  rewrite find_absent by exact V3. rewrite (find_reporter_first _ 0 i p N F).
  replace (Base.find [] (lit "::")) with (@None nat) by reflexivity.
  destruct (r_initialize p (modes_of r)) as [[[memory m] said]|]; cbn [bind]; [|reflexivity]. now rewrite app_nil_r.
Qed.

Lemma reporter_selected r i p memory m said : nth_error (g_reporters r) i = Some p ->
  (forall j q, j < i -> nth_error (g_reporters r) j = Some q -> r_name q <> r_name p) ->
  valid_name (r_name p) -> r_initialize p (modes_of r) = Ok (memory, m, said) ->
  parse_reporter lm r (reporter_argument (r_name p) []) = Ok (set_reporter r i m (Holds p memory), Initialized i :: map Printed said) /\
  forall k v memory' m' said' known,
    k <> [] -> ~ In "="%char k -> ~ occurs (lit "::") (k ++ lit "=" ++ v) ->
    r_configure p m memory k v = Ok (memory', m', said', known) ->
    exists warnings,
      parse_reporter lm r (reporter_argument (r_name p) [(k, v)]) =
        Ok (set_reporter r i m' (Holds p memory'), [Initialized i] ++ map Printed said ++ [Configured i k v] ++ map Printed (said' ++ warnings)) /\
      if known then warnings = [] else exists s, cli_print (l_max_message_length lm) [make_colored (lit "warning:") (m_color m') color_warning; Text (lit " unknown reporter option '"); Text k; Text (lit "'" ++ [ascii_of_nat 10])] = Ok s /\ warnings = [s].
Proof.
  intros N F V I. split.
  - unfold reporter_argument. cbn [map concat]. rewrite app_nil_r, (reporter_found_alone _ _ _ N F).
    + rewrite I. reflexivity.
    + destruct V as (V1 & V2 & V3). split; [exact V1|]. split; [exact V2|]. intros H. apply V3. now apply occurs_prefix.
  - intros k v memory' m' said' known O1 O2 O3 C. unfold reporter_argument. cbn [map concat fst snd]. rewrite app_nil_r.
    change (quote "::" ++ k ++ quote "=" ++ v) with (lit "::" ++ option_text (k, v)). rewrite (reporter_found _ _ _ _ N F V), I. cbn [bind].
    destruct (option_loop_last i p m memory k v (length (lit "::" ++ option_text (k, v))) _ _ _ _ O1 O2 O3 C) as (w & E & W).
    unfold text, str in *. rewrite E. cbn [bind]. exists w. split; [reflexivity|exact W].
Qed.

(** ** Unknown reporters *)
Lemma called_find arg : called arg = match Base.find arg (lit "::") with Some n => firstn n arg | None => arg end.
Proof.
  induction arg as [|c arg IH]; [reflexivity|]. change (lit "::") with [":"%char; ":"%char] in *. cbn [Base.find starts_with].
  assert (X : called (c :: arg) = if aeqb ":" c && (match arg with [] => false | d :: _ => aeqb ":" d && true end) then [] else c :: called arg).
  { destruct (aeqb ":" c) eqn:E; [apply aeqb_eq in E; subst c|].
    - cbn [andb]. destruct arg as [|d arg']; [reflexivity|]. destruct (aeqb ":" d) eqn:F; [apply aeqb_eq in F; subst d; reflexivity|]. cbn [andb].
      destruct d as [[] [] [] [] [] [] [] []]; try reflexivity. discriminate.
    - cbn [andb]. destruct c as [[] [] [] [] [] [] [] []]; try reflexivity. discriminate. }
  rewrite X. destruct (_ && _); [reflexivity|]. rewrite IH. now destruct (Base.find arg _).
Qed.
Lemma reporter_unknown r arg : (forall p, In p (g_reporters r) -> forall options, arg <> reporter_argument (r_name p) options /\ ~ (exists rest, arg = r_name p ++ lit "::" ++ rest)) ->
  exists warnings, parse_reporter lm r arg = Ok (r, map Printed warnings) /\
    let warning := make_colored (lit "warning:") (g_with_color r) color_warning in
    let note := make_colored (lit "note:") (g_with_color r) color_status in
    prints (l_max_message_length lm)
      (if match arg with [] => true | c :: _ => if ascii_dec c ":" then true else false end
       then [[warning; Text (lit " invalid reporter '"); Text arg; Text (lit "', using default" ++ [ascii_of_nat 10])]]
       else [warning; Text (lit " unknown reporter '"); Text (called arg); Text (lit "', using default" ++ [ascii_of_nat 10])] ::
            [note; Text (lit " available reporters:" ++ [ascii_of_nat 10])] ::
            map (fun p => [note; Text (lit "  "); Text (r_name p); Text [ascii_of_nat 10]]) (g_reporters r)) = Ok warnings.
Proof.
  intros H. unfold parse_reporter.
  replace (match arg with [] => true | c :: _ => if ascii_dec c ":" then true else false end) with (match arg with [] => true | c :: _ => aeqb c ":"%char end).
  2:{ destruct arg as [|c arg]; [reflexivity|]. destruct (ascii_dec c ":") as [->|N]; [reflexivity|]. destruct (aeqb c ":") eqn:E; [apply aeqb_eq in E; congruence|reflexivity]. }
  destruct (match arg with [] => true | c :: _ => aeqb c ":"%char end).
  - match goal with |- context [cli_print ?m ?l] => destruct (cli_print_total m l) as (s & E & _) end. rewrite E. cbn [bind]. exists [s]. split; [reflexivity|].
    cbn [prints]. match goal with |- bind ?a _ = _ => assert (X : a = Ok s) by exact E; rewrite X end. reflexivity.
  - match goal with |- context [match ?x with (_, _) => _ end] => set (no := x) end.
    assert (A : arg = fst no ++ snd no /\ (snd no = [] \/ exists rest, snd no = lit "::" ++ rest) /\ fst no = called arg).
    { rewrite called_find. unfold no. destruct (Base.find arg (lit "::")) as [n|] eqn:E; cbn [fst snd].
      - split; [now rewrite firstn_skipn|]. split; [|reflexivity]. right. destruct (find_some _ _ _ E) as (a & b & -> & <- & _). exists b. rewrite skipn_app, skipn_all, Nat.sub_diag. reflexivity.
      - rewrite app_nil_r. auto. }
    destruct no as [name rest]. cbn [fst snd] in A. destruct A as (A1 & A2 & <-).
    rewrite find_reporter_none.
    2:{ intros p Hp E. destruct (H p Hp []) as [H1 H2]. subst name. destruct A2 as [->|(x & ->)].
        - apply H1. unfold reporter_argument. cbn [map concat]. exact A1.
        - apply H2. eauto. }
    match goal with |- context [prints ?m ?l] => destruct (prints_total m l) as (out & E) end. rewrite E. cbn [bind]. exists out. split; [reflexivity|]. exact E.
Qed.

(** ** Registration *)
Lemma add_reporters_spec ps : forall l, length l <= l_max_reporters lm ->
  (length l + length ps <= l_max_reporters lm /\ Forall (fun p => ~ occurs (lit "::") (r_name p)) ps -> add_reporters lm l ps = Ok (l ++ ps)) /\
  (~ (length l + length ps <= l_max_reporters lm /\ Forall (fun p => ~ occurs (lit "::") (r_name p)) ps) -> add_reporters lm l ps = Err Assert).
Proof.
  induction ps as [|p ps IH]; intros l L; cbn [add_reporters length].
  - rewrite app_nil_r. split; [reflexivity|]. intros H. exfalso. apply H. split; [lia|constructor].
  - unfold add_reporter. rewrite csub_ok by exact L. cbn [bind]. destruct (Nat.eqb_spec (l_max_reporters lm - length l) 0) as [Z|Z].
    + cbn [bind]. split; [lia|reflexivity].
    + destruct (Base.find (r_name p) (lit "::")) as [n|] eqn:F; cbn [bind].
      * split; [|reflexivity]. intros [_ H]. inversion H as [|? ? X _]; subst. exfalso. apply X. destruct (find_some _ _ _ F) as (a & b & E & _). exists a, b. exact E.
      * apply find_none_occurs in F. destruct (IH (l ++ [p])) as [I1 I2]; [rewrite app_length; cbn [length]; lia|]. rewrite app_length in *. cbn [length] in *. split.
        -- intros [H1 H2]. inversion H2; subst. rewrite I1; [now rewrite <- app_assoc|]. split; [lia|assumption].
        -- intros H. apply I2. intros [H1 H2]. apply H. split; [lia|constructor; assumption].
Qed.
End Reporters.

(** ** Counterexamples and consequences *)
Definition only_calls (l : list output) : list output := filter (fun o => match o with Initialized _ | Configured _ _ _ => true | _ => false end) l.
Lemma only_calls_app a b : only_calls (a ++ b) = only_calls a ++ only_calls b.
Proof. apply filter_app. Qed.
Lemma only_calls_cons a l : only_calls (a :: l) = only_calls [a] ++ only_calls l.
Proof. apply (only_calls_app [a]). Qed.
Lemma only_calls_printed l : only_calls (map Printed l) = [].
Proof. induction l; auto. Qed.

Lemma two_options lm r p : g_reporters r = [p] -> r_name p = quote "xml" ->
  (forall m, exists x, r_initialize p m = Ok x) -> (forall m memory k v, exists x, r_configure p m memory k v = Ok x) ->
  exists r' out,
    parse_reporter lm r (reporter_argument (quote "xml") [(quote "a", quote "1"); (quote "b", quote "2")]) = Ok (r', out) /\
    filter (fun o => match o with Initialized _ | Configured _ _ _ => true | _ => false end) out =
      [Initialized 0; Configured 0 (quote "b") (quote "2"); Configured 0 (quote "b") (quote "2")].
Proof.
  intros G N I C. unfold parse_reporter. rewrite G. cbn [find_reporter].
  match goal with |- context [reporter_argument ?a ?b] => let v := eval vm_compute in (reporter_argument a b) in change (reporter_argument a b) with v end.
  match goal with |- context [match ?x with (_, _) => _ end] => let v := eval vm_compute in x in change x with v end. cbv iota beta.
  rewrite N. replace (seqb _ _) with true by reflexivity. cbv iota.
  match goal with |- context [Base.find ?a ?b] => let v := eval vm_compute in (Base.find a b) in change (Base.find a b) with v end. cbv iota.
  destruct (I (modes_of r)) as ([[memory m] said] & ->). cbn [bind].
  match goal with |- context [option_loop lm ?n 0 p m memory ?o] => set (num := n); set (opts := o) end.
  assert (ST : forall mo me n o, find_from o (lit "::") 2 = Some 5 /\ skipn 5 o = lit "::b=2" \/ find_from o (lit "::") 2 = None /\ o = lit "::b=2" ->
    exists mo' me' pr, option_loop lm (S n) 0 p mo me o =
      match find_from o (lit "::") 2 with
      | Some _ => do (a, b, rest) <- option_loop lm n 0 p mo' me' (lit "::b=2") ;; Ok (a, b, Configured 0 (lit "b") (lit "2") :: map Printed pr ++ rest)
      | None => Ok (mo', me', Configured 0 (lit "b") (lit "2") :: map Printed pr)
      end).
  { intros mo me n o O. cbn [option_loop].
    destruct (C mo me (lit "b") (lit "2")) as ([[[me' mo'] said'] known] & CE). exists mo', me'.
    assert (W : exists w, (if known : bool then Ok [] else do s <- cli_print (mm lm) [warning_prefix (m_color mo'); Text (lit " unknown reporter option '"); Text (lit "b"); Text (lit "'" ++ newline)] ;; Ok [s]) = Ok w).
    { destruct known; [eauto|]. match goal with |- context [cli_print ?m ?l] => destruct (cli_print_total m l) as (s & E & _) end. rewrite E. cbn [bind]. eauto. }
    destruct W as (w & W). exists (said' ++ w).
    destruct O as [[-> ->]|[E ->]].
    - replace (substr_from (lit "::b=2") 2) with (Ok (lit "b=2")) by reflexivity. cbn [bind].
      replace (Base.find (firstn 5 (lit "b=2")) (lit "=")) with (Some 1) by reflexivity.
      change (firstn 1 (firstn 5 (lit "b=2"))) with (lit "b"). change (skipn (1 + 1) (firstn 5 (lit "b=2"))) with (lit "2").
      rewrite CE. cbn [bind]. rewrite W. cbn [bind]. reflexivity.
    - rewrite E. replace (substr_from (lit "::b=2") 2) with (Ok (lit "b=2")) by reflexivity. cbn [bind].
      replace (Base.find (lit "b=2") (lit "=")) with (Some 1) by reflexivity.
      change (firstn 1 (lit "b=2")) with (lit "b"). change (skipn (1 + 1) (lit "b=2")) with (lit "2").
      rewrite CE. cbn [bind]. rewrite W. cbn [bind]. now rewrite app_nil_r. }
  destruct (ST m memory (pred num) opts) as (m1 & me1 & pr1 & E1); [left; split; reflexivity|].
  replace (S (pred num)) with num in E1 by reflexivity. rewrite E1. replace (find_from opts (lit "::") 2) with (Some 5) by reflexivity.
  destruct (ST m1 me1 (pred (pred num)) (lit "::b=2")) as (m2 & me2 & pr2 & E2); [right; split; reflexivity|].
  replace (S (pred (pred num))) with (pred num) in E2 by reflexivity. rewrite E2. replace (find_from (lit "::b=2") (lit "::") 2) with (@None nat) by reflexivity. cbn [bind].
  do 2 eexists. split; [reflexivity|]. match goal with |- filter _ ?x = ?y => change (only_calls x = y) end.
  rewrite (only_calls_cons (Initialized 0)), only_calls_app, only_calls_printed, (only_calls_cons (Configured 0 _ _) (_ ++ _)), only_calls_app, only_calls_printed,
    (only_calls_cons (Configured 0 _ _) (map _ _)), only_calls_printed. reflexivity.
Qed.

Lemma colours_disagree lm r can_open : 4 <= l_max_command_line_args lm ->
  let argv := [quote "--color"; quote "never"; quote "--colour-mode"; quote "ansi"] in
  exists args r', parse_arguments (cli_of lm) (quote "t") argv = Ok ([], Some args) /\ configure lm can_open r args = Ok (r', []) /\
    parse_color_options (cli_of lm) (quote "t") argv = Ok ([], true) /\ g_with_color r' = false.
Proof.
  intros L argv. assert (LA : length argv <= c_max_args (cli_of lm)) by exact L. assert (A : acceptable argv).
  { apply accepted_acceptable. vm_compute. reflexivity. }
  destruct (parse_arguments_spec (cli_of lm) (quote "t") argv LA) as (out & res & P & X & _). destruct (X A) as (-> & c & PC & F).
  assert (U : unknown (read argv) = []) by (vm_compute; reflexivity). rewrite U in F. inversion F; subst out. clear X F U.
  match type of P with _ = Ok (_, Some ?a) => exists a, (set_with_color (set_with_color r true) false) end. split; [exact P|]. split; [|split].
  - match goal with |- context [recorded ?a ?b] => let v := eval vm_compute in (recorded a b) in change (recorded a b) with v end.
    match goal with |- context [extract_executable ?a] => let v := eval vm_compute in (extract_executable a) in change (extract_executable a) with v end.
    reflexivity.
  - rewrite (parse_colors_spec (cli_of lm) (quote "t") argv LA A). reflexivity.
  - reflexivity.
Qed.

Lemma exact_name lm r ps i p : add_reporters lm [] ps = Ok (g_reporters r) -> nth_error ps i = Some p ->
  (forall j q, j < i -> nth_error ps j = Some q -> r_name q <> r_name p) ->
  r_name p <> [] -> hd_error (r_name p) <> Some ":"%char ->
  parse_reporter lm r (r_name p) =
    match r_initialize p (modes_of r) with
    | Ok (memory, m, said) => Ok (set_reporter r i m (Holds p memory), Initialized i :: map Printed said)
    | Err e => Err e
    end.
Proof.
  intros AR N F NE H. destruct (add_reporters_spec lm ps [] ltac:(cbn; lia)) as [A1 A2].
  assert (NN : ~ ~ (length (@nil reporter) + length ps <= l_max_reporters lm /\ Forall (fun p => ~ occurs (lit "::") (r_name p)) ps)).
  { intros X. rewrite (A2 X) in AR. discriminate. }
  assert (NO : ~ occurs (lit "::") (r_name p)).
  { intros O. apply NN. intros [_ X]. rewrite Forall_forall in X. apply (X p); [now apply nth_error_In in N|exact O]. }
  assert (G : g_reporters r = ps).
  { destruct (add_reporters lm [] ps) eqn:E; [|discriminate]. injection AR as ->.
    assert (D : length ps <= l_max_reporters lm \/ ~ length ps <= l_max_reporters lm) by lia.
    destruct D as [D|D]; [|exfalso; apply NN; intros [X _]; cbn [length] in X; lia].
    assert (FA : Forall (fun p => ~ occurs (lit "::") (r_name p)) ps).
    { apply Forall_forall. intros q Hq O. apply NN. intros [_ X]. rewrite Forall_forall in X. apply (X q Hq O). }
    specialize (A1 (conj D FA)). injection A1 as ->. reflexivity. }
  rewrite <- G in N, F. rewrite (reporter_found_alone lm r i p N F (conj NE (conj H NO))).
  destruct (r_initialize p (modes_of r)) as [[[memory m] said]|]; reflexivity.
Qed.

Lemma same_name lm r p q : 2 <= l_max_reporters lm -> r_name p = quote "xml" -> r_name q = quote "xml" ->
  add_reporters lm [] [p; q] = Ok [p; q] /\
  (g_reporters r = [p; q] -> parse_reporter lm r (quote "xml") =
    match r_initialize p (modes_of r) with
    | Ok (memory, m, said) => Ok (set_reporter r 0 m (Holds p memory), Initialized 0 :: map Printed said)
    | Err e => Err e
    end).
Proof.
  intros L P Q. assert (NO : ~ occurs (lit "::") (quote "xml")) by (apply find_none_occurs; vm_compute; reflexivity).
  assert (AR : add_reporters lm [] [p; q] = Ok [p; q]).
  { apply (proj1 (add_reporters_spec lm [p; q] [] ltac:(cbn; lia))). split; [exact L|]. repeat constructor; [rewrite P|rewrite Q]; exact NO. }
  split; [exact AR|]. intros G. rewrite <- P. apply (exact_name lm r [p; q] 0 p).
  - now rewrite G.
  - reflexivity.
  - intros j z X. lia.
  - rewrite P. discriminate.
  - rewrite P. discriminate.
Qed.

Lemma print_after_run lm fuel can_open r r1 r2 args out1 out2 success s :
  get_option args (quote "--out") <> None -> configure lm can_open r args = Ok (r1, out1) ->
  run_tests lm fuel r1 args = Ok (r2, out2, success) -> print_text r2 s = Err UB.
Proof.
  intros O C R. apply run_tests_inv in R as (o & _ & -> & _ & _). unfold print_text, set_file. cbn [g_to_file g_file].
  apply configure_steps in C as (r3 & b1 & o1 & r4 & b2 & o2 & r5 & o3 & r6 & o4 & o5 & S1 & S2 & S3 & S4 & S5 & ->).
  apply reporter_step_effect in S5 as (_ & R5). change (quote "--out") with (lit "--out") in O. destruct (get_option args (lit "--out")) as [a|]; [|contradiction].
  unfold ConfigProofs.file_step in S4. destruct (value_of a) as [v|]; cbn [bind] in S4; [|discriminate].
  destruct (open_file _ _ _) as [p|]; cbn [bind] in S4; [|discriminate]. injection S4 as <- <-.
  destruct R5 as [->|(i & q & m & memory & _ & -> & _)]; destruct b2; reflexivity.
Qed.

Lemma open_file_good mp can_open path : ~ In zero path -> length path <> S mp ->
  open_file mp can_open path = if length path <=? mp then (if can_open path then Ok path else Err Assert) else Err Assert.
Proof. intros NZ NE. rewrite open_file_spec by exact NZ. destruct (length path <=? mp); [reflexivity|]. destruct (Nat.eqb_spec (length path) (S mp)); [contradiction|reflexivity]. Qed.

Lemma open_file_off_by_one mp can_open path : ~ In zero path -> length path = S mp -> open_file mp can_open path = Err UB.
Proof. intros NZ E. rewrite open_file_spec, E, Nat.eqb_refl by exact NZ. destruct (Nat.leb_spec (S mp) mp); [lia|reflexivity]. Qed.
