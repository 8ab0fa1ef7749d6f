From Verif.Spec Require Import TextSpec FilterSpec PrintSpec CliSpec ConsoleSpec HelpSpec.
From Verif.Model Require Import Base Vector StringUtil Run Print Cli.
From Verif.Proofs Require Import Lists VectorProofs AppendProofs PrintProofs CliProofs CliFacts.

(** ** Printing what fits *)
Definition solid (p : piece) : Prop := match p with Colored value _ _ => value <> [] | _ => True end.
Definition whole (l : list piece) : text := List.concat (map rendered l).

Lemma cli_print_fit mm l : Forall solid l -> length (whole l) <= mm -> cli_print mm l = Ok (whole l).
Proof.
  intros S0 L. unfold cli_print.
  destruct (append_pieces_fit l (new_string mm) (wf_new mm)) as (ss & E & _ & _ & K).
  - intros a p b E. subst l. unfold whole in L. rewrite map_app, concat_app in L. cbn [map List.concat] in L. rewrite !app_length in L.
    rewrite vcap_new. change (length (vcontent (new_string mm))) with 0. cbn [Nat.add]. split; [lia|].
    destruct p as [| |value start stop]; auto. cbn [rendered] in L. rewrite !app_length in *.
    apply Forall_app in S0 as [_ S0]. inversion S0 as [|x y X _]; subst. cbn in X. destruct value; [congruence|]. cbn [length] in L. lia.
  - rewrite E. cbn [bind]. rewrite K. reflexivity.
Qed.

Lemma prints_fit mm l : Forall (fun p => Forall solid p /\ length (whole p) <= mm) l -> prints mm l = Ok (map whole l).
Proof.
  induction l as [|p l IH]; intros F; cbn [prints map]; [reflexivity|]. inversion F as [|x y [F1 F2] F3]; subst.
  rewrite (cli_print_fit mm p F1 F2). cbn [bind]. rewrite (IH F3). reflexivity.
Qed.

Lemma rendered_painted color k start s : start = esc ++ lit "[1;" ++ colour_code k ++ lit "m" ->
  rendered (make_colored s color start) = painted color k s.
Proof. intros ->. unfold make_colored, painted. destruct color; cbn [rendered]; [rewrite <- !app_assoc; reflexivity|now rewrite app_nil_r]. Qed.

(** ** The help text *)
Definition heading_parts (e : expected) : list str :=
  match e_names e with
  | [] => match e_value_name e with Some v => [lit "<"; v; lit ">"] | None => [] end
  | n :: others =>
    (if starts_with n dashes then [lit "    "] else []) ++ [n] ++
    (match others with [n'] => [lit ", "; n'] | _ => [] end) ++
    (match e_value_name e with Some v => [lit " <"; v; lit ">"] | None => [] end)
  end.
Lemma heading_fit mm e : is_option e || has_value e = true -> length (List.concat (heading_parts e)) <= mm ->
  heading mm e = Ok (List.concat (heading_parts e)).
Proof.
  intros H L. unfold heading, is_option, has_value, heading_parts in *.
  assert (G : forall l, length (List.concat l) <= mm ->
    (do (ss, success) <- append_all (new_string mm) l ;; do ss' <- (if success : bool then Ok ss else truncate_end ss) ;; Ok (vcontent ss')) = Ok (List.concat l)).
  { intros l Ll. destruct (append_all_content l (new_string mm) (wf_new mm)) as (ss & E & _ & _ & K). rewrite E. cbn [bind].
    rewrite vcap_new in *. change (vcontent (new_string mm)) with (@nil ascii) in *. cbn [app] in *.
    rewrite firstn_all2 in K by exact Ll. destruct (Nat.leb_spec (length (List.concat l)) mm); [|lia]. cbn [bind]. now rewrite K. }
  destruct (e_names e); [destruct (e_value_name e); [|discriminate]|]; cbn [bind]; apply G; exact L.
Qed.

Definition line_of (color : bool) (e : expected) : list piece :=
  [Text (lit "  "); make_colored (List.concat (heading_parts e)) color color_highlight1; Text (lit " "); Text (e_description e); Text newline].
Lemma listing_fit mm color l : forallb (fun e => is_option e || has_value e) l = true ->
  Forall (fun e => length (List.concat (heading_parts e)) <= mm) (filter (fun e => negb (e_ignored e)) l) ->
  listing mm color l = Ok (map (line_of color) (filter (fun e => negb (e_ignored e)) l)).
Proof.
  induction l as [|e l IH]; intros H F; cbn [listing filter] in *; [reflexivity|]. cbn [forallb] in H. apply andb_true_iff in H as [H1 H2].
  destruct (e_ignored e); cbn [negb] in *; [auto|]. inversion F; subst. rewrite heading_fit by auto. cbn [bind]. rewrite IH by auto. reflexivity.
Qed.

Lemma whole_line color e : whole (line_of color e) = option_line (painted color) (List.concat (heading_parts e)) (e_description e).
Proof.
  unfold whole, line_of, option_line. cbn [map List.concat rendered]. rewrite (rendered_painted color Name) by reflexivity. now rewrite app_nil_r.
Qed.

Lemma painted_length color k s : length s <= length (painted color k s).
Proof. unfold painted. destruct color; [|auto]. rewrite !app_length. lia. Qed.

Section General.
Variable args : list expected.
Variable cc : cli_config.
Variable program : text.
Variable color : bool.
Notation filters := (option_lines (painted color) ++ [option_line (painted color) (quote "<test regex>") (quote "A regex to select which test cases to run")]).
Definition help_of : res (list str) :=
  let description := lit "Test runner (snitch v" ++ c_version cc ++ lit " | compatible with Catch2 v3.4.0)" in
  do u <- usages args ;;
  do r <- listing (c_max_message cc) color args ;;
  prints (c_max_message cc)
    ([[make_colored description color color_highlight2; Text newline];
      [make_colored (lit "Usage:") color color_pass; Text newline];
      [Text (lit "  "); Text program]] ++
     (if existsb is_option args then [[Text (lit " [options...]")]] else []) ++
     u ++ [[Text (newline ++ newline)]] ++ r).
Hypothesis U : usages args = Ok [[Text (lit " [<"); Text (lit "test regex"); Text (lit ">...]")]].
Hypothesis FI : forallb (fun e => is_option e || has_value e) args = true.
Hypothesis OP : existsb is_option args = true.
Hypothesis SH : forall e, In e (filter (fun e => negb (e_ignored e)) args) -> List.concat (heading_parts e) <> [].
Hypothesis SL : map whole (map (line_of color) (filter (fun e => negb (e_ignored e)) args)) = filters.
Lemma help_general :
  Forall (fun line => length line <= c_max_message cc) (help_lines (painted color) program (c_version cc)) ->
  exists out, help_of = Ok out /\ List.concat out = List.concat (help_lines (painted color) program (c_version cc)).
Proof using U FI OP SH SL.
  intros F. unfold help_lines in F. apply Forall_app in F as [F1 F2]. rewrite <- SL in F2.
  assert (FL : Forall (fun e => length (whole (line_of color e)) <= c_max_message cc) (filter (fun e => negb (e_ignored e)) args)).
  { rewrite map_map in F2. now rewrite Forall_map in F2. }
  unfold help_of. remember (lit "Test runner (snitch v" ++ c_version cc ++ lit " | compatible with Catch2 v3.4.0)") as d eqn:Ed.
  rewrite U. cbn [bind]. rewrite listing_fit.
  2: exact FI.
  2: { eapply Forall_impl; [|exact FL]. intros e He. cbv beta in He. rewrite whole_line in He. unfold option_line in He. rewrite !app_length in He.
       pose proof (painted_length color Name (List.concat (heading_parts e))). lia. }
  cbn [bind]. rewrite OP. cbv iota.
  inversion F1 as [|x1 y1 B1 F3]; subst x1 y1. inversion F3 as [|x1 y1 B2 F4]; subst x1 y1. inversion F4 as [|x1 y1 B3 F5]; subst x1 y1. inversion F5 as [|x1 y1 B4 F6]; subst x1 y1.
  clear F1 F3 F4 F5 F6. assert (B1' : length (painted color Value d ++ feed) <= c_max_message cc) by (subst d; exact B1).
  assert (W1 : whole [make_colored d color color_highlight2; Text newline] = painted color Value d ++ feed).
  { unfold whole. cbn [map List.concat rendered]. rewrite (rendered_painted color Value) by reflexivity. now rewrite app_nil_r. }
  assert (W2 : whole [make_colored (lit "Usage:") color color_pass; Text newline] = painted color Good (quote "Usage:") ++ feed).
  { unfold whole. cbn [map List.concat rendered]. rewrite (rendered_painted color Good) by reflexivity. now rewrite app_nil_r. }
  assert (L3 : length (quote "  " ++ program ++ quote " [options...] [<test regex>...]" ++ feed) = 2 + length program + (13 + 19)) by (rewrite !app_length; cbn; lia).
  pose proof (eq_ind _ (fun n => n <= c_max_message cc) B3 _ L3) as B5. cbv beta in B5. clear B3. rewrite prints_fit.
  - eexists. split; [reflexivity|]. cbn [app map]. rewrite W1, W2, SL. unfold help_lines.
    change (quote "Test runner (snitch v" ++ c_version cc ++ quote " | compatible with Catch2 v3.4.0)") with (lit "Test runner (snitch v" ++ c_version cc ++ lit " | compatible with Catch2 v3.4.0)").
    unfold text, str in *. rewrite <- Ed.
    generalize (option_lines (painted color) ++ [option_line (painted color) (quote "<test regex>") (quote "A regex to select which test cases to run")]).
    intros l. cbn [app List.concat map]. unfold whole. cbn [map List.concat rendered]. rewrite <- !app_assoc. cbn [app]. reflexivity.
  - apply Forall_app. split; [|apply Forall_app; split; [|apply Forall_app; split; [|apply Forall_app; split]]].
    + constructor; [|constructor; [|constructor; [|constructor]]].
      * split; [|rewrite W1; exact B1']. constructor; [|repeat constructor]. cbn. rewrite Ed. discriminate.
      * split; [|rewrite W2; exact B2]. constructor; [|repeat constructor]. cbn. discriminate.
      * split; [repeat constructor|]. unfold whole. cbn [map List.concat rendered]. rewrite !app_length. cbn [length]. change (length (lit "  ")) with 2. lia.
    + constructor; [|constructor]. split; [repeat constructor|]. change (length (whole [Text (lit " [options...]")])) with 13. lia.
    + constructor; [|constructor]. split; [repeat constructor|]. change (length (whole [Text (lit " [<"); Text (lit "test regex"); Text (lit ">...]")])) with 18. lia.
    + constructor; [|constructor]. split; [repeat constructor|]. change (length (whole [Text (newline ++ newline)])) with 2. lia.
    + apply Forall_map. clear - FL SH. rewrite Forall_forall in *. intros e He. split; [|now apply FL]. pose proof (SH e He). repeat constructor. assumption.
Qed.
End General.

Lemma shown_headings : forall e, In e (filter (fun e => negb (e_ignored e)) expected_args) -> List.concat (heading_parts e) <> [].
Proof. apply Forall_forall. vm_compute. repeat constructor; discriminate. Qed.
Lemma shown_lines color : map whole (map (line_of color) (filter (fun e => negb (e_ignored e)) expected_args)) =
  option_lines (painted color) ++ [option_line (painted color) (quote "<test regex>") (quote "A regex to select which test cases to run")].
Proof. destruct color; vm_compute; reflexivity. Qed.

Strategy expand [print_help help_of].
Lemma print_help_eq cc program color : print_help cc program color = help_of expected_args cc program color.
Proof. unfold print_help, help_of. reflexivity. Qed.

Lemma print_help_text cc program color :
  Forall (fun line => length line <= c_max_message cc) (help_lines (painted color) program (c_version cc)) ->
  exists out, print_help cc program color = Ok out /\ List.concat out = List.concat (help_lines (painted color) program (c_version cc)).
Proof.
  rewrite print_help_eq. apply (help_general expected_args cc program color).
  - vm_compute. reflexivity.
  - vm_compute. reflexivity.
  - vm_compute. reflexivity.
  - exact shown_headings.
  - exact (shown_lines color).
Qed.
