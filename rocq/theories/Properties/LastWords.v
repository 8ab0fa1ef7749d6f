(** Property C88: what a program says when a test exceeds a limit. *)
From Coq Require Import NArith.
From Verif.Spec Require Import TextSpec FilterSpec PrintSpec NumberSpec Events RunSpec LastWordsSpec.
From Verif.Model Require Import Base Vector StringUtil Print Filter Run Cli Session Reporters Register LastWords.
From Verif.Proofs Require Import RunFacts LastWordsProofs.
Local Open Scope string_scope.
Local Open Scope list_scope.
Local Open Scope nat_scope.

(** ** C88. A test that exceeds a limit says which one, after everything that was reported until then *)

(** [said_run] is [run] with the last words: it ends well in the same cases, with the same result. Any test body, also when it
    throws, has sections in checks or in [try] blocks. *)
Theorem C88_same_outcome :
  forall (color : bool) (cf : config) (fuel : nat) (t : test_case) (before : list event),
  40 <= cf_max_message_length cf -> (N.of_nat (cf_max_nested cf) < 2 ^ 64)%N -> (N.of_nat (cf_max_captures cf) < 2 ^ 64)%N ->
  match said_run color cf fuel t before with
  | Done st => run cf fuel t before = Ok st
  | Died _ _ _ => run cf fuel t before = Err Assert
  | Broken e => run cf fuel t before = Err e
  end.
Proof. exact same_fate. Qed.
Print Assumptions C88_same_outcome.

(** If it dies, the body exceeds a limit, and this limit is the one the handler is told about. What was reported before stays.
    The text printed names the option to change and its value, except for [Places], where nothing is printed. *)
Theorem C88_words_partial :
  forall (color : bool) (cf : config) (fuel : nat) (t : test_case) (before : list event) (tags : list text) (may should : bool)
    (events : list event) (printed : list str) (told : str),
  id_tags (t_id t) = tag_string tags -> well_formed (cf_max_tag_length cf) tags -> tagged tags may should ->
  40 <= cf_max_message_length cf -> (N.of_nat (cf_max_nested cf) < 2 ^ 64)%N -> (N.of_nat (cf_max_captures cf) < 2 ^ 64)%N ->
  said_run color cf fuel t before = Died events printed told ->
  continues before events /\
  exists l, exceeded (cf_max_nested cf) (cf_max_captures cf) l (t_body t) /\ told = message l /\
    explained (rendered (make_colored (quote "error:") color color_fail)) (cf_max_nested cf) (cf_max_captures cf) l printed.
Proof. exact words. Qed.
Print Assumptions C88_words_partial.

(** Larger limits change nothing until then: what was reported when the program died is the beginning of what is reported with
    larger limits, where the test ends well or dies later. [Fuel] is the bound on the number of passes. *)
Theorem C88_until :
  forall (color : bool) (cf : config) (nested captures fuel : nat) (t : test_case) (before : list event) (tags : list text) (may should : bool)
    (events : list event) (printed : list str) (told : str),
  id_tags (t_id t) = tag_string tags -> well_formed (cf_max_tag_length cf) tags -> tagged tags may should ->
  40 <= cf_max_message_length cf -> (N.of_nat nested < 2 ^ 64)%N -> (N.of_nat captures < 2 ^ 64)%N ->
  cf_max_nested cf <= nested -> cf_max_captures cf <= captures ->
  said_run color cf fuel t before = Died events printed told ->
  match said_run color (mkconfig (cf_verbosity cf) nested captures (cf_max_capture_length cf) (cf_max_message_length cf) (cf_max_tag_length cf)) fuel t before with
  | Done st => continues events (trace st)
  | Died events' _ _ => continues events events'
  | Broken e => e = Fuel
  end.
Proof. exact until. Qed.
Print Assumptions C88_until.

(** A check in a check in a check, with no section: the handler is told that a vector is full, and nothing says which limit to
    increase. *)
Definition check (line : nat) (evaluating k : prog) : prog := Check line (IsTrue (fun _ => Message []) (fun _ => true)) false evaluating k.
Theorem C88_words_refuted :
  exists (cf : config) (fuel : nat) (t : test_case) (events : list event) (printed : list str) (told : str),
  40 <= cf_max_message_length cf /\ said_run false cf fuel t [] = Died events printed told /\
  nesting (t_body t) = 0 /\ ~ cf_max_nested cf < nesting (t_body t) /\ ~ cf_max_captures cf < capturing (t_body t) /\
  printed = [] /\ told = quote "small vector is full".
Proof.
  exists (mkconfig Quiet 1 1 10 60 20), 1, (mktest plain_id 0 (check 1 (check 2 (check 3 Nil Nil) Nil) Nil)). do 3 eexists.
  split; [vm_compute; repeat constructor|]. split; [vm_compute; reflexivity|]. vm_compute. repeat split; intros H; inversion H.
Qed.
Print Assumptions C88_words_refuted.

Definition sec (name : string) (line : nat) : section_id := mksec (quote name) [] line.
(** act 7; SECTION("A") { act 8; SECTION("B") { CAPTURE(x, y); act 9; } } *)
Definition deep : prog :=
  Act 7 (InSection (sec "A" 1) (Act 8 (InSection (sec "B" 2) (Capture [fun _ => [quote "x"]; fun _ => [quote "y"]] (Act 9 Nil) Nil) Nil)) Nil).
Example C88_example :
  let say cf := match said_run false cf 1 (mktest plain_id 0 deep) [] with
                | Died events printed told => Some (events, concat (last_words printed told))
                | _ => None
                end in
  let line_feed := [ascii_of_nat 10] in
  (** one level of sections *)
  say (mkconfig Quiet 1 2 10 60 20) = Some ([User 7; User 8],
    quote "error: max number of nested sections reached; please increase 'SNITCH_MAX_NESTED_SECTIONS' (currently 1)" ++ line_feed ++
    quote ".terminate called with message: max number of nested sections reached" ++ line_feed) /\
  (** one capture *)
  say (mkconfig Quiet 2 1 10 60 20) = Some ([User 7; User 8],
    quote "error: max number of captures reached; please increase 'SNITCH_MAX_CAPTURES' (currently 1)" ++ line_feed ++
    quote ".terminate called with message: max number of captures reached" ++ line_feed) /\
  (** enough *)
  say (mkconfig Quiet 2 2 10 60 20) = None /\
  nesting deep = 2 /\ capturing deep = 2 /\ scopes deep = 2.
Proof. vm_compute. repeat split. Qed.
