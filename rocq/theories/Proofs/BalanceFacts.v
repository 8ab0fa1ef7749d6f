(** Starts and ends of sections in runs (C65), and a run that breaks the balance. *)
From Verif.Spec Require Import TextSpec FilterSpec PrintSpec NumberSpec Events RunSpec VerdictSpec TreeSpec SessionSpec ProgramSpec XmlSpec CliSpec.
From Verif.Model Require Import Base Vector StringUtil Filter Run Cli File Session Reporters Program.
From Verif.Proofs Require Import Lists TreeProofs AbortProofs BalanceProofs RunFacts.
From Coq Require Import Lia.
Local Open Scope string_scope.
Local Open Scope list_scope.
Local Open Scope nat_scope.

Theorem run_balanced cf fuel id line p tags may should :
  cf_verbosity cf = Full -> id_tags id = tag_string tags -> well_formed (cf_max_tag_length cf) tags -> tagged tags may should ->
  regular p -> nesting p <= cf_max_nested cf -> scopes p <= S (cf_max_nested cf) -> capturing p <= cf_max_captures cf -> Nat.max 1 (leaves p) <= fuel ->
  exists st, run cf fuel (mktest id line p) [] = Ok st /\ ends_after_start (brackets (trace st)).
Proof.
  intros V T W F R N SC C L. destruct (follows_specification cf fuel id line p [] tags may should V T W F R N SC C L) as (st & E & TR).
  exists st. split; [exact E|]. apply climbs_ends. intros f.
  destruct (balanced_case f id may should (cf_max_capture_length cf) (cf_max_message_length cf) line p R) as (body & c & s & k & E2 & K).
  rewrite TR, E2. cbn [fst app]. exists k. unfold brackets in *. cbn [flat_map app]. rewrite flat_map_app. cbn [flat_map app]. rewrite !app_nil_r. exact K.
Qed.

(** try { SECTION("A") { SECTION("B") {} SECTION("C") { throw; } SECTION("D") {} } } catch (...) { notify_exception_handled(); } *)
Definition caught : prog :=
  Catch (fun _ => true) true
    (InSection (sec "A" 1) (InSection (sec "B" 2) Nil (InSection (sec "C" 3) (Throw (fun _ => true) OtherExn Nil) (InSection (sec "D" 4) Nil Nil))) Nil) Nil.
Lemma caught_brackets :
  shown_brackets (run small 5 (mktest plain_id 0 caught) []) =
    Some [Start (sec "A" 1); Start (sec "B" 2); End (sec "B" 2); Start (sec "C" 3); End (sec "C" 3); End (sec "A" 1);
          Start (sec "D" 4); End (sec "D" 4); End (sec "A" 1)].
Proof. vm_compute. reflexivity. Qed.
Theorem balance_refuted : exists p st, run small 5 (mktest plain_id 0 p) [] = Ok st /\ ~ ends_after_start (brackets (trace st)).
Proof.
  exists caught. destruct (run small 5 (mktest plain_id 0 caught) []) as [st|] eqn:E; [|vm_compute in E; discriminate].
  exists st. split; [reflexivity|]. intros B. pose proof caught_brackets as S. rewrite E in S. cbn [shown_brackets] in S. injection S as S. rewrite S in B.
  specialize (B (fun s => true) _ [] (eq_sym (app_nil_r _))). vm_compute in B. lia.
Qed.

(** With the XML reporter, the depth of the document becomes negative. *)
Definition caught_program (reporters : list reporter) : registry :=
  mkregistry [mktest plain_id 0 caught] reporters Full false None None false Vacant.
Definition caught_limits : Session.limits := mklimits 5 5 40 60 20 40 8 32 3 12 false (lit "1.2").
Definition caught_xml : reporter := xml_reporter caught_limits (fun _ => quote "f") (fun _ => None).
Theorem xml_balance_refuted :
  main_program caught_limits 5 (fun _ => quote "f") (fun _ => None) (fun _ => true) (caught_program [caught_xml]) (quote "p") [quote "--reporter"; quote "xml"] = Err Wrap.
Proof. vm_compute. reflexivity. Qed.
