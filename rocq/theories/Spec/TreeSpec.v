(** What the sections of a test body ask for (C22-C28), read off the body directly. No reference to the model. *)
From Coq Require Import Arith Ascii String Bool List.
From Verif.Spec Require Import TextSpec FilterSpec Events RunSpec.
Import ListNotations.
Local Open Scope list_scope.

(** ** Bodies that always run to their end: no skip, exceptions only inside the checks that look for them, and
    REQUIRE only on what always holds. *)

(** Code without observable effects: it can only throw and catch. *)
Fixpoint mute (p : prog) : Prop :=
  match p with
  | Nil => True
  | Throw _ _ k => mute k
  | Catch _ notify b k => notify = true /\ mute b /\ mute k
  | Capture _ b k => mute b /\ mute k
  | Act _ _ | Check _ _ _ _ _ | Skip _ _ _ _ | InSection _ _ _ => False
  end.
Fixpoint plain (p : prog) : Prop :=
  match p with
  | Nil => True
  | Act _ k => plain k
  | Throw _ _ _ | Skip _ _ _ _ | Catch _ _ _ _ => False
  | Check _ w abort e k =>
    match w with
    | IsTrue _ outcome => (flat e /\ plain e) /\ (abort = true -> forall pass, outcome pass = true)
    | _ => (mute e \/ flat e /\ plain e) /\ abort = false
    end /\ plain k
  | InSection _ b k | Capture _ b k => plain b /\ plain k
  end.

(** ** One pass over the body (C22) *)

(** What a pass does, in order: effects of the user's code and checks, the latter with the sections around them. *)
Inductive step := Did (n : nat) | Checked (sections : list section_id) (line : nat).

(** The pass for leaf section number [j] of [p] (in source order, from 0), below the sections [around]; [None]:
    no section of [p] is entered. Code outside sections is executed in each pass; a section is entered if it
    contains the leaf, or is the leaf. A check first executes the code it evaluates. *)
Fixpoint visit (around : list section_id) (leaf : option nat) (p : prog) : list step :=
  match p with
  | Nil => []
  | Act n k => Did n :: visit around leaf k
  | Check line _ _ e k => visit around None e ++ Checked around line :: visit around leaf k
  | Capture _ b k =>
    visit around leaf b ++
    visit around (match leaf with Some j => if j <? leaves b then None else Some (j - leaves b) | None => None end) k
  | InSection s b k =>
    match leaf with
    | None => visit around None k
    | Some j =>
      if j <? Nat.max 1 (leaves b)
      then visit (around ++ [s]) leaf b ++ visit around None k
      else visit around (Some (j - Nat.max 1 (leaves b))) k
    end
  | Throw _ _ _ | Skip _ _ _ _ | Catch _ _ _ _ => []
  end.

(** The steps visible in a list of events. *)
Definition steps {ID} (l : list (event ID)) : list step :=
  flat_map (fun e => match e with
                     | User n => [Did n]
                     | AssertionFailed _ sections _ l _ _ _ | AssertionSucceeded _ sections _ l _ =>
                       [Checked sections (loc_line l)]
                     | _ => []
                     end) l.

(** ** Section events (C23) *)
Inductive bracket := Start (s : section_id) | End (s : section_id).

(** The tree of sections, as started and ended by a depth-first walk. *)
Fixpoint walk (p : prog) : list bracket :=
  match p with
  | Nil => []
  | Act _ k | Throw _ _ k | Skip _ _ _ k => walk k
  | Check _ _ _ e k => walk e ++ walk k
  | InSection s b k => Start s :: walk b ++ End s :: walk k
  | Capture _ b k | Catch _ _ b k => walk b ++ walk k
  end.

Definition brackets {ID} (l : list (event ID)) : list bracket :=
  flat_map (fun e => match e with SectionStarted s => [Start s] | SectionEnded s _ _ => [End s] | _ => [] end) l.

(** Properly nested brackets. *)
Inductive nested : list bracket -> Prop :=
| nested_nil : nested []
| nested_section s a b : nested a -> nested b -> nested (Start s :: a ++ End s :: b).

(** ** Where checks and throws stand in the body (C26, C27) *)

(** [stands max_capture pass p q sections captures]: the code [q] appears in [p], inside exactly these sections
    (outermost first) and these captures (in order of declaration), with the texts of pass number [pass]. *)
Inductive stands (max_capture pass : nat) : prog -> prog -> list section_id -> list text -> Prop :=
| at_here p : stands max_capture pass p p [] []
| at_act n k q s c : stands max_capture pass k q s c -> stands max_capture pass (Act n k) q s c
| at_throw w x k q s c : stands max_capture pass k q s c -> stands max_capture pass (Throw w x k) q s c
| at_skip l m a k q s c : stands max_capture pass k q s c -> stands max_capture pass (Skip l m a k) q s c
| at_checked l w a e k q s c : stands max_capture pass e q s c -> stands max_capture pass (Check l w a e k) q s c
| at_check l w a e k q s c : stands max_capture pass k q s c -> stands max_capture pass (Check l w a e k) q s c
| at_inside sec b k q s c : stands max_capture pass b q s c -> stands max_capture pass (InSection sec b k) q (sec :: s) c
| at_after sec b k q s c : stands max_capture pass k q s c -> stands max_capture pass (InSection sec b k) q s c
| at_captured l b k q s c : stands max_capture pass b q s c ->
    stands max_capture pass (Capture l b k) q s (map (fun x => fit max_capture (List.concat (x pass))) l ++ c)
| at_uncaptured l b k q s c : stands max_capture pass k q s c -> stands max_capture pass (Capture l b k) q s c
| at_try f n b k q s c : stands max_capture pass b q s c -> stands max_capture pass (Catch f n b k) q s c
| at_handled f n b k q s c : stands max_capture pass k q s c -> stands max_capture pass (Catch f n b k) q s c.

(** The event is the report of a check, or of a skip, of the body [p] executed in pass number [pass]: it carries the
    sections and captures in which the check stands, its line (not called exact if the code evaluated has made checks
    itself), and, for CHECK and REQUIRE, its expression and
    outcome. *)
Definition report_of {ID} (max_capture : nat) (p : prog) (pass : nat) (e : event ID) : Prop :=
  let check sections captures (l : location) what success :=
    exists line w abort code k,
      stands max_capture pass p (Check line w abort code k) sections captures /\ l = mkloc line (precision pass code) /\
      match w with IsTrue m outcome => what = m pass /\ success = outcome pass | _ => True end in
  match e with
  | AssertionSucceeded _ sections captures l what => check sections captures l what true
  | AssertionFailed _ sections captures l what _ _ => check sections captures l what false
  | TestCaseSkipped _ sections captures l message =>
    exists line m abort k, stands max_capture pass p (Skip line m abort k) sections captures /\ l = mkloc line Exact /\
      message = m pass
  | _ => True
  end.

(** Exception [x] is thrown by the code of [p] in pass number [pass], inside these sections and captures. *)
Definition thrown_at (max_capture : nat) (p : prog) (pass : nat) (x : exn) (sections : list section_id) (captures : list text) : Prop :=
  exists when k, stands max_capture pass p (Throw when x k) sections captures /\ when pass = true.

(** Largest number of captures simultaneously in scope, not counting those declared inside code that is expected to
    throw or not to throw. *)
Fixpoint own_captures (p : prog) : nat :=
  match p with
  | Nil => 0
  | Act _ k | Throw _ _ k | Skip _ _ _ k => own_captures k
  | Check _ w _ e k => match w with IsTrue _ _ => Nat.max (own_captures e) (own_captures k) | _ => own_captures k end
  | InSection _ b k | Catch _ _ b k => Nat.max (own_captures b) (own_captures k)
  | Capture l b k => Nat.max (length l + own_captures b) (own_captures k)
  end.

(** Code without the effect [m]. *)
Fixpoint unmarked (m : nat) (p : prog) : Prop :=
  match p with
  | Nil => True
  | Act n k => n <> m /\ unmarked m k
  | Throw _ _ k | Skip _ _ _ k => unmarked m k
  | Check _ _ _ e k => unmarked m e /\ unmarked m k
  | InSection _ b k | Capture _ b k | Catch _ _ b k => unmarked m b /\ unmarked m k
  end.

(** ** Aborted bodies (C24) *)

(** [a] is obtained from [b] by removing elements. *)
Inductive subsequence {A} : list A -> list A -> Prop :=
| sub_nil b : subsequence [] b
| sub_keep x a b : subsequence a b -> subsequence (x :: a) (x :: b)
| sub_drop x a b : subsequence a b -> subsequence a (x :: b).

(** Every section contains at most one leaf section: no two sections side by side inside a section. *)
Fixpoint narrow (p : prog) : Prop :=
  match p with
  | Nil => True
  | Act _ k | Throw _ _ k | Skip _ _ _ k => narrow k
  | Check _ _ _ e k => narrow e /\ narrow k
  | InSection _ b k => leaves b <= 1 /\ narrow b /\ narrow k
  | Capture _ b k | Catch _ _ b k => narrow b /\ narrow k
  end.

(** What may be reported once the passes over the body [p] are finished: assertions about the test case as a whole,
    outside any section and capture; the failure for an exception that escaped, in the context where it was
    thrown; the end of the sections it has left. *)
Definition concluding {ID} (max_capture : nat) (p : prog) (line : nat) (should : bool) (e : event ID) : Prop :=
  match e with
  | AssertionSucceeded _ sections captures l _ => sections = [] /\ captures = [] /\ l = mkloc line Exact
  | AssertionFailed _ sections captures l what _ _ =>
    (sections = [] /\ captures = [] /\ l = mkloc line Exact /\ should = true /\ what = Message (quote "expected test to fail")) \/
    exists pass x, pass < Nat.max 1 (leaves p) /\ x <> AbortExn /\ thrown_at max_capture p pass x sections captures
  | SectionEnded _ _ _ => True
  | _ => False
  end.

(** ** Starts and ends (C65) *)
Definition starts_in (f : section_id -> bool) (l : list bracket) : nat :=
  List.length (filter (fun b => match b with Start s => f s | End _ => false end) l).
Definition ends_in (f : section_id -> bool) (l : list bracket) : nat :=
  List.length (filter (fun b => match b with End s => f s | Start _ => false end) l).

(** At no time have the sections of some kind ended more often than they have started. *)
Definition ends_after_start (l : list bracket) : Prop :=
  forall (f : section_id -> bool) (before after : list bracket), l = before ++ after -> ends_in f before <= starts_in f before.
