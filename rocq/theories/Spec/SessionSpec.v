(** Whole runs of a test program (C17, C18, C30, C33-C35, C54, C55, C57, C73): what is observed, and what a run amounts
    to. No reference to the model. *)
From Coq Require Import Arith Ascii String Bool List.
From Verif.Spec Require Import TextSpec FilterSpec Events VerdictSpec.
Import ListNotations.
Local Open Scope list_scope.

(** What can be observed: texts printed on the console; events given to a reporter; calls to a reporter's
    [initialize], [configure] and [finish] functions; the output file. Reporters are numbered in registration order;
    [None] is the default one. *)
Inductive output {ID : Type} :=
| Printed (s : text)
| Reported (r : option nat) (e : event ID)
| Initialized (r : nat)
| Configured (r : nat) (key value : text)
| Finished (r : option nat)
| OpenedFile (path : text)
| WroteFile (s : text)
| ClosedFile.
Arguments output : clear implicits.

Section Run.
Context {ID : Type}.
Notation event := (event ID).

(** The tests started, and the tests listed, with their lines. *)
Definition started (l : list event) : list (ID * nat) :=
  flat_map (fun e => match e with TestCaseStarted id line => [(id, line)] | _ => [] end) l.
Definition listed (l : list event) : list (ID * nat) :=
  flat_map (fun e => match e with TestCaseListed id line => [(id, line)] | _ => [] end) l.

(** Events inside a test case. *)
Definition inner (e : event) : bool :=
  match e with
  | SectionStarted _ | SectionEnded _ _ _ | AssertionFailed _ _ _ _ _ _ _ | AssertionSucceeded _ _ _ _ _
  | TestCaseSkipped _ _ _ _ _ | User _ => true
  | _ => false
  end.

(** Given the tests that ended: the number of those in a given state, the total of their counters, and the
    corresponding summary. *)
Definition same_state (a b : case_state) : bool := severity a =? severity b.
Definition in_state (s : case_state) (l : list (ID * counts * case_state)) : nat :=
  List.length (filter (fun x => same_state (snd x) s) l).
Definition total (f : counts -> nat) (l : list (ID * counts * case_state)) : nat := list_sum (map (fun x => f (snd (fst x))) l).
Definition summary_of (name : text) (filters : list text) (l : list (ID * counts * case_state)) : event :=
  TestRunEnded name filters (List.length l) (in_state Failed l) (in_state AllowedFail l) (in_state Skipped l)
    (mkcounts (total n_all l) (total n_failed l) (total n_allowed l)) (in_state Failed l =? 0).

(** The events in what is observed, and whether test code was executed or the run reported a failure. *)
Definition events_of (l : list (output ID)) : list event :=
  flat_map (fun o => match o with Reported _ e => [e] | _ => [] end) l.
Definition failure (l : list (output ID)) : Prop := Exists (fun e => says e = Failed) (events_of l).
Definition runs_tests (l : list (output ID)) : Prop :=
  Exists (fun e => match e with ListTestRunStarted | ListTestRunEnded | TestCaseListed _ _ => False | _ => True end) (events_of l).
(** The calls to reporters, and those a program should make: to one reporter only (the default one, which has no
    [initialize] and [configure], or the one with a given number), which is initialized once, then configured, then told
    the events, and in the end told that there are no more. *)
Definition call (o : output ID) : bool :=
  match o with Reported _ _ | Initialized _ | Configured _ _ _ | Finished _ => true | _ => false end.
Definition calls (r : option nat) (options : list (text * text)) (events : list event) : list (output ID) :=
  (match r with Some i => Initialized i :: map (fun '(k, v) => Configured i k v) options | None => [] end) ++
  map (Reported r) events ++ [Finished r].
Definition file_output (o : output ID) : bool := match o with OpenedFile _ | ClosedFile | WroteFile _ => true | _ => false end.
End Run.

(** The options that ask for something else than running or listing tests. *)
Definition actions : list text :=
  [quote "--help"; quote "--list-tests-with-tag"; quote "--list-tags"; quote "--list-reporters"].

(** The argument of --reporter: the name of the reporter, and options. *)
Definition reporter_argument (name : text) (options : list (text * text)) : text :=
  name ++ List.concat (map (fun o => quote "::" ++ fst o ++ quote "=" ++ snd o) options).

(** The name in such an argument: what is before the first "::". *)
Fixpoint called (arg : text) : text :=
  match arg with
  | ":"%char :: ":"%char :: _ => []
  | c :: arg' => c :: called arg'
  | [] => []
  end.

(** An argument is cut at each "::", from the left. *)
Inductive cut_at_colons : text -> list text -> Prop :=
| cut_last o : ~ occurs (quote "::") o -> cut_at_colons o [o]
| cut_more o rest l : ~ occurs (quote "::") (o ++ quote ":") -> cut_at_colons rest l -> cut_at_colons (o ++ quote "::" ++ rest) (o :: l).

(** What the library makes of the options: instead of the first option, it takes as many characters as the first option
    has, plus two, from where the second option starts; and so on; the last option is taken as it is. *)
Fixpoint rejoined (options : list text) : text :=
  match options with
  | [] => []
  | [o] => o
  | o :: rest => o ++ quote "::" ++ rejoined rest
  end.
Fixpoint options_read (options : list text) : list text :=
  match options with
  | [] => []
  | [o] => [o]
  | o :: rest => firstn (length o + 2) (rejoined rest) :: options_read rest
  end.

(** Options handled one after the other: those of the form "key=value" by [good], the others by [bad]. *)
Inductive handled {S O : Type} (good : S -> text -> text -> S -> list O -> Prop) (bad : S -> text -> list O -> Prop)
  : S -> list text -> S -> list O -> Prop :=
| handled_none s : handled good bad s [] s []
| handled_good s k v s' o options s'' o' : k <> [] -> ~ In "="%char k -> good s k v s' o ->
    handled good bad s' options s'' o' -> handled good bad s ((k ++ quote "=" ++ v) :: options) s'' (o ++ o')
| handled_bad s option o options s' o' : ~ In "="%char option \/ hd_error option = Some "="%char -> bad s option o ->
    handled good bad s options s' o' -> handled good bad s (option :: options) s' (o ++ o').
