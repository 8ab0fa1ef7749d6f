(** Specification of the execution of a test case (C19-C27), by direct recursion on the test body: no stack of
    levels, no saved state, no replay. The events are those of the highest verbosity. *)
From Coq Require Import Arith Ascii String Bool List.
From Verif.Spec Require Import TextSpec FilterSpec Events.
Import ListNotations.
Local Open Scope list_scope.

(** ** Sections *)

(** Number of leaf sections: sections that contain no section. *)
Fixpoint leaves (p : prog) : nat :=
  match p with
  | Nil => 0
  | Act _ k | Throw _ _ k | Skip _ _ _ k => leaves k
  | Check _ _ _ e k => leaves e + leaves k
  | InSection _ b k => Nat.max 1 (leaves b) + leaves k
  | Capture _ b k => leaves b + leaves k
  | Catch _ _ b k => leaves b + leaves k
  end.

(** Nesting depth of the sections. *)
Fixpoint nesting (p : prog) : nat :=
  match p with
  | Nil => 0
  | Act _ k | Throw _ _ k | Skip _ _ _ k => nesting k
  | Check _ _ _ e k => Nat.max (nesting e) (nesting k)
  | InSection _ b k => Nat.max (S (nesting b)) (nesting k)
  | Capture _ b k | Catch _ _ b k => Nat.max (nesting b) (nesting k)
  end.

(** Largest number of captures simultaneously in scope. *)
Fixpoint capturing (p : prog) : nat :=
  match p with
  | Nil => 0
  | Act _ k | Throw _ _ k | Skip _ _ _ k => capturing k
  | Check _ _ _ e k => Nat.max (capturing e) (capturing k)
  | InSection _ b k | Catch _ _ b k => Nat.max (capturing b) (capturing k)
  | Capture l b k => Nat.max (length l + capturing b) (capturing k)
  end.

(** Code with no section. *)
Fixpoint flat (p : prog) : Prop :=
  match p with
  | Nil => True
  | Act _ k | Throw _ _ k | Skip _ _ _ k => flat k
  | Check _ _ _ e k => flat e /\ flat k
  | InSection _ _ _ => False
  | Capture _ b k | Catch _ _ b k => flat b /\ flat k
  end.

(** Largest number of sections and checks simultaneously open. *)
Fixpoint scopes (p : prog) : nat :=
  match p with
  | Nil => 0
  | Act _ k | Throw _ _ k => scopes k
  | Skip _ _ _ k => Nat.max 1 (scopes k)
  | Check _ _ _ e k => Nat.max (S (scopes e)) (scopes k)
  | InSection _ b k => Nat.max (S (scopes b)) (scopes k)
  | Capture _ b k | Catch _ _ b k => Nat.max (scopes b) (scopes k)
  end.

(** The test bodies considered: sections are neither inside [try] blocks nor inside the code evaluated by a check
    (which may make further checks), and handled exceptions are notified. *)
Fixpoint regular (p : prog) : Prop :=
  match p with
  | Nil => True
  | Act _ k | Throw _ _ k | Skip _ _ _ k => regular k
  | Check _ _ _ e k => flat e /\ regular e /\ regular k
  | InSection _ b k | Capture _ b k => regular b /\ regular k
  | Catch _ notify b k => notify = true /\ flat b /\ regular b /\ regular k
  end.

(** Whether a check holds, from the exception by which the code it evaluates is left, if any; [None]: the exception
    is let through. *)
Definition holds (pass : nat) (w : expectation) (x : option exn) : option bool :=
  match w, x with
  | IsTrue _ outcome, None => Some (outcome pass)
  | IsTrue _ _, Some _ => None
  | Throws _ accepts, Some x => Some (accepts x)
  | ThrowsMatching _ accepts matches _, Some x => Some (accepts x && matches x)
  | (Throws _ _ | ThrowsMatching _ _ _ _), None => Some false
  | DoesNotThrow _, None => Some true
  | DoesNotThrow _, Some _ => Some false
  end.

(** For code with no section: whether it goes through a check or a skip, and the exception by which it is left. *)
Fixpoint flow (pass : nat) (p : prog) : bool * option exn :=
  match p with
  | Nil => (false, None)
  | Act _ k | InSection _ _ k => flow pass k
  | Throw when x k => if when pass then (false, Some x) else flow pass k
  | Check _ w abort e k =>
    match holds pass w (snd (flow pass e)) with
    | None => (true, snd (flow pass e))
    | Some ok => (true, if negb ok && abort then Some AbortExn else snd (flow pass k))
    end
  | Skip _ _ abort k => (true, if abort then Some AbortExn else snd (flow pass k))
  | Capture _ b k =>
    let '(c, x) := flow pass b in
    match x with
    | Some _ => (c, x)
    | None => (c || fst (flow pass k), snd (flow pass k))
    end
  | Catch accepts _ b k =>
    let '(c, x) := flow pass b in
    if match x with Some y => negb (accepts y) | None => false end then (c, x)
    else (c || fst (flow pass k), snd (flow pass k))
  end.

(** How precisely the place of a check is reported: the code [e] it evaluates may make checks of its own. *)
Definition precision (pass : nat) (e : prog) : location_type := if fst (flow pass e) then InCheck else Exact.

(** ** Execution *)
Section Execution.
Context {ID : Type}.
Notation event := (event ID).
Variable id : ID.
Variables may_fail should_fail : bool.       (** the test is tagged [!mayfail], [!shouldfail] *)
Variables max_capture max_message : nat.     (** maximum length of a captured text, of a message *)

(** What surrounds a point of the test body. *)
Record context := mkctx { enclosing : list section_id; captured : list text; where_ : location }.

(** How a piece of code ends. For an exception: where it was thrown from, and the sections it has left so far
    (outermost first), each with the assertions made in it since it was entered. *)
Inductive ending := Finished | Threw (x : exn) (from : context) (gone : list (section_id * counts)).

(** Events, state of the test case, ending. *)
Definition behaviour : Type := list event * case_state * ending.

Definition after (r : behaviour) (f : case_state -> behaviour) : behaviour :=
  let '(e, s, x) := r in
  match x with
  | Finished => let '(e', s', x') := f s in (e ++ e', s', x')
  | Threw _ _ _ => r
  end.

Definition skipped (s : case_state) : bool := match s with Skipped => true | _ => false end.

(** State after an assertion: a failure makes a test failed, or allowed-failed if it is tagged so. *)
Definition worsen (ok : bool) (s : case_state) : case_state :=
  if ok then s
  else if may_fail || should_fail then AllowedFail
  else match s with AllowedFail => AllowedFail | _ => Failed end.

(** An assertion in context [cx]; nothing happens once the test is skipped. *)
Definition assertion (cx : context) (ok : bool) (what : payload) (s : case_state) : behaviour :=
  if skipped s then ([], s, Finished)
  else ([if ok then AssertionSucceeded id (enclosing cx) (captured cx) (where_ cx) what
         else AssertionFailed id (enclosing cx) (captured cx) (where_ cx) what should_fail may_fail],
        worsen ok s, Finished).

(** State after a skip: a failure is not forgotten. *)
Definition skip_state (s : case_state) : case_state := match s with Success => Skipped | _ => s end.

(** What a check on some code concludes from the way the code ended: [None] to let an exception through, or
    success and payload. *)
Definition conclusion (pass : nat) (w : expectation) (x : ending) : option (bool * payload) :=
  let two a b := Message (fit max_message (a ++ b)) in
  let unexpected type x :=
    match x with
    | StdExn what => two (type ++ quote " expected but other std::exception thrown; message: ") what
    | _ => Message (type ++ quote " expected but other unknown exception thrown")
    end in
  match w, x with
  | IsTrue what outcome, Finished => Some (outcome pass, what pass)
  | IsTrue _ _, Threw _ _ _ => None
  | (Throws type _ | ThrowsMatching type _ _ _), Finished =>
    Some (false, Message (type ++ quote " expected but no exception thrown"))
  | Throws type accepts, Threw x _ _ =>
    if accepts x then Some (true, Message (type ++ quote " was thrown as expected"))
    else Some (false, unexpected type x)
  | ThrowsMatching type accepts matches describe, Threw x _ _ =>
    if accepts x then
      if matches x then Some (true, two (quote "caught " ++ type ++ quote " matched expected content: ") (describe x))
      else Some (false, two (quote "could not match caught " ++ type ++ quote " with expected content: ") (describe x))
    else Some (false, unexpected type x)
  | DoesNotThrow source, Finished => Some (true, Message (source ++ quote " did not throw"))
  | DoesNotThrow source, Threw (StdExn what) _ _ =>
    Some (false, two (quote "expected " ++ source ++ quote " not to throw but it threw a std::exception; message: ") what)
  | DoesNotThrow source, Threw _ _ _ =>
    Some (false, Message (quote "expected " ++ source ++ quote " not to throw but it threw an unknown exception"))
  end.

(** [target]: [Some j] while the section to execute is the leaf number [j] (from 0) of the code to come, [None]
    once the leaf section of this pass has been executed. *)
Definition past (target : option nat) (p : prog) : option nat :=
  match target with
  | Some j => if j <? leaves p then None else Some (j - leaves p)
  | None => None
  end.

Fixpoint behave (pass : nat) (cx : context) (target : option nat) (p : prog) (s : case_state) : behaviour :=
  match p with
  | Nil => ([], s, Finished)
  | Act n k => after ([User n], s, Finished) (behave pass cx target k)
  | Throw when x k => if when pass then ([], s, Threw x cx []) else behave pass cx target k s
  | Check line w abort e k =>
    let inside := mkctx (enclosing cx) (captured cx) (mkloc line InCheck) in
    let exact := mkctx (enclosing cx) (captured cx) (mkloc line (precision pass e)) in
    let '(ev, s1, x) := behave pass inside None e s in
    match conclusion pass w x with
    | None => (ev, s1, x)
    | Some (ok, what) =>
      after (ev, s1, Finished) (fun s1 =>
      after (assertion exact ok what s1) (fun s2 =>
      if negb ok && abort then ([], s2, Threw AbortExn inside []) else behave pass cx target k s2))
    end
  | Skip line message abort k =>
    let inside := mkctx (enclosing cx) (captured cx) (mkloc line InCheck) in
    after ([TestCaseSkipped id (enclosing cx) (captured cx) (mkloc line Exact) (message pass)], skip_state s, Finished) (fun s1 =>
    if abort then ([], s1, Threw AbortExn inside []) else behave pass cx target k s1)
  | InSection sec b k =>
    match target with
    | None => behave pass cx None k s
    | Some j =>
      let n := Nat.max 1 (leaves b) in
      if j <? n then
        let inside := mkctx (enclosing cx ++ [sec]) (captured cx) (mkloc (sec_line sec) SectionScope) in
        let start := if j =? 0 then [SectionStarted sec] else [] in
        let '(ev, s1, x) := behave pass inside target b s in
        match x with
        | Threw x from gone => (start ++ ev, s1, Threw x from ((sec, tally ev) :: gone))
        | Finished =>
          let stop := if S j =? n then [SectionEnded sec (skipped s1) (tally ev)] else [] in
          after (start ++ ev ++ stop, s1, Finished) (behave pass cx None k)
        end
      else behave pass cx (Some (j - n)) k s
    end
  | Capture texts b k =>
    let inside := mkctx (enclosing cx) (captured cx ++ map (fun l => fit max_capture (List.concat (l pass))) texts) (where_ cx) in
    after (behave pass inside target b s) (behave pass cx (past target b) k)
  | Catch accepts _ b k =>
    let '(ev, s1, x) := behave pass cx target b s in
    match x with
    | Finished => after (ev, s1, Finished) (behave pass cx (past target b) k)
    | Threw y _ _ => if accepts y then after (ev, s1, Finished) (behave pass cx (past target b) k) else (ev, s1, x)
    end
  end.

(** Passes number [pass], [pass+1], ..., [pass+n-1] over the body, until one is aborted or skipped. *)
Fixpoint behave_passes (cx : context) (p : prog) (n pass : nat) (s : case_state) : behaviour :=
  match n with
  | O => ([], s, Finished)
  | S n' => after (behave pass cx (Some pass) p s)
                  (fun s => if skipped s then ([], s, Finished) else behave_passes cx p n' (S pass) s)
  end.

Definition number_of_passes (p : prog) : nat := Nat.max 1 (leaves p).

(** What follows the passes: an assertion that no exception escaped, or a failure for the exception that did,
    reported in the context in which it was thrown; then the sections left by the exception are ended,
    innermost first. *)
Definition escaped (line : nat) (x : ending) (s : case_state) : behaviour :=
  match x with
  | Finished => assertion (mkctx [] [] (mkloc line Exact)) true (Message (quote "no exception caught")) s
  | Threw y from gone =>
    let '(ev, s1, _) :=
      match y with
      | AbortExn => ([], s, Finished)
      | StdExn what =>
        assertion from false
          (Message (fit max_message (quote "unexpected std::exception caught; message: " ++ what))) s
      | OtherExn => assertion from false (Message (quote "unexpected unknown exception caught")) s
      end in
    (ev ++ map (fun sc => SectionEnded (fst sc) (skipped s1) (fold_right tally1 (snd sc) ev)) (rev gone),
     s1, Finished)
  end.

End Execution.

(** The whole test case: events and final state. *)
Definition behave_case {ID} (id : ID) (may_fail should_fail : bool) (max_capture max_message : nat)
  (line : nat) (p : prog) : list (event ID) * case_state :=
  let '(e1, s1, x) :=
    behave_passes id may_fail should_fail max_capture max_message (mkctx [] [] (mkloc line TestCaseScope)) p
      (number_of_passes p) 0 Success in
  let '(e2, s2, _) := escaped id may_fail should_fail max_message line x s1 in
  let '(e3, s3, _) :=
    if should_fail
    then assertion id may_fail false (mkctx [] [] (mkloc line Exact))
           (match s2 with AllowedFail => true | _ => false end) (Message (quote "expected test to fail")) s2
    else ([], s2, Finished) in
  ([TestCaseStarted id line] ++ e1 ++ e2 ++ e3 ++ [TestCaseEnded id line (tally (e1 ++ e2 ++ e3)) s3], s3).
