(** Property C94: names of sections that are held by objects of the test. *)
From Verif.Spec Require Import TextSpec FilterSpec Events RunSpec VerdictSpec TreeSpec UnwindingSpec NameSpec.
From Verif.Model Require Import Base Vector StringUtil Filter Run Unwinding.
From Verif.Proofs Require Import NameProofs.
Import ListNotations.
Local Open Scope list_scope.

(** Whenever a report mentions a section (its start, its end, a check or a skip within it), the object that holds its name
    exists: if no exception leaves the block of such an object, handlers call [notify_exception_handled()], and
    destructors have only sections named by literals. *)
Theorem C94_partial :
  forall (owner : section_id -> option nat) (cf : config) (id : test_id) (p : gprog) (fuel line : nat) (st : state),
  named owner true [] p -> unwinding_run cf fuel id line p [] = Ok st -> names_exist owner (trace st).
Proof. exact names_run. Qed.
Print Assumptions C94_partial.

(** Not so if an exception leaves the block of the object: { std::string n; SECTION(n) { throw ...; } }. The report of the
    exception, or else that of the end of the section, comes after the destruction of the name. *)
Theorem C94_refuted :
  forall (cf : config) (id : test_id) (owner : section_id -> option nat) (n : nat) (s : section_id) (x : exn) (b k k' : gprog)
         (fuel line : nat) (st : state),
  let p := local n (GInSection s (GThrow (fun _ => true) x b) k) k' in
  vlevel High <= vlevel (cf_verbosity cf) -> owner s = Some n ->
  unwinding_run cf fuel id line p [] = Ok st -> ~ names_exist owner (trace st).
Proof. exact (fun cf id owner n s x b k k' fuel line st => leaves_run cf id owner _ n s x b k k' fuel line st eq_refl). Qed.
Print Assumptions C94_refuted.

(** Nor if the name is a temporary, SECTION(std::string("...")): it is destroyed before the section is entered. *)
Theorem C94_temporary :
  forall (cf : config) (id : test_id) (owner : section_id -> option nat) (n : nat) (s : section_id) (b k : gprog)
         (fuel line : nat) (st : state),
  let p := temporary n (GInSection s b k) in
  vlevel High <= vlevel (cf_verbosity cf) -> owner s = Some n ->
  unwinding_run cf fuel id line p [] = Ok st -> ~ names_exist owner (trace st).
Proof. exact (fun cf id owner n s b k fuel line st => temporary_run cf id owner _ n s b k fuel line st eq_refl). Qed.
Print Assumptions C94_temporary.

(** A section whose name is a local variable, with a failed check, then one with a literal name that throws; the same with
    an exception within the first, which is a case of [named owner false]; and a temporary. *)
Definition names_config : config := mkconfig Full 3 2 10 60 20.
Definition names_id : test_id := mkid (quote "t") [] [] [].
Definition by_variable : section_id := mksec (quote "v") [] 2.
Definition by_literal : section_id := mksec (quote "l") [] 5.
Definition names_owner (s : section_id) : option nat := if sec_line s =? 2 then Some 7 else None.
Definition failed_check : gprog := GCheck 3 (IsTrue (fun _ => Message (quote "m")) (fun _ => false)) false GNil GNil.
Definition well_named : gprog :=
  local 7 (GInSection by_variable failed_check GNil) (GInSection by_literal (GThrow (fun _ => true) OtherExn GNil) GNil).
Definition ill_named : gprog := local 7 (GInSection by_variable (GThrow (fun _ => true) OtherExn failed_check) GNil) GNil.
Definition succeeds (r : res state) : bool := match r with Ok _ => true | Err _ => false end.
Example C94_example :
  named names_owner true [] well_named /\ named names_owner false [] ill_named /\
  vlevel High <= vlevel (cf_verbosity names_config) /\ names_owner by_variable = Some 7 /\
  forallb (fun p => succeeds (unwinding_run names_config 3 names_id 1 p []))
    [well_named; ill_named; temporary 7 (GInSection by_variable failed_check GNil)] = true /\
  match unwinding_run names_config 3 names_id 1 well_named [] with
  | Ok st => map sections_of (filter is_failure (trace st)) = [[by_variable]; [by_literal]]
  | Err _ => False
  end.
Proof.
  split; [|split; [|split; [cbn; repeat constructor|split; [reflexivity|split; vm_compute; reflexivity]]]].
  - apply named_local; [now intros []|cbn; intuition| |].
    + apply named_section; [intros n [= <-]; now left| |constructor]. apply named_check; constructor.
    + apply named_section; [discriminate| |constructor]. apply named_throw. constructor.
  - apply named_local; [now intros []|discriminate| |constructor].
    apply named_section; [intros n [= <-]; now left| |constructor]. apply named_throw, named_check; constructor.
Qed.
