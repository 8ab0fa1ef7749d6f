(** Model of what a program says when it exceeds a limit while it runs a test: the execution of Model/Run.v with, at each
    failed assertion of the library, what was reported and printed before, and the message given to the handler
    (src/snitch_error_handling.cpp:17-24). The parts that do not depend on it are those of Model/Run.v. *)
From Verif.Spec Require Import PrintSpec Events.
From Verif.Model Require Import Base Vector StringUtil Print Filter Run Cli Session Reporters Register.

(** [Died events printed message]: [assertion_failed(message)] was called, when [events] had been reported and after
    [printed] was printed. [Broken]: other failures. *)
Inductive fate (A : Type) :=
| Done (a : A)
| Died (events : list event) (printed : list str) (message : str)
| Broken (e : err).
Arguments Done {A} a.
Arguments Died {A} events printed message.
Arguments Broken {A} e.

Definition and_then {A B} (r : fate A) (f : A -> fate B) : fate B :=
  match r with Done a => f a | Died events printed message => Died events printed message | Broken e => Broken e end.

(** An assertion of the library, with nothing printed before: the functions of include/snitch/snitch_vector.hpp and
    [for_each_tag]. *)
Definition asserting {A} (events : list event) (message : str) (r : res A) : fate A :=
  match r with Ok a => Done a | Err Assert => Died events [] message | Err e => Broken e end.

(** include/snitch/snitch_vector.hpp:42, 51, 60, 74; 87; 96, 105. *)
Definition vector_full : str := lit "small vector is full".
Definition vector_pop : str := lit "pop_back() called on empty vector".
Definition vector_back : str := lit "back() called on empty vector".
Definition vector_index : str := lit "operator[] called with incorrect index".

Section LastWords.
Variable with_color : bool.    (** of the registry *)

(** The statement [state.reg.print(make_colored("error:", ...), ...); assertion_failed(...);] of
    src/snitch_section.cpp:84-89 and src/snitch_capture.cpp:86-91. *)
Definition die_of {A} (cf : config) (st : state) (explanation : str) (limit : nat) (message : str) : fate A :=
  match registry_print (cf_max_message_length cf)
          [error_prefix with_color; Text explanation; Number (decimal limit); Text (lit ")" ++ newline ++ lit ".")] with
  | Ok out => Died (trace st) out message
  | Err e => Broken e
  end.

(** src/snitch_section.cpp:72-143 [section_entry_checker::operator bool], as [section_enter] of Model/Run.v. *)
Definition said_section_enter (cf : config) (s : section_id) (st0 : state) : fate (state * bool) :=
  let st := notify_exception_handled cf st0 in
  let i := inf st in
  and_then
    (if length (levels i) <=? depth i
     then if cf_max_nested cf <=? depth i
          then die_of cf st (lit " max number of nested sections reached; please increase 'SNITCH_MAX_NESTED_SECTIONS' (currently ")
                 (cf_max_nested cf) (lit "max number of nested sections reached")
          else asserting (trace st) vector_full (push_back (cf_max_nested cf) (levels i) (mklevel 0 0 0))
     else Done (levels i)) (fun lv =>
  let d := S (depth i) in
  and_then (asserting (trace st) vector_index (at_index lv (d - 1))) (fun level =>
  let c := S (cur_id level) in
  let m := if max_id level <? c then c else max_id level in
  and_then (asserting (trace st) vector_index (put_index lv (d - 1) (mklevel c (prev_id level) m))) (fun lv1 =>
  let st1 := set_inf st (with_depth (with_levels i lv1) d) in
  if leaf_executed i then Done (st1, false)
  else
    let previous_was_preceding_sibling := c =? S (prev_id level) in
    let children_remaining_in_self := (c =? prev_id level) && (d <? length lv1) in
    if negb previous_was_preceding_sibling && negb children_remaining_in_self then Done (st1, false)
    else
      and_then (asserting (trace st) vector_index (put_index lv1 (d - 1) (mklevel c c m))) (fun lv2 =>
      let sd := mksd s (mkcounts 0 0 0) in
      and_then (asserting (trace st) vector_full (push_back (cf_max_nested cf) (current_section (inf st1)) sd)) (fun cs =>
      let st2 := set_inf st1 (with_current_section (with_levels (inf st1) lv2) cs) in
      and_then (asserting (trace st2) vector_full (push_location cf st2 (mkloc (sec_line s) SectionScope))) (fun st3 =>
      Done (if previous_was_preceding_sibling then report_section_started cf sd st3 else st3, true))))))).

(** src/snitch_test_data.cpp:39-50, constructor of [scoped_test_check]. *)
Definition said_check_begin (cf : config) (line : nat) (st : state) : fate state :=
  let st1 := notify_exception_handled cf st in
  asserting (trace st1) vector_full (check_begin cf line st).

(** src/snitch_capture.cpp:84-103 [add_capture] and include/snitch/snitch_capture.hpp:27-47. *)
Fixpoint said_add_captures (cf : config) (l : list (list str)) (st : state) : fate state :=
  match l with
  | [] => Done st
  | c :: l' =>
    and_then
      (if length (captures (inf st)) =? cf_max_captures cf
       then die_of cf st (lit " max number of captures reached; please increase 'SNITCH_MAX_CAPTURES' (currently ")
              (cf_max_captures cf) (lit "max number of captures reached")
       else asserting (trace st) vector_full (add_capture cf c st))
      (fun st1 => said_add_captures cf l' st1)
  end.

(** As [exec] of Model/Run.v. [vector_back], [vector_pop]: the only assertions in what follows (in the destructor of
    sections, [back] as well). *)
Fixpoint said_exec (cf : config) (id : test_id) (pass : nat) (p : prog) (st : state) : fate (state * option exn) :=
  match p with
  | Nil => Done (st, None)
  | Act n k => said_exec cf id pass k (report cf Quiet st (User n))
  | Throw when x k => if when pass then Done (st, Some x) else said_exec cf id pass k st
  | Check line w abort e k =>
    and_then (said_check_begin cf line st) (fun st1 =>
    and_then (said_exec cf id pass e st1) (fun '(st2, x) =>
    and_then (asserting (trace st2) vector_back (conclude cf id pass w abort x st2)) (fun '(st3, y) =>
    and_then (asserting (trace st3) vector_pop (check_end (is_some y) st3)) (fun st4 =>
    match y with Some _ => Done (st4, y) | None => said_exec cf id pass k st4 end))))
  | Skip line message abort k =>
    and_then (said_check_begin cf line st) (fun st1 =>
    and_then (asserting (trace st1) vector_back (report_skipped cf id (message pass) st1)) (fun st2 =>
    and_then (asserting (trace st2) vector_pop (check_end abort st2)) (fun st3 =>
    if abort then Done (st3, Some AbortExn) else said_exec cf id pass k st3)))
  | InSection s b k =>
    and_then (said_section_enter cf s st) (fun '(st1, entered) =>
    if entered : bool then
      and_then (said_exec cf id pass b st1) (fun '(st2, x) =>
      and_then (asserting (trace st2) vector_pop (section_exit cf true (is_some x) st2)) (fun st3 =>
      match x with Some _ => Done (st3, x) | None => said_exec cf id pass k st3 end))
    else
      and_then (asserting (trace st1) vector_pop (section_exit cf false false st1)) (fun st3 =>
      said_exec cf id pass k st3))
  | Capture texts b k =>
    and_then (said_add_captures cf (map (fun l => l pass) texts) st) (fun st1 =>
    and_then (said_exec cf id pass b st1) (fun '(st2, x) =>
    and_then (asserting (trace st2) vector_pop (capture_end (is_some x) (length texts) st2)) (fun st3 =>
    match x with Some _ => Done (st3, x) | None => said_exec cf id pass k st3 end)))
  | Catch accepts notify b k =>
    and_then (said_exec cf id pass b st) (fun '(st1, x) =>
    match x with
    | None => said_exec cf id pass k st1
    | Some e =>
      if accepts e
      then said_exec cf id pass k (if notify then notify_exception_handled cf st1 else st1)
      else Done (st1, x)
    end)
  end.

(** src/snitch_registry.cpp:621-641, as [passes] of Model/Run.v. *)
Fixpoint said_passes (cf : config) (id : test_id) (body : prog) (fuel pass : nat) (st : state)
  : fate (state * option exn) :=
  match fuel with
  | O => Broken Fuel
  | S fuel' =>
    let i := inf st in
    let st1 := set_inf st (with_levels (with_leaf_executed i false) (map reset_level (levels i))) in
    and_then (said_exec cf id pass body st1) (fun '(st2, x) =>
    match x with
    | Some _ => Done (st2, x)
    | None =>
      let st3 := set_inf st2 (after_pass (inf st2)) in
      if negb (length (levels (inf st3)) =? 0) && negb (is_skipped (status st3))
      then said_passes cf id body fuel' (S pass) st3
      else Done (st3, None)
    end)
  end.

(** src/snitch_registry.cpp:17-41, 70-72: the assertions about tags. *)
Definition tag_message (tags : str) : str :=
  match for_each_raw_tag tags with
  | Ok _ => lit "tag is too long"
  | Err _ => lit "incorrectly formatted tag; please use ""[tag1][tag2][...]"""
  end.

(** src/snitch_registry.cpp:584-704 [registry::run], as [run] of Model/Run.v. *)
Definition said_run (cf : config) (fuel : nat) (t : test_case) (trace0 : list event) : fate state :=
  let id := t_id t in
  let started may should :=
    report cf High (mkstate (mkinfo [] [] 0 false [] []) None (mkcounts 0 0 0) may should false false INotRun trace0)
           (TestCaseStarted id (t_line t)) in
  and_then (asserting (trace (started false false)) (tag_message (id_tags id)) (fail_flags (cf_max_tag_length cf) (id_tags id)))
    (fun '(may, should) =>
  let st0 := started may should in
  and_then (asserting (trace st0) vector_full (push_location cf (set_status st0 ISuccess) (mkloc (t_line t) TestCaseScope))) (fun st1 =>
  and_then (said_passes cf id (t_body t) fuel 0 st1) (fun '(st2, x) =>
  and_then (asserting (trace st2) vector_back
    (match x with
     | None =>
       do st' <- report_assertion cf id true (Message (lit "no exception caught")) (set_in_check st2 true) ;;
       Ok (set_in_check st' false)
     | Some AbortExn => Ok (set_unhandled st2 true)
     | Some (StdExn what) =>
       report_assertion2 cf id false (lit "unexpected std::exception caught; message: ") what (set_unhandled st2 true)
     | Some OtherExn =>
       report_assertion cf id false (Message (lit "unexpected unknown exception caught")) (set_unhandled st2 true)
     end)) (fun st3 =>
  let st4 := if unhandled st3 then notify_exception_handled cf st3 else st3 in
  let st5 := set_unhandled st4 false in
  and_then (asserting (trace st5) vector_back
    (if should_fail st5 then
       do st' <- report_assertion cf id (match status st5 with IAllowedFail => true | _ => false end)
                   (Message (lit "expected test to fail"))
                   (set_in_check (set_should_fail st5 false) true) ;;
       Ok (set_should_fail (set_in_check st' false) true)
     else Ok st5)) (fun st6 =>
  and_then (asserting (trace st6) [] (convert_to_public_state (status st6))) (fun s =>
  Done (report cf High st6 (TestCaseEnded id (t_line t) (asserts st6) s)))))))).

(** src/snitch_error_handling.cpp:8-14 [terminate_with], the handler of the library: all that is printed. *)
Definition last_words (printed : list str) (message : str) : list str :=
  printed ++ [lit "terminate called with message: "; message; newline].
End LastWords.
