(** Code of the user that is called by a check: comparisons, conversions to bool, matchers, and functions that write
    values (C84, C85). No reference to the model. *)
From Coq Require Import Arith Ascii String Bool List.
From Verif.Spec Require Import TextSpec FilterSpec ExpressionSpec Events MacroSpec.
Import ListNotations.
Local Open Scope list_scope.

(** Such code reads and changes the objects of the program (of type [W]), such as the members of a matcher; it then
    returns a value, or throws. *)
Inductive answer (W T : Type) := Gives (w : W) (v : T) | Leaves (w : W) (x : exn).
Arguments Gives {W T}.
Arguments Leaves {W T}.
Definition user_code (W T : Type) : Type := W -> answer W T.

(** One after the other. *)
Definition and_then {W T U} (f : user_code W T) (g : T -> user_code W U) : user_code W U :=
  fun w => match f w with Gives w1 v => g v w1 | Leaves w1 x => Leaves w1 x end.
Definition giving {W T} (v : T) : user_code W T := fun w => Gives w v.

(** A matcher: [match] and [describe_match]. *)
Record living_matcher (W A : Type) := mkliving
  { asks_match : A -> user_code W bool; asks_description : A -> match_status -> user_code W text }.
Arguments mkliving {W A}.
Arguments asks_match {W A}.
Arguments asks_description {W A}.

(** What is documented: [match] first, and then [describe_match], for the same value and with the status that [match]
    gave. *)
Definition consulted {W A} (m : living_matcher W A) (a : A) : user_code W (bool * text) :=
  and_then (asks_match m a) (fun b => and_then (asks_description m a (status_of b)) (fun d => giving (b, d))).

(** A matcher that writes down how it is used. *)
Inductive call (A : Type) := MatchCalled (a : A) (answered : bool) | DescribeCalled (a : A) (s : match_status).
Arguments MatchCalled {A}.
Arguments DescribeCalled {A}.
Definition recorded {W A} (m : living_matcher W A) : living_matcher (W * list (call A)) A :=
  mkliving
    (fun a '(w, l) => match asks_match m a w with
                      | Gives w1 b => Gives (w1, l ++ [MatchCalled a b]) b
                      | Leaves w1 x => Leaves (w1, l) x
                      end)
    (fun a s '(w, l) => match asks_description m a s w with
                        | Gives w1 d => Gives (w1, l ++ [DescribeCalled a s]) d
                        | Leaves w1 x => Leaves (w1, l ++ [DescribeCalled a s]) x
                        end).

(** A matcher whose [match] keeps [kept a] for [describe_match], which uses nothing else than what was kept. *)
Definition keeper {A K} (test : A -> bool) (keeps : A -> K) (tells : K -> match_status -> text) : living_matcher (option K) A :=
  mkliving
    (fun a _ => Gives (Some (keeps a)) (test a))
    (fun _ s w => match w with Some k => Gives w (tells k s) | None => Leaves w OtherExn end).

(** What stands between the parentheses of CHECK, REQUIRE... The function [writes] is the one that appends a value to a
    text, for types that have one. [nothrow]: the operator, or the conversion, is declared [noexcept], as the operators
    == and != that are defined for all the matchers of the namespace [snitch::matchers]. *)
Inductive living_condition (W : Type) :=
| LComparison (A B R : Type) (nothrow : bool) (compare : operator -> A -> B -> user_code W R) (truth : R -> user_code W bool)
    (writes_l : A -> option (user_code W text)) (writes_r : B -> option (user_code W text)) (o : operator) (a : A) (b : B)
| LMatching (A : Type) (nothrow : bool) (m : living_matcher W A) (equal : bool) (a : A)
| LSingle (A : Type) (nothrow : bool) (truth : A -> user_code W bool) (writes : A -> option (user_code W text)) (a : A)
| LUndecomposed (value : user_code W bool).
Arguments LComparison {W A B R}.
Arguments LMatching {W A}.
Arguments LSingle {W A}.
Arguments LUndecomposed {W}.

(** A value as it is written. *)
Definition written_by {W} (f : option (user_code W text)) : user_code W text :=
  match f with Some g => g | None => giving (quote "?") end.

(** Whether the condition holds, and whether that may leave the check with an exception. *)
Definition evaluated {W} (c : living_condition W) : user_code W bool :=
  match c with
  | LComparison _ compare truth _ _ o a b => and_then (compare o a b) truth
  | LMatching _ m equal a => and_then (asks_match m a) (fun r => giving (Bool.eqb equal r))
  | LSingle _ truth _ a => truth a
  | LUndecomposed value => value
  end.
Definition declared_nothrow {W} (c : living_condition W) : bool :=
  match c with LComparison n _ _ _ _ _ _ _ | LMatching n _ _ _ | LSingle n _ _ _ => n | LUndecomposed _ => false end.

(** The text with the operands, for a condition that was found to be [r]; texts that are longer than [max] are dropped,
    and the right operand is written only if there is room for it. *)
Definition operands {W} (max : nat) (c : living_condition W) (r : bool) : user_code W text :=
  match c with
  | LComparison _ _ _ writes_l writes_r o a b =>
    and_then (written_by (writes_l a)) (fun l =>
    let start := l ++ written (if r then o else opposite o) in
    if List.length start <=? max
    then and_then (written_by (writes_r b)) (fun t => giving (kept max (start ++ t)))
    else giving [])
  | LMatching _ m equal a =>
    and_then (asks_description m a (status_of (Bool.eqb equal r))) (fun d => giving (kept max d))
  | LSingle _ _ writes a => and_then (written_by (writes a)) (fun t => giving (kept max t))
  | LUndecomposed _ => giving []
  end.

(** What becomes of the check: it is made, with a verdict and a text; it is left with an exception, like the code around
    it; or the program is terminated ([std::terminate]), with all the tests that remain. *)
Inductive fate (W T : Type) := Made (w : W) (v : T) | LeftWith (w : W) (x : exn) | ProgramEnds.
Arguments Made {W T}.
Arguments LeftWith {W T}.
Arguments ProgramEnds {W T}.

(** Exceptions thrown by the condition itself leave the check, unless it is declared not to throw; those thrown while
    the operands are written end the program, except for the descriptions given by matchers with operators that may
    throw. *)
Definition may_describe_throw {W} (c : living_condition W) : bool :=
  match c with LMatching n _ _ _ => negb n | _ => false end.
Definition condition_fate {W} (max : nat) (all positive : bool) (c : living_condition W) (w : W) : fate W (bool * text) :=
  match evaluated c w with
  | Leaves w1 x => if declared_nothrow c then ProgramEnds else LeftWith w1 x
  | Gives w1 r =>
    if Bool.eqb r positive && negb all then Made w1 (true, [])
    else match operands max c r w1 with
         | Gives w2 t => Made w2 (Bool.eqb r positive, t)
         | Leaves w2 x => if may_describe_throw c then LeftWith w2 x else ProgramEnds
         end
  end.

(** Values written one after the other (CAPTURE, INFO), as long as the text [sofar] is not longer than [max]. *)
Fixpoint written_in_turn {W} (max : nat) (sofar : text) (l : list (user_code W text)) : user_code W text :=
  match l with
  | [] => giving sofar
  | f :: l' =>
    and_then f (fun t =>
      if List.length (sofar ++ t) <=? max then written_in_turn max (sofar ++ t) l' else giving (sofar ++ t))
  end.

(** CAPTURE: the name of each argument, and its value. *)
Fixpoint captured_in_turn {W} (max : nat) (names : list text) (values : list (user_code W text)) : user_code W (list text) :=
  match names, values with
  | name :: names', f :: values' =>
    and_then (written_in_turn max [] [giving name; giving (quote " := "); f]) (fun t =>
    and_then (captured_in_turn max names' values') (fun ts => giving (t :: ts)))
  | _, _ => giving []
  end.

(** Code of the user that changes nothing and does not throw. *)
Definition quietly {W A} (show : A -> option text) (a : A) : option (user_code W text) := option_map giving (show a).
Definition quiet_condition {W} (nothrow : bool) (c : condition) : living_condition W :=
  match c with
  | Comparison _ _ c show_l show_r o a b =>
    LComparison nothrow (fun o a b => giving (c o a b)) giving (quietly show_l) (quietly show_r) o a b
  | Matching _ m equal a =>
    LMatching nothrow (mkliving (fun a => giving (matches m a)) (fun a s => giving (describe m a s))) equal a
  | Single _ truth show a => LSingle nothrow (fun a => giving (truth a)) (quietly show) a
  | Undecomposed value => LUndecomposed (giving value)
  end.
