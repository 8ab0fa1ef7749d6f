(** Tests written with the macros of the library, and what each macro is documented to check (C67, C68). No reference to
    the model. *)
From Coq Require Import Arith ZArith Ascii String Bool List.
From Verif.Spec Require Import TextSpec FilterSpec ExpressionSpec CaptureSpec Events RunSpec.
Import ListNotations.
Local Open Scope list_scope.

(** ** What stands between the parentheses of a check *)

(** The argument of CHECK, REQUIRE..., once evaluated: a comparison of two operands, a comparison (== or !=) of a value
    with a matcher, a single value, or something that is not decomposed, like [a && b]. *)
Inductive condition :=
| Comparison (A B : Type) (c : comparisons A B) (show_l : A -> option text) (show_r : B -> option text) (o : operator)
    (a : A) (b : B)
| Matching (A : Type) (m : matcher A) (equal : bool) (a : A)
| Single (A : Type) (truth : A -> bool) (show : A -> option text) (a : A)
| Undecomposed (value : bool).

Definition holds (c : condition) : bool :=
  match c with
  | Comparison _ _ c _ _ o a b => c o a b
  | Matching _ m equal a => Bool.eqb equal (matches m a)
  | Single _ truth _ a => truth a
  | Undecomposed value => value
  end.
Definition with_operands (c : condition) : text :=
  match c with
  | Comparison _ _ c show_l show_r o a b =>
    printed (show_l a) ++ written (if c o a b then o else opposite o) ++ printed (show_r b)
  | Matching _ m _ a => describe m a (status_of (matches m a))
  | Single _ _ show a => printed (show a)
  | Undecomposed _ => []
  end.

(** The arguments of CHECK_THAT, REQUIRE_THAT. *)
Record match_request := request { r_type : Type; r_matcher : matcher r_type; r_value : r_type }.

(** When the argument is evaluated: by the program, in each pass over the test (CHECK); by the compiler (CONSTEVAL_CHECK);
    first by the compiler, then by the program (CONSTEXPR_CHECK). *)
Inductive evaluation (T : Type) :=
| RunTime (v : nat -> T)
| CompileTime (v : T)
| BothTimes (v : T) (w : nat -> T).
Arguments RunTime {T}.
Arguments CompileTime {T}.
Arguments BothTimes {T}.

(** ** Test bodies *)
Inductive check :=
| Holds (positive : bool) (source : text) (e : evaluation condition)
    (** CHECK(source), CHECK_FALSE(source) ([positive = false]), with REQUIRE, CONSTEXPR_... and CONSTEVAL_... *)
| That (value matcher : text) (e : evaluation match_request)
    (** CHECK_THAT(value, matcher), with REQUIRE, CONSTEXPR_... and CONSTEVAL_... *)
| Succeeds (message : nat -> text)
    (** SUCCEED(message) *)
| Fails (message : nat -> text)
    (** FAIL(message), FAIL_CHECK(message) *)
| ThrowsAs (type : text) (accepts : exn -> bool)
    (** CHECK_THROWS_AS(..., type), REQUIRE_THROWS_AS *)
| ThrowsMatches (type : text) (accepts : exn -> bool) (m : matcher exn)
    (** CHECK_THROWS_MATCHES(..., type, m), REQUIRE_THROWS_MATCHES *)
| NoThrow (source : text).
    (** CHECK_NOTHROW(source), REQUIRE_NOTHROW *)

(** As [prog] (Spec/Events.v), with the macros as they are written in the source. [abort]: REQUIRE, FAIL and SKIP rather
    than CHECK, FAIL_CHECK and SKIP_CHECK; [e]: the code evaluated by the program for the arguments of the check. *)
Inductive code :=
| Done
| Effect (n : nat) (k : code)
| Raise (when : nat -> bool) (x : exn) (k : code)
| Do (line : nat) (abort : bool) (c : check) (e k : code)
| DoSkip (line : nat) (abort : bool) (message : nat -> text) (k : code)
| Section_ (s : section_id) (b k : code)
| Captured (args : list text) (values : list (nat -> text)) (b k : code)
    (** { CAPTURE(args); b } k: the source text and the value of each argument. *)
| Informed (pieces : list (nat -> text)) (b k : code)
    (** { INFO(pieces); b } k *)
| Try (accepts : exn -> bool) (notify : bool) (b k : code).

(** ** What they mean *)

Definition prefix {T} (e : evaluation T) : text :=
  match e with RunTime _ => [] | CompileTime _ => quote "CONSTEVAL_" | BothTimes _ _ => quote "CONSTEXPR_" end.
Definition macro_name {T} (e : evaluation T) (abort : bool) (suffix : text) : text :=
  prefix e ++ (if abort then quote "REQUIRE" else quote "CHECK") ++ suffix.

(** The evaluations, in order: what is added to the name of the macro, whether the program evaluates the arguments, and
    their values. *)
Definition evaluations {T} (e : evaluation T) : list (text * bool * (nat -> T)) :=
  match e with
  | RunTime v => [([], true, v)]
  | CompileTime v => [([], false, fun _ => v)]
  | BothTimes v w => [(quote "[compile-time]", false, fun _ => v); (quote "[run-time]", true, w)]
  end.

(** A text without the blanks around it. *)
Definition is_blank (c : ascii) : bool :=
  existsb (Ascii.eqb c) [" "%char; ascii_of_nat 9; ascii_of_nat 10; ascii_of_nat 13].
Fixpoint unindented (s : text) : text :=
  match s with c :: s' => if is_blank c then unindented s' else s | [] => [] end.
Definition stripped (s : text) : text := rev (unindented (rev (unindented s))).

Section Meaning.
Variable max_expr : nat.       (** SNITCH_MAX_EXPR_LENGTH *)
Variable decompose_all : bool. (** SNITCH_DECOMPOSE_SUCCESSFUL_ASSERTIONS *)

(** The expression reported: the text with operands is shown for failures, and for successes if asked for, unless it is
    too long. *)
Definition shown_condition (macro source : text) (positive : bool) (c : condition) : payload :=
  let ok := Bool.eqb (holds c) positive in
  Expression macro source (if negb ok || decompose_all then kept max_expr (with_operands c) else []).

(** The assertions made by a check, in order; each is made, in turn, unless a previous one has ended the test. *)
Definition assertions (line : nat) (abort : bool) (c : check) (e : prog) (k : prog) : prog :=
  let check w e k := Check line w abort e k in
  match c with
  | Holds positive source ev =>
    let name := macro_name ev abort (if positive then [] else quote "_FALSE") in
    fold_right (fun '(suffix, runs, v) =>
      check (IsTrue (fun pass => shown_condition (name ++ suffix) source positive (v pass))
                    (fun pass => Bool.eqb (holds (v pass)) positive)) (if runs : bool then e else Nil)) k (evaluations ev)
  | That value matcher ev =>
    let name := macro_name ev abort (quote "_THAT") in
    fold_right (fun '(suffix, runs, v) =>
      let matched pass := matches (r_matcher (v pass)) (r_value (v pass)) in
      check (IsTrue (fun pass => Expression (name ++ suffix) (value ++ quote ", " ++ matcher)
                                   (fit max_expr (describe (r_matcher (v pass)) (r_value (v pass)) (status_of (matched pass)))))
                    matched) (if runs : bool then e else Nil)) k (evaluations ev)
  | Succeeds message => check (IsTrue (fun pass => Message (message pass)) (fun _ => true)) e k
  | Fails message => check (IsTrue (fun pass => Message (message pass)) (fun _ => false)) e k
  | ThrowsAs type accepts => check (Throws type accepts) e k
  | ThrowsMatches type accepts m =>
    check (ThrowsMatching type accepts (matches m) (fun x => describe m x (status_of (matches m x)))) e k
  | NoThrow source => check (DoesNotThrow source) e k
  end.

Fixpoint meaning (b : code) : prog :=
  match b with
  | Done => Nil
  | Effect n k => Act n (meaning k)
  | Raise when x k => Throw when x (meaning k)
  | Do line abort c e k => assertions line abort c (meaning e) (meaning k)
  | DoSkip line abort message k => Skip line message abort (meaning k)
  | Section_ s b k => InSection s (meaning b) (meaning k)
  | Captured args values b k =>
    Capture (map (fun x pass => [stripped (fst x); quote " := "; snd x pass]) (List.combine args values)) (meaning b) (meaning k)
  | Informed pieces b k => Capture [fun pass => map (fun p => p pass) pieces] (meaning b) (meaning k)
  | Try accepts notify b k => Catch accepts notify (meaning b) (meaning k)
  end.
End Meaning.

(** Bodies for which this holds: the descriptions given by matchers to ..._THAT are not longer than a message, and the
    arguments of CAPTURE are as in C29. *)
Definition small_request (max_message : nat) (r : match_request) : Prop :=
  forall s, List.length (describe (r_matcher r) (r_value r) s) <= max_message.
Definition label_known (arg : text) : Prop :=
  balanced false arg /\ (Z.of_nat (List.length arg) <= 2147483647)%Z /\ Exists (fun c => ~ blank c) arg.
Fixpoint proper (max_message : nat) (b : code) : Prop :=
  match b with
  | Done => True
  | Effect _ k | Raise _ _ k | DoSkip _ _ _ k => proper max_message k
  | Do _ _ c e k =>
    match c with
    | That _ _ ev => Forall (fun x => forall pass, small_request max_message (snd x pass)) (evaluations ev)
    | _ => True
    end /\ proper max_message e /\ proper max_message k
  | Captured args values b k =>
    List.length args = List.length values /\ Forall label_known args /\ proper max_message b /\ proper max_message k
  | Section_ _ b k | Informed _ b k | Try _ _ b k => proper max_message b /\ proper max_message k
  end.

(** Assertions made in turn at a line, in the context [cx]: each has a verdict and a payload; a failure ends the test if
    [abort] is set. *)
Fixpoint in_turn {ID} (id : ID) (may should : bool) (cx : context) (line : nat) (abort : bool) (l : list (bool * payload))
  (s : case_state) (rest : case_state -> behaviour) : behaviour :=
  match l with
  | [] => rest s
  | (ok, what) :: l' =>
    after (assertion id may should (mkctx (enclosing cx) (captured cx) (mkloc line Exact)) ok what s) (fun s1 =>
    if negb ok && abort then ([], s1, Threw AbortExn (mkctx (enclosing cx) (captured cx) (mkloc line InCheck)) [])
    else in_turn id may should cx line abort l' s1 rest)
  end.
