(** What is left of the output of a program that dies, or whose disk is full (C96): the streams of the C library as an
    environment. No reference to the model. *)
From Coq Require Import List.
From Verif.Spec Require Import TextSpec Events.
Import ListNotations.

(** What a program does to its streams, and the code of the user that it runs, in order. *)
Inductive place := Console | OutputFile.
Inductive step :=
| Write (p : place) (s : text)   (** [std::fwrite], on [stdout] or on the output file *)
| Flush (p : place)              (** [std::fflush] *)
| Open                           (** [std::fopen(path, "w")]: the output file is empty from then on *)
| Close                          (** [std::fclose] *)
| UserCode (n : nat).            (** the user code [n] begins *)

(** A stream: the characters that have reached the device and those that wait in the buffer of the process. *)
Record stream := mkstream { device : text; waiting : text }.
(** The C library may pass the first waiting characters on, all or none or some of them, as it likes: streams can be fully
    buffered, buffered by lines or unbuffered, with buffers of any size. If the device is not [reliable], the last characters
    may be lost. *)
Definition moves (reliable : bool) (s s' : stream) : Prop :=
  (exists lost, device s' ++ waiting s' ++ lost = device s ++ waiting s /\ (reliable = true -> lost = [])) /\
  exists passed, device s' = device s ++ passed.
Definition given (s : stream) (t : text) : stream := mkstream (device s) (waiting s ++ t).

Inductive file := NoFile | IsOpen (s : stream) | IsClosed (content : text).
Record world := mkworld { console : stream; the_file : file }.
Definition start : world := mkworld (mkstream [] []) NoFile.

Definition does (reliable : bool) (c : step) (w w' : world) : Prop :=
  match c with
  | Write Console t => moves reliable (given (console w) t) (console w') /\ the_file w' = the_file w
  | Flush Console => moves reliable (console w) (console w') /\ waiting (console w') = [] /\ the_file w' = the_file w
  | Write OutputFile t => exists s s', the_file w = IsOpen s /\ the_file w' = IsOpen s' /\ moves reliable (given s t) s' /\ console w' = console w
  | Flush OutputFile => exists s s', the_file w = IsOpen s /\ the_file w' = IsOpen s' /\ moves reliable s s' /\ waiting s' = [] /\ console w' = console w
  | Open => the_file w = NoFile /\ the_file w' = IsOpen (mkstream [] []) /\ console w' = console w
  | Close => exists s s', the_file w = IsOpen s /\ the_file w' = IsClosed (device s') /\ moves reliable s s' /\ waiting s' = [] /\ console w' = console w
  | UserCode _ => w' = w
  end.
Fixpoint runs (reliable : bool) (l : list step) (w w' : world) : Prop :=
  match l with [] => w' = w | c :: l' => exists w1, does reliable c w w1 /\ runs reliable l' w1 w' end.

(** What is left when the process dies: what waits is lost. *)
Definition file_left (w : world) : option text :=
  match the_file w with NoFile => None | IsOpen s => Some (device s) | IsClosed t => Some t end.
Definition console_left (w : world) : text := device (console w).
(** When it ends by itself, [stdout] is flushed first. *)
Definition ends (reliable : bool) (w w' : world) : Prop := does reliable (Flush Console) w w'.

(** The process dies between two steps, or in the middle of one: [done] are the steps it began. *)
Definition dies (reliable : bool) (done : list step) (w : world) : Prop :=
  runs reliable done start w \/ exists before c w1, done = before ++ [c] /\ runs reliable before start w1 /\ does false c w1 w.

(** The texts given to a stream, whether the file was opened, and the user code that began. *)
Definition same_place (p q : place) : bool := match p, q with Console, Console | OutputFile, OutputFile => true | _, _ => false end.
Definition given_to (p : place) (l : list step) : list text :=
  flat_map (fun c => match c with Write q t => if same_place p q then [t] else [] | _ => [] end) l.
Definition written (p : place) (l : list step) : text := concat (given_to p l).
Definition opened (l : list step) : bool := existsb (fun c => match c with Open => true | _ => false end) l.
Definition user_codes (l : list step) : list nat := flat_map (fun c => match c with UserCode n => [n] | _ => [] end) l.
(** The user code among the events of a run. *)
Definition codes_in {ID} (l : list (event ID)) : list nat := flat_map (fun e => match e with User n => [n] | _ => [] end) l.

Definition begins (a b : text) : Prop := exists rest, b = a ++ rest.

(** If the program dies in user code, the file holds what [what] says of the events that happened before. [steps] are its
    steps and [events] its events. *)
Definition file_keeps {ID} (steps : list step) (events : list (event ID)) (what : list (event ID) -> text) : Prop :=
  forall before n after, events = before ++ User n :: after ->
  exists done rest, steps = done ++ UserCode n :: rest /\ user_codes done = codes_in before /\
    forall w, runs true done start w -> file_left w = Some (what before).
