(** What is asked of the command line (C32, C53). No reference to the model. The tables are those of README.md
    ("Command-line API"). *)
From Coq Require Import Arith Ascii String Bool List.
From Verif.Spec Require Import TextSpec FilterSpec.
Import ListNotations.
Local Open Scope list_scope.

Definition same_text (a b : text) : bool := if list_eq_dec ascii_dec a b then true else false.

(** The supported options: spellings, the long name last; whether a value follows, and what it is called. *)
Definition options : list (list text * option text) :=
  [ ([quote "-l"; quote "--list-tests"], None);
    ([quote "--list-tags"], None);
    ([quote "--list-tests-with-tag"], Some (quote "tag"));
    ([quote "--list-reporters"], None);
    ([quote "-r"; quote "--reporter"], Some (quote "reporter[::key=value]*"));
    ([quote "-v"; quote "--verbosity"], Some (quote "quiet|normal|high|full"));
    ([quote "-o"; quote "--out"], Some (quote "path"));
    ([quote "--color"], Some (quote "always|default|never"));
    ([quote "--colour-mode"], Some (quote "ansi|default|none"));
    ([quote "-h"; quote "--help"], None) ].

(** Options of Catch2 that are not supported but take a value. *)
Definition catch2_with_value : list text :=
  [ quote "-x"; quote "--abortx"; quote "-w"; quote "--warn"; quote "-d"; quote "--durations"; quote "-D"; quote "--min-duration";
    quote "-f"; quote "--input-file"; quote "-#"; quote "--filenames-as-tags"; quote "-c"; quote "--section"; quote "--order";
    quote "--rng-seed"; quote "--wait-for-keypress"; quote "--shard-count"; quote "--shard-index" ].

(** The option spelled [arg], if any: its long name and the name of its value. *)
Fixpoint lookup (l : list (list text * option text)) (arg : text) : option (text * option text) :=
  match l with
  | [] => None
  | (spellings, value) :: l' =>
    if existsb (same_text arg) spellings then Some (last spellings [], value) else lookup l' arg
  end.

Definition dashed (arg : text) : bool := match arg with c :: _ => same_text [c] (quote "-") | [] => false end.

(** What a command line consists of. *)
Inductive item :=
| Given (long : text) (value : option (text * text)) (** an option, with its value and what the value is called *)
| NoValue (arg : text)                               (** an option that takes a value, at the end *)
| Unknown (arg : text)                               (** an option that is not supported *)
| Filtering (arg : text).                            (** a test filter *)

Fixpoint read (argv : list text) : list item :=
  match argv with
  | [] => []
  | arg :: rest =>
    if dashed arg then
      match lookup options arg with
      | Some (long, None) => Given long None :: read rest
      | Some (long, Some called) =>
        match rest with
        | value :: rest' => Given long (Some (value, called)) :: read rest'
        | [] => [NoValue arg]
        end
      | None =>
        if existsb (same_text arg) catch2_with_value
        then match rest with _ :: rest' => Unknown arg :: read rest' | [] => [Unknown arg] end
        else Unknown arg :: read rest
      end
    else Filtering arg :: read rest
  end.

Definition given (l : list item) : list text := flat_map (fun i => match i with Given long _ => [long] | _ => [] end) l.
Definition unknown (l : list item) : list text := flat_map (fun i => match i with Unknown arg => [arg] | _ => [] end) l.
Definition filters (l : list item) : list text := flat_map (fun i => match i with Filtering arg => [arg] | _ => [] end) l.

(** How the items are recorded: the public structure [snitch::cli::argument] (name, what the value is called, value).
    [positional] is what filters are called; without it they are not recorded. *)
Record argument := mkargument { a_name : text; a_value_name : option text; a_value : option text }.
Definition record_item (positional : option text) (i : item) : list argument :=
  match i with
  | Given long None => [mkargument long None None]
  | Given long (Some (value, called)) => [mkargument long (Some called) (Some value)]
  | Filtering arg => match positional with Some called => [mkargument [] (Some called) (Some arg)] | None => [] end
  | NoValue _ | Unknown _ => []
  end.
Definition recorded (positional : option text) (l : list item) : list argument := flat_map (record_item positional) l.

(** The command line is acceptable: no value is missing and no option is repeated. *)
Definition acceptable (argv : list text) : Prop :=
  (forall arg, ~ In (NoValue arg) (read argv)) /\ NoDup (given (read argv)).

(** The value given to an option: [Some None] if the option has no value. *)
Fixpoint setting (l : list item) (long : text) : option (option text) :=
  match l with
  | [] => None
  | Given long' v :: l' => if same_text long long' then Some (option_map fst v) else setting l' long
  | _ :: l' => setting l' long
  end.

(** The file name of a path without its last extension. *)
Definition separator (c : ascii) : Prop := c = "/"%char \/ c = "\"%char.
Definition file_of (path file : text) : Prop :=
  exists folder, path = folder ++ file /\ Forall (fun c => ~ separator c) file /\
    (folder = [] \/ exists f c, folder = f ++ [c] /\ separator c).
Definition stem_of (file stem : text) : Prop :=
  (~ In "."%char file /\ stem = file) \/
  (exists extension, file = stem ++ "."%char :: extension /\ ~ In "."%char extension).
