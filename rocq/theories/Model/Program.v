(** Model of whole programs down to the texts they print: the reporters of the library, and what becomes of the reported
    events. Everything else is in Model/Session.v, and the texts of the reports in Model/Reporters.v. *)
From Verif.Spec Require Import PrintSpec CliSpec Events SessionSpec.
From Verif.Model Require Import Base Vector StringUtil Print Filter Run Cli File Session Reporters.

Section Program.
Variable lm : limits.
Variable fuel : nat. (* of each test case *)
(* The source file of what an event is about, and how long it took (as in Model/Reporters.v). *)
Variable file : event -> str.
Variable duration : event -> option str.

(** ** The reporters of the library *)

(** src/snitch_reporter_console.cpp:88-101 [reporter], [configure]; 103-215 [report]. *)
Definition console_configure (m : modes) (counter : nat) (key value : str) : res (nat * modes * list str * bool) :=
  if seqb key (lit "color") then
    do (c, _, said) <- color_option_directive lm (m_color m) value ;; Ok (counter, mkmodes (m_verbose m) c, said, true)
  else if seqb key (lit "colour-mode") then
    do (c, _, said) <- colour_mode_directive lm (m_color m) value ;; Ok (counter, mkmodes (m_verbose m) c, said, true)
  else Ok (counter, m, [], false).
Definition console_reporter : reporter :=
  mkreporter (lit "console") true nat (fun m => Ok (0, m, [])) console_configure
    (fun m counter e => console_report (mm lm) (mn lm) (l_version lm) (m_color m) file duration counter e).

(** The verbosity becomes at least high. *)
Definition raise_verbosity (m : modes) : modes :=
  mkmodes (if vlevel (m_verbose m) <? vlevel High then High else m_verbose m) (m_color m).

(** src/snitch_reporter_catch2_xml.cpp:164-168 [reporter]; 170-173 [configure]; 175-283 [report]. *)
Definition xml_reporter : reporter :=
  mkreporter (lit "xml") true nat (fun m => Ok (0, raise_verbosity m, [])) (fun m level _ _ => Ok (level, m, [], false))
    (fun _ level e => xml_report (mm lm) (mn lm) (l_version lm) file duration e level).

(** src/snitch_reporter_teamcity.cpp:120-124 [initialize]; 126-178 [report]; 181-182: no [configure]. *)
Definition teamcity_reporter : reporter :=
  mkreporter (lit "teamcity") false unit (fun m => Ok (tt, raise_verbosity m, [])) (fun m x _ _ => Ok (x, m, [], false))
    (fun _ x e => do out <- tc_report (mm lm) (mn lm) file duration e ;; Ok (x, out)).

(** ** Reports *)

(** [report_callback]: include/snitch/snitch_registry.hpp:135-138 [report<T>], src/snitch_registry.cpp:341-349
    [report_default]. The texts are those given to [registry::print]. *)
Definition report (r : registry) (e : event) : res (registry * list str) :=
  match g_reporter r with
  | None =>
    let counter := match g_storage r with Default c => c | _ => 0 end in
    do (counter', out) <- console_report (mm lm) (mn lm) (l_version lm) (g_with_color r) file duration counter e ;;
    Ok (set_storage r (Default counter'), out)
  | Some _ =>
    match g_storage r with
    | Holds p memory => do (memory', out) <- r_report p (modes_of r) memory e ;; Ok (set_storage r (Holds p memory'), out)
    | Vacant | Default _ => Err Assert
    end
  end.

(** [finish_callback]: include/snitch/snitch_registry.hpp:218 and src/snitch_registry.cpp:337-339 [destroy_reporter]; by
    default nothing. *)
Definition finish (r : registry) : registry :=
  match g_reporter r, g_storage r with
  | None, _ => r
  | Some _, Holds p _ => if r_typed p then set_storage r Vacant else r
  | Some _, _ => set_storage r Vacant
  end.

Fixpoint print_all (r : registry) (l : list str) : res (list output) :=
  match l with
  | [] => Ok []
  | s :: l' => do a <- print_text r s ;; do b <- print_all r l' ;; Ok (a ++ b)
  end.

(** What is observed, with the texts of the reports instead of the events. *)
Fixpoint perform (r : registry) (l : list output) : res (registry * list output) :=
  match l with
  | [] => Ok (r, [])
  | Reported _ e :: l' =>
    do (r1, texts) <- report r e ;;
    do printed <- print_all r1 texts ;;
    do (r2, rest) <- perform r1 l' ;;
    Ok (r2, printed ++ rest)
  | o :: l' =>
    let r1 := match o with Finished _ => finish r | ClosedFile => set_file r None | _ => r end in
    do (r2, rest) <- perform r1 l' ;;
    Ok (r2, o :: rest)
  end.

(** src/snitch_registry.cpp:901-912 [run_tests(const cli::input&)]. *)
Definition run_program (r : registry) (args : input) : res (registry * list output * bool) :=
  do (_, out, success) <- run_tests lm fuel r args ;;
  do (r', out') <- perform r out ;;
  Ok (r', out', success).

(** src/snitch_main.cpp:7-18 [main]. *)
Definition main_program (can_open : str -> bool) (r : registry) (path : str) (argv : list str) : res (list output * nat) :=
  do (printed, args) <- parse_arguments (cli_of lm) path argv ;;
  match args with
  | None => Ok (map Printed printed, 1)
  | Some args =>
    do (r1, out1) <- configure lm can_open r args ;;
    do (_, out2, success) <- run_program r1 args ;;
    Ok (map Printed printed ++ out1 ++ out2, if success : bool then 0 else 1)
  end.
End Program.
