(** Properties C32, C53: the command line. *)
From Verif.Spec Require Import TextSpec FilterSpec PrintSpec CliSpec.
From Verif.Model Require Import Base Vector StringUtil Run Print Cli.
From Verif.Proofs Require Import CliProofs CliFacts.

(** C32. The command line is read as documented ([read], Spec/CliSpec.v). Parsing fails exactly if a value is missing
    or an option is repeated. *)
Theorem C32_fails :
  forall (cc : cli_config) (path : text) (argv : list text), length argv <= c_max_args cc ->
  ((exists out, parse_arguments cc path argv = Ok (out, None)) <-> ~ acceptable argv).
Proof. exact parse_fails. Qed.
Print Assumptions C32_fails.

(** Otherwise exactly the options and filters of the command line are recorded, in order, and one warning is printed
    for each unknown option. Nothing else can happen. *)
Theorem C32_recorded :
  forall (cc : cli_config) (path : text) (argv : list text), length argv <= c_max_args cc ->
  exists out result, parse_arguments cc path argv = Ok (out, result) /\
    (acceptable argv ->
       result = Some (mkinput (extract_executable path) (recorded (Some (quote "test regex")) (read argv))) /\
       exists color, parse_color_options cc path argv = Ok ([], color) /\
         Forall2 (fun arg message => cli_print (c_max_message cc)
                    [make_colored (quote "warning:") color color_warning; Text (quote " unknown command line argument '"); Text arg;
                     Text (quote "'" ++ [ascii_of_nat 10])] = Ok message) (unknown (read argv)) out) /\
    (~ acceptable argv -> result = None).
Proof. exact parse_arguments_spec. Qed.
Print Assumptions C32_recorded.

(** Through the API: the value of each option, and the list of filters. *)
Theorem C32_options :
  forall (cc : cli_config) (path : text) (argv : list text) (out : list text) (inp : input), length argv <= c_max_args cc ->
  parse_arguments cc path argv = Ok (out, Some inp) ->
  (forall name, name <> [] -> option_map a_value (get_option inp name) = setting (read argv) name) /\
  for_each_positional_argument inp (quote "test regex") = Ok (filters (read argv)).
Proof. exact parsed_options. Qed.
Print Assumptions C32_options.

Example C32_example :
  let cc := mkcli 80 32 false (lit "1.2") in
  let argv := map quote ["-r"; "xml"; "a*"; "--shard-count"; "3"; "-l"; "--bogus"; "b"; "-s"]%string in
  read argv = [Given (quote "--reporter") (Some (quote "xml", quote "reporter[::key=value]*")); Filtering (quote "a*");
               Unknown (quote "--shard-count"); Given (quote "--list-tests") None; Unknown (quote "--bogus"); Filtering (quote "b");
               Unknown (quote "-s")] /\
  length argv <= c_max_args cc /\
  (do (out, r) <- parse_arguments cc (quote "./dir.d/test.exe") argv ;; Ok (length out, option_map executable r)) = Ok (3, Some (quote "test")) /\
  (do (out, r) <- parse_arguments cc (quote "t") [quote "-l"; quote "--list-tests"] ;; Ok r) = Ok None /\
  (do (out, r) <- parse_arguments cc (quote "t") [quote "--out"] ;; Ok r) = Ok None.
Proof. cbn zeta. repeat split; try (vm_compute; reflexivity). cbn. lia. Qed.

(** C53. The name of the executable: the file name without its last extension. *)
Theorem C53_executable :
  forall path : text, exists file, file_of path file /\ stem_of file (extract_executable path).
Proof. exact extract_executable_spec. Qed.
Print Assumptions C53_executable.

(** These two relations are functions, so the theorem above determines the name. *)
Theorem C53_unique :
  (forall path file file' : text, file_of path file -> file_of path file' -> file = file') /\
  (forall file stem stem' : text, stem_of file stem -> stem_of file stem' -> stem = stem').
Proof. exact (conj file_of_unique stem_of_unique). Qed.
Print Assumptions C53_unique.

Example C53_example :
  extract_executable (quote "a/b\c.tar.gz") = quote "c.tar" /\ extract_executable (quote "run") = quote "run" /\
  extract_executable (quote "d.d/.run") = [] /\ extract_executable (quote "d.d/") = [].
Proof. repeat split. Qed.
