(** Property C92: the library as one header. *)
From Coq Require Import Relations.
From Verif.Spec Require Import TextSpec FilterSpec SingleHeaderSpec.
From Verif.Model Require Import Base SingleHeader.
From Verif.Proofs Require Import SingleHeaderProofs LibraryHeaders.

(** C92. Whatever is generated consists of each header of the library, once, after all the headers it includes, then of
    the sources in the order of the main source; of each of them all the lines, in order, but the inclusions of files of
    the library at the beginning of a line; and a guard around the files with ".cpp" in their names. *)
Theorem C92_made :
  forall (fs : files) (root build : text) (limit : nat), absolute root -> absolute build ->
  forall t : text, script fs root build limit = Done t ->
  exists headers srcs lines bodies,
    NoDup headers /\ (forall g, In g headers <-> of_library root build fs g) /\ arranged root build fs headers /\
    fs (main_source root) = Some lines /\ sources root lines srcs /\
    Forall2 (appears fs) (headers ++ srcs) bodies /\ t = whole bodies.
Proof. exact made. Qed.
Print Assumptions C92_made.

(** C92. It is generated if the files exist and no chain of inclusions is too long for Python's recursion. *)
Theorem C92_succeeds :
  forall (fs : files) (root build : text) (limit : nat), absolute root -> absolute build ->
  forall lines srcs : list text,
  present fs (main_header root) -> (forall g, of_library root build fs g -> present fs g) ->
  fs (main_source root) = Some lines -> sources root lines srcs -> (forall f, In f srcs -> present fs f) ->
  (forall l, chain root build fs (main_header root) l -> length l <= limit) ->
  exists t, script fs root build limit = Done t.
Proof. exact succeeds. Qed.
Print Assumptions C92_succeeds.

(** C92. With a header that includes itself, directly or not, nothing is generated... *)
Theorem C92_circular :
  forall (fs : files) (root build : text) (limit : nat), absolute root -> absolute build ->
  forall g : text, present fs (main_header root) -> (forall g, of_library root build fs g -> present fs g) ->
  of_library root build fs g -> clos_trans _ (needs root build fs) g g -> script fs root build limit = Raised TooDeep.
Proof. exact circular. Qed.
Print Assumptions C92_circular.

(** ... but it is not reported as "Circular include pattern detected", which never happens. *)
Theorem C92_reported_refuted :
  forall (fs : files) (root build : text) (limit : nat), absolute root -> absolute build ->
  forall e : exception, script fs root build limit = Raised e -> e = TooDeep \/ e = NoSuchFile.
Proof. exact never_reported. Qed.
Print Assumptions C92_reported_refuted.

(** C92. Headers are not guarded, if ".cpp" is neither in the names of the directories nor in those of the headers. *)
Theorem C92_unguarded :
  forall (root build : text) (fs : files) (g : text), ~ occurs (quote ".cpp") root -> ~ occurs (quote ".cpp") build ->
  (forall f lines line name, fs f = Some lines -> In line lines -> header_name line name -> ~ occurs (quote ".cpp") name) ->
  of_library root build fs g -> ~ occurs (quote ".cpp") g.
Proof. exact unguarded. Qed.
Print Assumptions C92_unguarded.

(** C92. If it is in the name of the directory of the project, all of its headers are guarded: there is nothing without
    SNITCH_IMPLEMENTATION. *)
Theorem C92_directory_refuted :
  forall (root build : text) (fs : files) (g : text), occurs (quote ".cpp") root -> of_library root build fs g ->
  (exists name, located root build name g /\ ~ occurs (quote "snitch_config.hpp") name) -> occurs (quote ".cpp") g.
Proof. exact guarded_headers. Qed.
Print Assumptions C92_directory_refuted.

Definition ln (s : string) : text := quote s ++ line_end.
Definition inc (hash name : string) : text := quote hash ++ quote "include " ++ [double_quote] ++ quote name ++ [double_quote] ++ line_end.

Definition disk (blank : string) (circle : bool) (f : text) : option (list text) :=
  match List.find (fun e => seqb f (fst e))
    [(quote "/r/include/snitch/snitch.hpp", [inc "#" "snitch/snitch_a.hpp"; inc "#" "snitch/snitch_b.hpp"; inc "#" "snitch/snitch_config.hpp"]);
     (quote "/r/include/snitch/snitch_a.hpp", [inc "#  " "snitch/snitch_b.hpp"; inc "#" "snitch/snitch_config.hpp"; ln "int a();"]);
     (quote "/r/include/snitch/snitch_b.hpp", [inc (blank ++ "#")%string "snitch/snitch_config.hpp"; ln "int b();"] ++
                                              (if circle then [inc "#" "snitch/snitch_a.hpp"] else []));
     (quote "/b/snitch/snitch_config.hpp", [ln "#define C"]);
     (quote "/r/src/snitch.cpp", [inc "#" "snitch_a.cpp"; inc "#" "vector"; inc "#" "snitch_b.cpp"]);
     (quote "/r/src/snitch_a.cpp", [inc "#" "snitch/snitch_a.hpp"; ln "int a() { return b(); }"]);
     (quote "/r/src/snitch_b.cpp", [inc "#" "string"; ln "int b() { return 1; }"])] with
  | Some (_, lines) => Some lines
  | None => None
  end.

(** The configuration first, then what uses it, then the sources, guarded. *)
Example C92_example :
  script (disk "" false) (quote "/r") (quote "/b") 10 = Done (
    ln "#ifndef SNITCH_ALL_HPP" ++ ln "#define SNITCH_ALL_HPP" ++ ln "#define C" ++ ln "" ++ ln "int b();" ++ ln "" ++ ln "int a();" ++ ln "" ++
    ln "#if defined(SNITCH_IMPLEMENTATION)" ++ ln "int a() { return b(); }" ++ ln "" ++ ln "#endif" ++ ln "" ++
    ln "#if defined(SNITCH_IMPLEMENTATION)" ++ inc "#" "string" ++ ln "int b() { return 1; }" ++ ln "" ++ ln "#endif" ++ ln "" ++ ln "#endif") /\
  script (disk "" true) (quote "/r") (quote "/b") 10 = Raised TooDeep.
Proof. split; vm_compute; reflexivity. Qed.

(** C92. An inclusion of a header of the library with a space before it stays: the result is not one header. *)
Theorem C92_alone_refuted :
  exists fs root build limit t line, absolute root /\ absolute build /\ script fs root build limit = Done t /\
    occurs (line_end ++ line) t /\ header_name line (quote "snitch/snitch_config.hpp").
Proof.
  exists (disk " " false), (quote "/r"), (quote "/b"), 10.
  eexists. exists (inc " #" "snitch/snitch_config.hpp").
  split; [now eexists|]. split; [now eexists|]. split; [vm_compute; reflexivity|]. split.
  - apply is_in_iff. vm_compute. reflexivity.
  - apply search_include_iff. vm_compute. reflexivity.
Qed.
Print Assumptions C92_alone_refuted.

(** The headers of the library itself (their inclusions): they are not circular, and 20 levels of recursion suffice. *)
Example C92_library : match script library_disk (quote "/r") (quote "/b") 20 with Done _ => True | Raised _ => False end.
Proof. vm_compute. exact I. Qed.
