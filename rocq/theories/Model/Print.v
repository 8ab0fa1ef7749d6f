(** Model of console output: include/snitch/snitch_console.hpp, [cli::print] (include/snitch/snitch_cli.hpp:36-41)
    and [registry::print] (include/snitch/snitch_registry.hpp:164-201). Texts given to a print callback are collected
    in a list, one element per call. *)
From Verif.Model Require Import Base Vector StringUtil.
From Verif.Spec Require Import PrintSpec. (* only for the vocabulary [piece] *)

(** include/snitch/snitch_console.hpp:14-24, the colours; 27 is the escape character. *)
Definition esc : str := [ascii_of_nat 27].
Definition color_error : str := esc ++ lit "[1;31m".
Definition color_warning : str := esc ++ lit "[1;33m".
Definition color_status : str := esc ++ lit "[1;36m".
Definition color_fail : str := esc ++ lit "[1;31m".
Definition color_skipped : str := esc ++ lit "[1;33m".
Definition color_pass : str := esc ++ lit "[1;32m".
Definition color_highlight1 : str := esc ++ lit "[1;35m".
Definition color_highlight2 : str := esc ++ lit "[1;36m".
Definition color_reset : str := esc ++ lit "[0m".

(** Arguments of print functions ([piece], Spec/PrintSpec.v): something convertible to [std::string_view]; a number, by
    its text (appending a number is appending its text, see C04, C05); a coloured text (snitch_console.hpp:26-31
    [colored]). *)

(** include/snitch/snitch_console.hpp:33-36 [make_colored]. *)
Definition make_colored (value : str) (with_color : bool) (start : str) : piece :=
  Colored value (if with_color then start else []) (if with_color then color_reset else []).

(** include/snitch/snitch_console.hpp:38-50 [append(small_string_span, const colored<T>&)]. *)
Definition append_colored (ss : sstr) (value start stop : str) : res (sstr * bool) :=
  do av <- vavailable ss ;;
  if av <=? length start + length stop then Ok (ss, false)
  else
    do (ss1, ok) <- append_all ss [start; value] ;;
    do ss2 <- (if ok : bool then Ok ss1 else do n <- csub (vcap ss1) (length stop) ;; vresize ss1 n) ;;
    do (ss3, ok2) <- append ss2 stop ;;
    Ok (ss3, ok2 && ok).

Definition append_piece (ss : sstr) (p : piece) : res (sstr * bool) :=
  match p with
  | Text s | Number s => append ss s
  | Colored value start stop => append_colored ss value start stop
  end.

(** include/snitch/snitch_append.hpp:378-382, the variadic [append], on arguments of these kinds. *)
Fixpoint append_pieces (ss : sstr) (l : list piece) : res (sstr * bool) :=
  match l with
  | [] => Ok (ss, true)
  | p :: l' =>
    do (ss1, ok) <- append_piece ss p ;;
    if ok : bool then append_pieces ss1 l' else Ok (ss1, false)
  end.

(** include/snitch/snitch_cli.hpp:36-41 [cli::print] with snitch_string_utility.hpp:29-37 [append_or_truncate];
    the text given to [console_print]. [mm] is [max_message_length]. *)
Definition cli_print (mm : nat) (l : list piece) : res str :=
  do (ss, ok) <- append_pieces (new_string mm) l ;;
  if ok : bool then Ok (vcontent ss)
  else do ss1 <- truncate_end ss ;; Ok (vcontent ss1).

(** Calls of [cli::print] in sequence. *)
Fixpoint prints (mm : nat) (l : list (list piece)) : res (list str) :=
  match l with
  | [] => Ok []
  | p :: l' => do s <- cli_print mm p ;; do r <- prints mm l' ;; Ok (s :: r)
  end.

(** include/snitch/snitch_registry.hpp:164-187 [append_or_print]; returns the buffer and the texts given to the
    print callback. *)
Definition append_or_print (ss : sstr) (p : piece) : res (sstr * list str) :=
  let init_size := vsize ss in
  do (ss1, ok) <- append_piece ss p ;;
  if ok : bool then Ok (ss1, [])
  else
    do ss2 <- vresize ss1 init_size ;;
    let first := vcontent ss2 in
    do (ss3, ok2) <- append_piece (vclear ss2) p ;;
    if ok2 : bool then Ok (ss3, [first])
    else
      match p with
      | Text value => Ok (vclear ss3, [first; value])
      | _ =>
        let second := vcontent ss3 in
        do (ss4, _) <- append (vclear ss3) (lit "...") ;;
        Ok (ss4, [first; second])
      end.

Fixpoint print_loop (ss : sstr) (l : list piece) : res (sstr * list str) :=
  match l with
  | [] => Ok (ss, [])
  | p :: l' =>
    do (ss1, out1) <- append_or_print ss p ;;
    do (ss2, out2) <- print_loop ss1 l' ;;
    Ok (ss2, out1 ++ out2)
  end.

(** include/snitch/snitch_registry.hpp:189-201 [print]: the overload for one text, and the general one. *)
Definition registry_print (mm : nat) (l : list piece) : res (list str) :=
  match l with
  | [Text s] => Ok [s]
  | _ =>
    do (message, out) <- print_loop (new_string mm) l ;;
    Ok (out ++ (if vsize message =? 0 then [] else [vcontent message]))
  end.
