(** Larger limits (C101). Like ProgramClaims this speaks about the limits of the model. *)
From Verif.Model Require Import Base Session.

(** No limit is smaller; those on the lengths of texts that are cut when they are too long, and what is not a limit, are
    the same. *)
Record at_least_as_large (lm lm' : limits) : Prop := {
  same_capture_length : l_max_capture_length lm' = l_max_capture_length lm;
  same_message_length : l_max_message_length lm' = l_max_message_length lm;
  same_color : l_default_with_color lm' = l_default_with_color lm;
  same_version : l_version lm' = l_version lm;
  more_nested : l_max_nested lm <= l_max_nested lm';
  more_captures : l_max_captures lm <= l_max_captures lm';
  more_tag_length : l_max_tag_length lm <= l_max_tag_length lm';
  more_name_length : l_max_test_name_length lm <= l_max_test_name_length lm';
  more_unique_tags : l_max_unique_tags lm <= l_max_unique_tags lm';
  more_args : l_max_command_line_args lm <= l_max_command_line_args lm';
  more_reporters : l_max_reporters lm <= l_max_reporters lm';
  more_path_length : l_max_path_length lm <= l_max_path_length lm'
}.
