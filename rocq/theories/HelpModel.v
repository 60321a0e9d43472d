(** Model of the text that --help prints, left out of OptionModel. *)
From Coq Require Import List Ascii String.
From Verif Require Import OptionModel.
Import ListNotations.
Open Scope list_scope.

(** option.rs 90, 101, 109, 117, 125 and 143: the [usage] fields, in the order of
    [OPTIONS] (85-169). *)
Definition usages : list str := map lit [
  "show help message";
  "input path or 'stdin' for standard input";
  "output path or 'stdout' for standard output";
  "number of maximum frames to encode";
  "video resolution (WxH)";
  "video frame rate (N/D, or N for N/1)" ]%string.

(** option.rs 219-220: one line, without the line feed. *)
Definition help_line (o : command_option) (usage : str) : str :=
  match o_short o with
  | Some sn => lit "--" ++ o_name o ++ lit " (-" ++ sn ++ lit "): " ++ usage
  | None => lit "--" ++ o_name o ++ lit ": " ++ usage
  end.

(** option.rs 217-223, [show_help_and_exit]: the lines printed before the process
    ends, which is what [PExit] stands for in OptionModel. *)
Definition help_text : list str := map (fun p => help_line (fst p) (snd p)) (combine options usages).
