(** Model of the functions of neuro_shooting/command_line_execution_tools.py (cited as ce.py) that start processes
    and name log files.  Processes are external: what they write and their exit code are given by arbitrary functions. *)
From Coq Require Import List String Ascii Arith ZArith Bool.
From Verif Require Import Base SweepModel CommandModel FigureModel.
Import ListNotations.
Open Scope list_scope.
Open Scope string_scope.

(** ce.py:63-68 [get_stage_log_filename]. *)
Definition get_stage_log_filename (output_directory : string) (stage : Z) (process_name : option string) : string :=
  match process_name with
  | Some name => path_join output_directory ("log_stage_" ++ py_str (VInt stage) ++ "_" ++ name ++ ".txt")
  | None => path_join output_directory ("log_stage_" ++ py_str (VInt stage) ++ ".txt")
  end.

(** What a function does: the processes it starts, the text it prints (one entry for each [print]) and its result
    (for ce.py:111-124, 142-149). *)
Record outcome (P : Type) := mkOutcome { started : list P; printed : list string; returned : result unit }.
Arguments mkOutcome {P}. Arguments started {P}. Arguments printed {P}. Arguments returned {P}.

(** The end of a line (ce.py:117, 146). *)
Definition newline : ascii := ascii_of_nat 10.

(** ce.py:111-124 [execute_command]; [exit_code] is what [subprocess.call] (124) returns for a list of arguments. *)
Definition execute_command (exit_code : list string -> Z) (command : string) (arguments_as_list : list string) (verbose : bool)
  : outcome (list string) :=
  let arguments_as_one_string := get_string_argument_from_list arguments_as_list in
  let shown := if verbose then [String newline "Executing command:"; "     " ++ command ++ " " ++ arguments_as_one_string] else [] in
  let command_list := fold_left (fun l el => l ++ [el])%list arguments_as_list [command] in
  let _ := exit_code command_list in
  mkOutcome [command_list] shown (Ok tt).

(** Python's two kinds of text (for ce.py:145-146). *)
Inductive text := Bytes (s : string) | Str (s : string).

(** [out.split('\n')] (ce.py:146): the separator is a [str], which [bytes] do not take. *)
Definition split_lines (out : text) : result (list string) :=
  match out with
  | Bytes _ => Raise TypeError
  | Str s => Ok (split_on newline s)
  end.

(** ce.py:146-149: the lines which are printed, for the output of the process. *)
Definition show_output (out : text) : result (list string) :=
  result <- split_lines out ;;
  Ok (fold_left (fun shown lin => if String.prefix "#" lin then shown else shown ++ [lin])%list result []).

(** ce.py:144-145: [Popen] (with neither [text], [encoding] nor [universal_newlines]) and [communicate] give bytes. *)
Definition popen_output (writes : string -> string) (cmd_full : string) : text := Bytes (writes cmd_full).

(** ce.py:142-149 [call_python_script]; [writes] is what the shell's command writes. *)
Definition call_python_script (writes : string -> string) (cmd : string) : outcome string :=
  let cmd_full := "python " ++ cmd in
  let out := popen_output writes cmd_full in
  match show_output out with
  | Ok shown => mkOutcome [cmd_full] shown (Ok tt)
  | Raise x => mkOutcome [cmd_full] [] (Raise x)
  end.
