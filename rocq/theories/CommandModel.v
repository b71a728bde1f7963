(** Model of the functions of neuro_shooting/command_line_execution_tools.py
    (cited as ce.py) that build strings for the shell: configuration strings and
    the command that runs a Python script.  The result of [run_command_with_args]
    is the string handed to [os.system]; the shell is specified in [ShellSpec].
    Printing is not modelled. *)
From Coq Require Import List String Ascii Arith ZArith Bool.
From Verif Require Import Base SweepModel.
Import ListNotations.
Open Scope string_scope.

(** Python's [s.split(c)] for one character (ce.py:83). *)
Fixpoint split_on (c : ascii) (s : string) : list string :=
  match s with
  | EmptyString => [""]
  | String a r =>
      if Ascii.eqb a c then "" :: split_on c r
      else match split_on c r with
           | [] => [String a ""]
           | p :: ps => String a p :: ps
           end
  end.

(** The backslash and semicolon ce.py writes as ['\;'] (ce.py:78, 89, 100). *)
Definition escaped_semicolon : string := String "\"%char ";".

(** ce.py:82-90 [_escape_semicolons]. *)
Definition escape_semicolons (s : string) : string :=
  match split_on ";"%char s with
  | [] => s
  | [_] => s
  | p :: ps => fold_left (fun ret c => ret ++ escaped_semicolon ++ c) ps p
  end.

(** ce.py:92-102 [add_to_config_string]; [None.split] is an AttributeError. *)
Definition add_to_config_string (cs cs_to_add : option string) : result string :=
  match cs with
  | None | Some "" =>
      match cs_to_add with
      | None => Raise AttributeError
      | Some a => Ok (escape_semicolons a)
      end
  | Some c =>
      match cs_to_add with
      | None => Ok c
      | Some a => Ok (c ++ escaped_semicolon ++ escape_semicolons a)
      end
  end.

(** ce.py:70-80 [create_kv_string]; keys and values as printed by [str]. *)
Definition create_kv_string (kvs : list (string * string)) : string :=
  fst (fold_left (fun acc kv => let '(ret, is_first) := acc in
         if is_first : bool then (ret ++ fst kv ++ "=" ++ snd kv, false)
         else (ret ++ escaped_semicolon ++ fst kv ++ "=" ++ snd kv, false)) kvs ("", true)).

(** ce.py:51-61 [get_bash_precommand]. *)
Definition get_bash_precommand (cuda_visible_devices : option Z) (pre_command : option string) : string :=
  match cuda_visible_devices, pre_command with
  | Some d, Some p => p ++ " && CUDA_VISIBLE_DEVICES=" ++ py_str (VInt d)
  | Some d, None => "CUDA_VISIBLE_DEVICES=" ++ py_str (VInt d)
  | None, Some p => p ++ " && "
  | None, None => ""
  end.

(** ce.py:104-109 [get_string_argument_from_list]. *)
Definition get_string_argument_from_list (arguments_as_list : list string) : string :=
  fold_left (fun s el => (s ++ el) ++ " ") arguments_as_list "".

(** The double quote, in the commands of ce.py:36 and 130-136. *)
Definition dquote : string := String """"%char "".

(** ce.py:126-140 [execute_python_script_via_bash]: the string given to [os.system]. *)
Definition execute_python_script_via_bash (python_script : string) (arguments_as_list : list string)
    (pre_command log_file : option string) : string :=
  let s := get_string_argument_from_list ("python" :: python_script :: arguments_as_list) in
  match pre_command, log_file with
  | Some p, Some l => "bash -c " ++ dquote ++ p ++ " " ++ s ++ " > >(tee " ++ l ++ ") 2>&1" ++ dquote
  | Some p, None => "bash -c " ++ dquote ++ p ++ " " ++ s ++ dquote
  | None, Some l => "bash -c " ++ dquote ++ s ++ " > >(tee " ++ l ++ ") 2>&1" ++ dquote
  | None, None => "bash -c " ++ dquote ++ s ++ dquote
  end.

(** ce.py:30-39 [run_command_with_args]. *)
Definition run_command_with_args (python_script : string) (run_args : config) (path_to_python : string)
    (cuda_visible_devices : option Z) (log_file : option string) : string :=
  let cmd_arg_list := make_arg_list run_args in
  let pre_command := "alias python=" ++ dquote ++ path_to_python ++ dquote in
  let entire_pre_command := get_bash_precommand cuda_visible_devices (Some pre_command) in
  execute_python_script_via_bash python_script cmd_arg_list (Some entire_pre_command) log_file.
