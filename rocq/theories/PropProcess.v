(** C151: the output of a script.  C152: log files of stages.  C153: commands with arguments. *)
From Coq Require Import List String Ascii Arith ZArith Bool.
From Verif Require Import Base SweepModel CommandModel FigureModel ProcessModel ProcessSpec ProcessProofs.
Import ListNotations.
Open Scope list_scope.
Open Scope string_scope.

(** Full statement of C151: [call_python_script] prints the lines of the script's output which are no comments.
    False: a script which writes one line. *)
Theorem C151_shown_refuted :
  exists writes cmd, writes ("python " ++ cmd)%string = "done" /\
  printed (call_python_script writes cmd) <> ["done"] /\ returned (call_python_script writes cmd) = Raise TypeError.
Proof. exists (fun _ => "done"), "train.py". split; [reflexivity|]. split; [discriminate|reflexivity]. Qed.
Print Assumptions C151_shown_refuted.

(** Indeed the script runs, once, and whatever it writes (also nothing) the function prints nothing and raises, since the
    output of the process is [bytes] and the separator of the lines a [str]. *)
Theorem C151_script_partial :
  forall writes cmd, call_python_script writes cmd = mkOutcome [("python " ++ cmd)%string] [] (Raise TypeError).
Proof. exact (fun writes cmd => eq_refl). Qed.
Print Assumptions C151_script_partial.

(** With an output of type [str] the rest of the function would be right (missing: that it gets one). *)
Theorem C151_text_partial :
  forall s, exists ls rs, unlines ls = s /\ Forall one_line ls /\ uncommented ls rs /\ show_output (Str s) = Ok rs.
Proof. exact text_shown. Qed.
Print Assumptions C151_text_partial.

Example C151_example :
  show_output (Str ("# epoch" ++ String newline ("loss 1" ++ String newline "")))%string = Ok ["loss 1"; ""].
Proof. reflexivity. Qed.

(** C152: in one directory, stages and processes have log files of their own, for all numbers of stages (also negative
    ones) and all names of processes (also with digits, underscores, dots or none at all). *)
Theorem C152_own_file :
  forall directory stage stage' name name',
  get_stage_log_filename directory stage name = get_stage_log_filename directory stage' name' -> stage = stage' /\ name = name'.
Proof. exact log_names_distinct. Qed.
Print Assumptions C152_own_file.

Example C152_example :
  get_stage_log_filename "out" 1 (Some "2") = "out/log_stage_1_2.txt" /\
  get_stage_log_filename "out/" 12 None = "out/log_stage_12.txt" /\
  get_stage_log_filename "out" 1 (Some "2") <> get_stage_log_filename "out" 12 None.
Proof. split; [reflexivity|]. split; [reflexivity|]. discriminate. Qed.

(** Full statement of C153: [execute_command] runs the command with exactly the given arguments, and a failure of it
    can be told from success.  The second half is false. *)
Theorem C153_failure_refuted :
  exists succeeds fails command arguments, succeeds (command :: arguments) = 0%Z /\ fails (command :: arguments) <> 0%Z /\
  execute_command succeeds command arguments true = execute_command fails command arguments true.
Proof. exists (fun _ => 0%Z), (fun _ => 1%Z), "python", ["train.py"]. split; [reflexivity|]. split; [discriminate|reflexivity]. Qed.
Print Assumptions C153_failure_refuted.

(** The first half: one process with the command and the arguments as they are, whatever characters they contain,
    printed or not (missing: the exit code). *)
Theorem C153_arguments_partial :
  forall exit_code command arguments verbose,
  started (execute_command exit_code command arguments verbose) = [command :: arguments] /\
  (verbose = false -> printed (execute_command exit_code command arguments verbose) = []).
Proof.
  exact execute_command_runs.
Qed.
Print Assumptions C153_arguments_partial.

(** Arguments with spaces and quotes: the printed command is that of other arguments, the process gets them apart. *)
Example C153_example :
  printed (execute_command (fun _ => 0%Z) "ls" ["a b"] true) = printed (execute_command (fun _ => 0%Z) "ls" ["a"; "b"] true) /\
  started (execute_command (fun _ => 0%Z) "ls" ["a b"] true) = [["ls"; "a b"]].
Proof. split; reflexivity. Qed.
