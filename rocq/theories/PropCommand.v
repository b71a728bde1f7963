(** Properties C79-C81: what the started script gets. *)
From Coq Require Import List String Ascii Arith ZArith Bool.
From Verif Require Import Base SweepModel CommandModel ShellSpec CommandSpec CommandProofs.
Import ListNotations.
Open Scope string_scope.

(** C79, as expected by a user, asks that every option's value arrive as one
    argument.  False: a value with a space arrives as two arguments, an empty
    value does not arrive at all, and a semicolon ends the command. *)
Theorem C79_arguments_refuted :
  delivered (run_command_with_args "a.py" [("x", VStr "1 2")] "/bin/py" (Some 0%Z) None)
    = Some ["python"; "a.py"; "--x"; "1"; "2"] /\
  delivered (run_command_with_args "a.py" [("x", VStr ""); ("y", VInt 3)] "/bin/py" (Some 0%Z) None)
    = Some ["python"; "a.py"; "--x"; "--y"; "3"] /\
  delivered (run_command_with_args "a.py" [("x", VStr "1;2"); ("y", VInt 3)] "/bin/py" (Some 0%Z) None)
    = Some ["python"; "a.py"; "--x"; "1"] /\
  (exists args v, args = [("x", VStr v)] /\
     delivered (run_command_with_args "a.py" args "/bin/py" (Some 0%Z) None)
       <> Some ("python" :: "a.py" :: option_words [("x", Some v)])).
Proof.
  split; [reflexivity|]. split; [reflexivity|]. split; [reflexivity|].
  exists [("x", VStr "1 2")], "1 2". split; [reflexivity|discriminate].
Qed.
Print Assumptions C79_arguments_refuted.

(** C79 for options whose values are plain text, or text with semicolons passed
    through the escaping function: each arrives as it is, in order, for every
    device and log file.  Missing from the full statement: values with characters
    the shell acts upon. *)
Theorem C79_arguments_partial : forall script args os path cuda log,
  plain script -> plain path -> optional_plain log -> Forall2 prints args os ->
  delivered (run_command_with_args script args path cuda log)
  = Some ("python" :: script :: option_words os).
Proof. exact command_delivered. Qed.
Print Assumptions C79_arguments_partial.

(** The script also gets the device, as a variable of its own. *)
Theorem C79_device_partial : forall script args os path cuda log,
  plain script -> plain path -> optional_plain log -> Forall2 prints args os ->
  environment (run_command_with_args script args path cuda log)
  = Some (match cuda with Some d => ["CUDA_VISIBLE_DEVICES=" ++ py_str (VInt d)] | None => [] end).
Proof. exact command_environment. Qed.
Print Assumptions C79_device_partial.

Example C79_case :
  let args := [("lr", VFloat "0.1"); ("verbose", VNone); ("config", VStr (escape_semicolons "a=1;b=2"))] in
  let os := [("lr", Some "0.1"); ("verbose", None); ("config", Some "a=1;b=2")] in
  plain "run.py" /\ plain "/opt/bin/python3" /\ optional_plain (Some "out/log.txt") /\ Forall2 prints args os /\
  delivered (run_command_with_args "run.py" args "/opt/bin/python3" (Some 1%Z) (Some "out/log.txt"))
    = Some ["python"; "run.py"; "--lr"; "0.1"; "--verbose"; "--config"; "a=1;b=2"] /\
  environment (run_command_with_args "run.py" args "/opt/bin/python3" (Some 1%Z) (Some "out/log.txt"))
    = Some ["CUDA_VISIBLE_DEVICES=1"].
Proof.
  assert (P : forall s, match s with EmptyString => false | _ => all_chars plain_char s end = true -> plain s)
    by (intros [|c s]; [discriminate|split; [discriminate|assumption]]).
  split; [apply P; reflexivity|]. split; [apply P; reflexivity|]. split; [apply P; reflexivity|].
  split; [|split; reflexivity].
  constructor; [split; [reflexivity|split; [apply P; reflexivity|]]|].
  - split; [discriminate|left; split; [apply P; reflexivity|reflexivity]].
  - constructor; [split; [reflexivity|split; [apply P; reflexivity|reflexivity]]|].
    constructor; [|constructor]. split; [reflexivity|]. split; [apply P; reflexivity|].
    split; [discriminate|right]. split; [split; [discriminate|reflexivity]|reflexivity].
Qed.

(** C80 is false: the interpreter passed as [path_to_python] is never the one
    started.  The alias naming it is not expanded by a shell that is not interactive. *)
Theorem C80_interpreter_refuted :
  exists script path, plain script /\ plain path /\
    delivered (run_command_with_args script [] path (Some 0%Z) None) <> Some [path; script].
Proof.
  exists "a.py", "/opt/bin/python3". split; [split; [discriminate|reflexivity]|].
  split; [split; [discriminate|reflexivity]|discriminate].
Qed.
Print Assumptions C80_interpreter_refuted.

(** C80: whatever the path, the command started is the plain name [python],
    looked up in the usual way.  So the property holds when the path is that name. *)
Theorem C80_interpreter_partial : forall script args os path cuda log,
  plain script -> plain path -> optional_plain log -> Forall2 prints args os ->
  (exists rest, delivered (run_command_with_args script args path cuda log) = Some ("python" :: rest)) /\
  (forall path', plain path' ->
     delivered (run_command_with_args script args path' cuda log)
     = delivered (run_command_with_args script args path cuda log)).
Proof.
  exact (fun script args os path cuda log PS PP PL F =>
    conj (ex_intro _ _ (command_delivered script args os path cuda log PS PP PL F))
         (fun path' PP' => eq_trans (command_delivered script args os path' cuda log PS PP' PL F)
                                    (eq_sym (command_delivered script args os path cuda log PS PP PL F)))).
Qed.
Print Assumptions C80_interpreter_partial.

Example C80_case :
  delivered (run_command_with_args "a.py" [] "/opt/bin/python3" (Some 0%Z) None) = Some ["python"; "a.py"] /\
  delivered (run_command_with_args "a.py" [] "/usr/bin/python2" (Some 0%Z) None) = Some ["python"; "a.py"].
Proof. split; reflexivity. Qed.

(** C81, as expected by a user: a configuration string built from parts is the
    escaped form of the parts joined by semicolons.  False: an empty part in front
    is lost, adding nothing to nothing raises an exception, semicolons in the
    string added to are not escaped, and neither are those in key-value pairs. *)
Theorem C81_config_refuted :
  add_to_config_string (Some "") (Some "a") <> Ok (escape_semicolons (joined_by_semicolons [""; "a"])) /\
  add_to_config_string None None = Raise AttributeError /\
  add_to_config_string (Some "") None = Raise AttributeError /\
  add_to_config_string (Some "a;b") (Some "c") <> Ok (escape_semicolons (joined_by_semicolons ["a;b"; "c"])) /\
  create_kv_string [("k", "1;2")] <> escape_semicolons (joined_by_semicolons ["k=1;2"]).
Proof. repeat split; discriminate. Qed.
Print Assumptions C81_config_refuted.

(** C81 from nothing: the parts added one after the other, the leading empty ones
    dropped, joined and escaped. *)
Theorem C81_config_partial : forall start parts, start = None \/ start = Some "" -> parts <> [] ->
  exists s, foldM (fun cs p => s <- add_to_config_string cs (Some p) ;; Ok (Some s)) parts start = Ok (Some s) /\
    s = escape_semicolons (joined_by_semicolons (drop_empty parts)).
Proof. exact config_string_all. Qed.
Print Assumptions C81_config_partial.

(** C81 for key-value pairs without semicolons. *)
Theorem C81_key_values_partial : forall kvs,
  Forall (fun kv => ~ In ";"%char (list_ascii_of_string (fst kv ++ "=" ++ snd kv))) kvs ->
  create_kv_string kvs = escape_semicolons (joined_by_semicolons (map (fun kv => fst kv ++ "=" ++ snd kv) kvs)).
Proof. exact kv_join. Qed.
Print Assumptions C81_key_values_partial.

(** What is joined can be split again. *)
Theorem C81_split_again : forall parts, parts <> [] ->
  Forall (fun p => ~ In ";"%char (list_ascii_of_string p)) parts ->
  split_on ";" (joined_by_semicolons parts) = parts.
Proof. exact split_join. Qed.
Print Assumptions C81_split_again.

Example C81_case :
  foldM (fun cs p => s <- add_to_config_string cs (Some p) ;; Ok (Some s)) [""; "a=1"; "b=2;c=3"; ""] None
    = Ok (Some (escape_semicolons "a=1;b=2;c=3;")) /\
  create_kv_string [("a", "1"); ("b", "2")] = escape_semicolons "a=1;b=2" /\
  split_on ";" "a=1;b=2" = ["a=1"; "b=2"].
Proof. repeat split; reflexivity. Qed.
