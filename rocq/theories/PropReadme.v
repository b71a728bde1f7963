(** Property C130: the training commands shown in the README of the demos. *)
From Coq Require Import List String Ascii ZArith QArith Qcanon Reals Lia Arith.
From Verif Require Import Base Tensor ShellSpec ReadmeSpec ReadmeModel ReadmeProofs ReadmeProofs2 ArgparseModel ExperimentModel VecModel VecFlow
  CirclesModel CirclesSpec AutoencoderModel AutoencoderSpec ImagesModel ImagesSpec ImagesExamples PropCircles.
Import ListNotations.
Open Scope string_scope.
Open Scope list_scope.
Open Scope nat_scope.

(** C130 asks that every shown command, pasted into a shell, starts its script once, with all the words shown, and that
    the script accepts them.  False for both commands of simple_functional_mapping_example.py. *)
Theorem C130_commands_refuted : exists c d, In c training_commands /\ In d training_commands /\
  pasted (sc_text c) <> Some [shown (sc_text c)] /\ pasted (sc_text d) <> Some [shown (sc_text d)] /\
  (* as shown, both would be accepted, for 500 iterations, with parameters frozen up to iteration 50 *)
  (forall e, e = c \/ e = d -> exists args ns, shown (sc_text e) = "python" :: sc_script e :: args /\ parse_args (sc_parser e) args = Some ns /\
     option_is ns "niters" (AInt 500) /\ option_is ns "unfreeze_parameters_at_iter" (AInt 50)) /\
  (* the first gets a blank as last argument and is refused; then its last two lines are a command of their own *)
  (exists args, pasted (sc_text c) = Some ["python" :: sc_script c :: args; ["--optimize_over_data_initial_conditions"; "--niter"; "500"]] /\
     parse_args (sc_parser c) args = None) /\
  (* the second runs, but for 250 iterations and with the parameters never unfrozen *)
  (exists args ns, pasted (sc_text d) = Some ["python" :: sc_script d :: args;
       ["--unfreeze_parameters_at_iter"; "50"; "--optimize_over_data_initial_conditions"; "--niter"; "500"]] /\
     parse_args (sc_parser d) args = Some ns /\ option_is ns "niters" (AInt 250) /\ option_is ns "unfreeze_parameters_at_iter" (AInt (-1)) /\
     option_is ns "custom_parameter_freezing" (AFlag true)).
Proof.
  exists cubic, quadratic. split; [left; reflexivity|]. split; [right; left; reflexivity|].
  split; [vm_compute; discriminate|]. split; [vm_compute; discriminate|]. split; [|split].
  - intros e [-> | ->]; eexists _, _; (split; [vm_compute; reflexivity|]); (split; [vm_compute; reflexivity|]); split; reflexivity.
  - eexists. split; [vm_compute; reflexivity|]. vm_compute. reflexivity.
  - eexists _, _. split; [vm_compute; reflexivity|]. split; [vm_compute; reflexivity|]. repeat split; reflexivity.
Qed.
Print Assumptions C130_commands_refuted.

(** The other four start their script with the words shown, which the script accepts.
    Missing from the full statement: the two commands above. *)
Theorem C130_commands_partial : forall c, In c [spiral; circles; rotation; bouncing] ->
  exists args ns, pasted (sc_text c) = Some ["python" :: sc_script c :: args] /\ shown (sc_text c) = "python" :: sc_script c :: args /\
    parse_args (sc_parser c) args = Some ns.
Proof. exact working_commands. Qed.
Print Assumptions C130_commands_partial.

Example C130_commands_case : exists args ns, pasted spiral_text = Some ["python" :: "spiral.py" :: args] /\ parse_args spiral_parser args = Some ns /\
  List.length args = 21 /\ option_is ns "niters" (AInt 2000) /\ option_is ns "inflation_factor" (AInt 32) /\ option_is ns "viz" (AFlag true) /\
  option_is ns "unfreeze_parameters_at_iter" (AInt 50).
Proof. eexists _, _. split; [vm_compute; reflexivity|]. split; [vm_compute; reflexivity|]. repeat split; reflexivity. Qed.

(** For any command written over several lines, of plain words: the shell starts it once with the words shown exactly if
    every line but the last ends with a backslash and nothing behind it. *)
Theorem C130_lines : forall l n ws k, Forall (fun x => snd (fst x) <> [] /\ Forall plain (snd (fst x))) l -> ws <> [] -> Forall plain ws ->
  let text := written (l ++ [(n, ws, Bare k)]) in
  pasted text = Some [shown text] <-> Forall (fun x => snd x = Continued) l.
Proof. exact pasted_exactly. Qed.
Print Assumptions C130_lines.

Example C130_lines_case :
  let l := [(0, ["python"; "simple_functional_mapping_example.py"], Continued); (3, ["--fcn"; "cubic"], Continued);
            (3, ["--custom_parameter_freezing"], Continued); (3, ["--unfreeze_parameters_at_iter"; "50"], Spaced 0);
            (3, ["--optimize_over_data_initial_conditions"], Continued)] in
  written (l ++ [(3, ["--niter"; "500"], Bare 0)]) = cubic_text /\
  Forall (fun x => snd (fst x) <> [] /\ Forall plain (snd (fst x))) l /\ Forall plain ["--niter"; "500"] /\ ~ Forall (fun x => snd x = Continued) l.
Proof.
  cbv zeta. split; [reflexivity|]. split; [|split].
  - repeat constructor; try discriminate; vm_compute; reflexivity.
  - repeat constructor; discriminate.
  - intros H. rewrite Forall_forall in H. specialize (H (3, ["--unfreeze_parameters_at_iter"; "50"], Spaced 0)). discriminate H. cbn. tauto.
Qed.

(** In general: which commands are started, for any line ends. *)
Theorem C130_started : forall l, Forall (fun x => Forall plain (snd (fst x))) l -> pasted (written l) = Some (started [] l).
Proof. exact pasted_written. Qed.
Print Assumptions C130_started.

Example C130_started_case :
  let l := [(0, ["python"; "cc.py"], Continued); (2, ["--pw"; "2"], Spaced 3); (2, ["--lr"; "1"], Continued); (0, ["--seed"; "1"], Bare 2)] in
  Forall (fun x => Forall plain (snd (fst x))) l /\ started [] l = [["python"; "cc.py"; "--pw"; "2"; " "]; ["--lr"; "1"; "--seed"; "1"]].
Proof. split; [repeat constructor; discriminate|reflexivity]. Qed.

(** None of the parsers accepts a blank behind an accepted command line. *)
Theorem C130_blank_rejected : forall p ws ns, parse_args p ws = Some ns -> parse_args p (ws ++ [" "]) = None.
Proof. exact blank_rejected. Qed.
Print Assumptions C130_blank_rejected.

Example C130_blank_case : exists ns, parse_args mapping_parser ["--fcn"; "cubic"; "--viz"] = Some ns.
Proof. eexists. vm_compute. reflexivity. Qed.

(** The shown command of cc.py saves the model, 20 recordings (one for each epoch of 24 training and 24 testing
    passes and one pass more) and 20 results. *)
Theorem C130_circles_partial : forall args, pasted cc_text = Some ["python" :: "cc.py" :: args] ->
  forall nonlinearity all writable unusual, (forall k, solver (e_prog (all k))) ->
  writable "model_20.pt" = true -> writable "model_20.pkl" = true -> writable "model_20_results_.pkl" = true ->
  exists tr, cc nonlinearity all writable unusual args =
      Some (Ok tt, [("model_20.pt", CModel); ("model_20.pkl", CTracker tr); ("model_20_results_.pkl", CResults 20)]) /\
    List.length tr = 20 /\
    forall i r, nth_error tr i = Some r -> recording 20 40 (evaluation_times (e_prog (all (S i * 49)))) r.
Proof. exact circles_run. Qed.
Print Assumptions C130_circles_partial.

Example C130_circles_case : exists args, pasted cc_text = Some ["python" :: "cc.py" :: args] /\ (forall k, solver (e_prog (some_entries k))).
Proof. eexists. split; [vm_compute; reflexivity|exact some_solver]. Qed.

(** The shown command of rot.py saves four files, with an entry of the tracker for each of the 500 epochs. *)
Theorem C130_rotation_partial : forall args, pasted rot_text = Some ["python" :: "rot.py" :: args] ->
  forall value blocks shuffle order unusual X M p, (forall ns k m, 1 <= m -> block_gives (blocks ns k) 20 16 m) ->
  (forall k, shuffles (shuffle k)) -> orders 500 order -> twf X -> tshape X = [M; 16; 784] -> 500 < M -> no_single (M - 500) ->
  exists ns tr images, rot value blocks shuffle order unusual X (Some p) args =
    Some (Ok [((p ++ "/model.pt")%string, RModel); ((p ++ "/tracker.pkl")%string, RTracker tr);
              ((p ++ "/args.pkl")%string, RArgs ns); ((p ++ "/images.pkl")%string, RImages images)]) /\
    List.length tr = 500 /\ forall i t, nth_error tr i = Some t -> good_entry (M - 500) i t.
Proof. exact rotation_run. Qed.
Print Assumptions C130_rotation_partial.

Example C130_rotation_case : exists args, pasted rot_text = Some ["python" :: "rot.py" :: args] /\
  (forall (ns : pdict argval) k m, 1 <= m -> block_gives (zeros 20 16 k) 20 16 m) /\ no_single (600 - 500) /\
  twf (tfill 0%Qc [600; 16; 784]).
Proof. eexists. split; [vm_compute; reflexivity|]. split; [intros _; apply zeros_gives|]. split; [discriminate|apply fill_wf]. Qed.

(** The shown command of balls.py saves a model the first time, and is refused when it is run again. *)
Theorem C130_bouncing_partial : forall args, pasted balls_text = Some ["python" :: "balls.py" :: args] ->
  forall value blocks order unusual train test val M1 M2 M3 T1 T2 T3 exists_,
  (forall ns k m, 1 <= m -> block_gives (blocks ns k) 40 20 m) -> orders M1 order ->
  images train M1 T1 -> images test M2 T2 -> images val M3 T3 -> 20 <= T1 -> 20 <= T2 -> 20 <= T3 ->
  0 < M1 -> 0 < M2 -> 0 < M3 -> no_single M1 -> no_single M2 -> no_single M3 ->
  (exists_ "balls_experiment" = false -> exists file, balls value blocks order unusual train test val exists_ args = Some (Ok tt, Some file)) /\
  (exists_ "balls_experiment" = true -> balls value blocks order unusual train test val exists_ args = Some (Raise OSError, None)).
Proof. exact bouncing_run. Qed.
Print Assumptions C130_bouncing_partial.

Example C130_bouncing_case : exists args, pasted balls_text = Some ["python" :: "balls.py" :: args] /\
  (forall (ns : pdict argval) k m, 1 <= m -> block_gives (zeros 40 20 k) 40 20 m) /\ orders 50 (fun _ => seq 0 50) /\
  images (tfill 0%Qc [50; 100; 28; 28]) 50 100 /\ no_single 50.
Proof.
  eexists. split; [vm_compute; reflexivity|]. split; [intros _; apply zeros_gives|]. split; [apply same_order|]. split; [apply fill_images|discriminate].
Qed.
