(** C117, C118: the scripts that run many experiments and the scripts they start. *)
From Coq Require Import List String Ascii Arith ZArith QArith Bool.
From Verif Require Import Base SweepModel SweepSpec ShellSpec ArgparseModel ExperimentModel ExperimentSpec ExperimentProofs2 ExperimentProofs3.
Import ListNotations.
Open Scope string_scope.
Open Scope list_scope.
Open Scope nat_scope.

(** ** C117: a started script accepts its arguments and gets the intended settings *)

(** The functional mapping scripts: for every accepted command line, both scripts, whatever is on disk and
    whatever the runs leave. *)
Theorem C117_mapping_accepted python argv ns rnn leaves files :
  parse_args (mapping_sweep_parser python) argv = Some ns -> plain_arguments ns ->
  exists model fcn args runs, pd_get "shooting_model" ns = Some (AText model) /\ pd_get "fcn" ns = Some (AText fcn) /\
    sweep_args_of ns = Ok args /\ mapping_experiments rnn leaves ns files = Ok runs /\
    all_runs (mapping_script rnn model fcn) args
      (fun s dir seed c command => told mapping_parser "simple_functional_mapping_example.py" (settings s dir seed c) command) runs.
Proof. exact (mapping_all_told python argv ns rnn leaves files). Qed.
Print Assumptions C117_mapping_accepted.

Example C117_mapping_case :
  exists ns, parse_args (mapping_sweep_parser "/usr/bin/python") ["--nr_of_seeds"; "2"; "--fcn"; "quadratic"; "--starting_seed_id=7"] = Some ns /\
    plain_arguments ns /\
    option_map (fun r => (r_seed r, r_command r))
      (match mapping_experiments true (fun _ _ => true) ns [] with Ok runs => nth_error runs 7 | Raise _ => None end) =
    Some (8, "bash -c ""alias python=""/usr/bin/python"" && CUDA_VISIBLE_DEVICES=0 python simple_functional_mapping_example.py --use_particle_free_rnn_mode --shooting_model updown_universal --niters 500 --optional_weight 10 --custom_parameter_freezing --unfreeze_parameters_at_iter 50 --save_figures --viz_freq 600 --fcn quadratic --do_not_plot_temporal_data --optimize_over_data_initial_conditions --nr_of_particles 2 --inflation_factor 8 --output_directory long_iteration_particle_free_rnn_sfm_results/run_08_quadratic_updown_universal_nr_of_particles_2_inflation_factor_8 --seed 8  > >(tee long_iteration_particle_free_rnn_sfm_results/run_08_quadratic_updown_universal_nr_of_particles_2_inflation_factor_8/runlog.log) 2>&1""").
Proof. eexists. split; [vm_compute; reflexivity|]. split; [plain_arguments|vm_compute; reflexivity]. Qed.

(** The spiral scripts, for the models spiral.py knows.  For the others see below. *)
Theorem C117_spiral_accepted_partial python argv ns rnn leaves files model :
  parse_args (spiral_sweep_parser python) argv = Some ns -> plain_arguments ns ->
  pd_get "shooting_model" ns = Some (AText model) -> In model spiral_models ->
  exists args runs, sweep_args_of ns = Ok args /\ spiral_experiments rnn leaves ns files = Ok runs /\
    all_runs (spiral_script rnn model) args (fun s dir seed c command => told spiral_parser "spiral.py" (settings s dir seed c) command) runs.
Proof. exact (spiral_all_told python argv ns rnn leaves files model). Qed.
Print Assumptions C117_spiral_accepted_partial.

Example C117_spiral_case :
  exists ns, parse_args (spiral_sweep_parser "python3") ["--shooting_model=simple"; "--nr_of_seeds"; "3"] = Some ns /\
    plain_arguments ns /\ pd_get "shooting_model" ns = Some (AText "simple") /\
    option_map (@List.length run) (match spiral_experiments false (fun _ _ => true) ns [] with Ok runs => Some runs | Raise _ => None end) = Some 36.
Proof.
  eexists. split; [vm_compute; reflexivity|]. split; [plain_arguments|]. split; vm_compute; reflexivity.
Qed.

(** The other four models on offer make spiral.py end at once, in every run. *)
Theorem C117_spiral_refused python argv ns rnn leaves files model :
  parse_args (spiral_sweep_parser python) argv = Some ns -> plain_arguments ns ->
  pd_get "shooting_model" ns = Some (AText model) -> ~ In model spiral_models ->
  exists runs, spiral_experiments rnn leaves ns files = Ok runs /\ forall r, In r runs -> refused spiral_parser "spiral.py" (r_command r).
Proof. exact (spiral_all_refused python argv ns rnn leaves files model). Qed.
Print Assumptions C117_spiral_refused.

(** So not every accepted command line leads to accepted runs: the twelve runs of the model [universal] all fail. *)
Theorem C117_accepted_refuted : exists argv ns runs,
  parse_args (spiral_sweep_parser "python") argv = Some ns /\ plain_arguments ns /\
  spiral_experiments false (fun _ _ => true) ns [] = Ok runs /\ List.length runs = 12 /\
  forall r, In r runs -> refused spiral_parser "spiral.py" (r_command r).
Proof.
  exists ["--shooting_model"; "universal"]. eexists. eexists. split; [vm_compute; reflexivity|]. split; [plain_arguments|].
  split; [vm_compute; reflexivity|]. split; [reflexivity|].
  edestruct (fun p => C117_spiral_refused "python" ["--shooting_model"; "universal"] _ false (fun _ _ => true) [] "universal" eq_refl p eq_refl) as (runs & E & H).
  - plain_arguments.
  - intros M. repeat destruct M as [M|M]; try discriminate M; contradiction.
  - intros r R. apply H. assert (X : Ok runs = Ok _) by (rewrite <- E; vm_compute; reflexivity). injection X as ->. exact R.
Qed.
Print Assumptions C117_accepted_refuted.

(** ** C118: each script runs exactly the wanted runs *)

(** The two scripts with one sweep: exactly the missing runs, in order, each once. *)
Theorem C118_spiral_exact python argv ns leaves files model : parse_args (spiral_sweep_parser python) argv = Some ns -> natural_start ns ->
  pd_get "shooting_model" ns = Some (AText model) ->
  exists args runs, sweep_args_of ns = Ok args /\ spiral_experiments false leaves ns files = Ok runs /\
    map job_of runs = filter (missing (spiral_sweeps model) args ns files) (wanted (spiral_sweeps model) ns).
Proof. exact (fun E _ => spiral_plain_runs python argv ns leaves files model E). Qed.
Print Assumptions C118_spiral_exact.

Theorem C118_mapping_exact python argv ns leaves files model fcn :
  parse_args (mapping_sweep_parser python) argv = Some ns -> natural_start ns ->
  pd_get "shooting_model" ns = Some (AText model) -> pd_get "fcn" ns = Some (AText fcn) ->
  exists args runs, sweep_args_of ns = Ok args /\ mapping_experiments false leaves ns files = Ok runs /\
    map job_of runs = filter (missing (mapping_sweeps model fcn) args ns files) (wanted (mapping_sweeps model fcn) ns).
Proof. exact (fun E _ => mapping_plain_runs python argv ns leaves files model fcn E). Qed.
Print Assumptions C118_mapping_exact.

(** Twelve runs per seed; with the results of one there, eleven. *)
Example C118_exact_case : exists ns, parse_args (spiral_sweep_parser "python") [] = Some ns /\ natural_start ns /\
  pd_get "shooting_model" ns = Some (AText "updown_universal") /\ List.length (wanted (spiral_sweeps "updown_universal") ns) = 12 /\
  option_map (@List.length run) (match spiral_experiments false (fun _ _ => true) ns
    ["spiral_particles_sfm_results/run_00__updown_universal_nr_of_particles_25_inflation_factor_64"] with Ok runs => Some runs | Raise _ => None end) = Some 11.
Proof.
  eexists. split; [vm_compute; reflexivity|]. split; [intros z H; injection H as <-; discriminate|]. repeat split; vm_compute; reflexivity.
Qed.
Example C118_mapping_case : exists ns, parse_args (mapping_sweep_parser "python") ["--nr_of_seeds=2"; "--force_recompute"] = Some ns /\ natural_start ns /\
  pd_get "shooting_model" ns = Some (AText "updown_universal") /\ pd_get "fcn" ns = Some (AText "cubic") /\ forced ns = true /\
  List.length (wanted (mapping_sweeps "updown_universal" "cubic") ns) = 48.
Proof.
  eexists. split; [vm_compute; reflexivity|]. split; [intros z H; injection H as <-; discriminate|]. repeat split; vm_compute; reflexivity.
Qed.

(** The rnn scripts do more than wanted: the default argument of [recursively_sweep_parameters] keeps the
    combinations of the earlier sweeps, so that the particle rnn is also trained with the two particles of the
    particle-free sweeps. *)
Theorem C118_exact_refuted : exists argv ns runs r,
  parse_args (spiral_sweep_parser "python") argv = Some ns /\ natural_start ns /\
  spiral_experiments true (fun _ _ => true) ns [] = Ok runs /\ In r runs /\
  ~ In (job_of r) (wanted (spiral_rnn_sweeps "updown_universal") ns) /\
  r_sweep r = 2 /\ pd_get "nr_of_particles" (r_config r) = Some (VInt 2) /\
  List.length runs = 24 /\ List.length (wanted (spiral_rnn_sweeps "updown_universal") ns) = 20.
Proof.
  exists []. eexists. eexists. eexists. split; [vm_compute; reflexivity|]. split; [intros z H; injection H as <-; discriminate|].
  split; [vm_compute; reflexivity|]. split; [apply (nth_error_In _ 8); reflexivity|]. split.
  - intros H. cbn in H. repeat destruct H as [H|H]; try discriminate H; contradiction.
  - repeat split; vm_compute; reflexivity.
Qed.
Print Assumptions C118_exact_refuted.

(** What holds of all scripts: every missing run is done, whatever the runs before it leave. *)
Theorem C118_spiral_done_partial python argv ns rnn leaves files model :
  parse_args (spiral_sweep_parser python) argv = Some ns -> natural_start ns -> pd_get "shooting_model" ns = Some (AText model) ->
  exists args runs, sweep_args_of ns = Ok args /\ spiral_experiments rnn leaves ns files = Ok runs /\
    forall j, In j (wanted (spiral_script rnn model) ns) -> missing (spiral_script rnn model) args ns files j = true -> In j (map job_of runs).
Proof. exact (fun E _ => spiral_all_done python argv ns rnn leaves files model E). Qed.
Print Assumptions C118_spiral_done_partial.

Theorem C118_mapping_done_partial python argv ns rnn leaves files model fcn :
  parse_args (mapping_sweep_parser python) argv = Some ns -> natural_start ns ->
  pd_get "shooting_model" ns = Some (AText model) -> pd_get "fcn" ns = Some (AText fcn) ->
  exists args runs, sweep_args_of ns = Ok args /\ mapping_experiments rnn leaves ns files = Ok runs /\
    forall j, In j (wanted (mapping_script rnn model fcn) ns) -> missing (mapping_script rnn model fcn) args ns files j = true -> In j (map job_of runs).
Proof. exact (fun E _ => mapping_all_done python argv ns rnn leaves files model fcn E). Qed.
Print Assumptions C118_mapping_done_partial.

(** With [--force_recompute] the runs of the rnn scripts are exactly these: each sweep repeats the combinations
    of all earlier ones, also into the same directory. *)
Theorem C118_spiral_forced_partial python argv ns leaves files model :
  parse_args (spiral_sweep_parser python) argv = Some ns -> natural_start ns ->
  pd_get "shooting_model" ns = Some (AText model) -> forced ns = true ->
  exists runs, spiral_experiments true leaves ns files = Ok runs /\ map job_of runs = accumulated (spiral_rnn_sweeps model) ns.
Proof. exact (fun E _ => spiral_forced python argv ns leaves files model E). Qed.
Print Assumptions C118_spiral_forced_partial.

Theorem C118_mapping_forced_partial python argv ns leaves files model fcn :
  parse_args (mapping_sweep_parser python) argv = Some ns -> natural_start ns ->
  pd_get "shooting_model" ns = Some (AText model) -> pd_get "fcn" ns = Some (AText fcn) -> forced ns = true ->
  exists runs, mapping_experiments true leaves ns files = Ok runs /\ map job_of runs = accumulated (mapping_rnn_sweeps model fcn) ns.
Proof. exact (fun E _ => mapping_forced python argv ns leaves files model fcn E). Qed.
Print Assumptions C118_mapping_forced_partial.

(** Per seed 32 runs of the spiral script where 20 are wanted, 54 of the mapping script where 36 are; six of
    the latter are started three times. *)
Example C118_forced_case : exists ns ns',
  parse_args (spiral_sweep_parser "python") ["--force_recompute"] = Some ns /\ natural_start ns /\ forced ns = true /\
  pd_get "shooting_model" ns = Some (AText "updown_universal") /\
  List.length (accumulated (spiral_rnn_sweeps "updown_universal") ns) = 32 /\ List.length (wanted (spiral_rnn_sweeps "updown_universal") ns) = 20 /\
  parse_args (mapping_sweep_parser "python") ["--force_recompute"] = Some ns' /\ natural_start ns' /\ forced ns' = true /\
  pd_get "shooting_model" ns' = Some (AText "updown_universal") /\ pd_get "fcn" ns' = Some (AText "cubic") /\
  List.length (accumulated (mapping_rnn_sweeps "updown_universal" "cubic") ns') = 54 /\
  List.length (wanted (mapping_rnn_sweeps "updown_universal" "cubic") ns') = 36 /\
  List.length (filter (fun j => match snd j with [(_, VInt 2); (_, VInt 4)] => Nat.eqb (fst (fst j)) 2 | _ => false end) (accumulated (mapping_rnn_sweeps "updown_universal" "cubic") ns')) = 3.
Proof.
  eexists. eexists. split; [vm_compute; reflexivity|]. split; [intros z H; injection H as <-; discriminate|].
  do 4 (split; [vm_compute; reflexivity|]). split; [vm_compute; reflexivity|]. split; [intros z H; injection H as <-; discriminate|].
  repeat split; vm_compute; reflexivity.
Qed.
