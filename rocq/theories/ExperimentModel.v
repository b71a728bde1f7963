(** Model of the scripts which run many experiments: demos/neurips20/run_experiments_spiral.py (es.py),
    run_experiments_spiral_rnn.py (esr.py),
    run_long_iteration_experiments_simple_functional_mapping.py (el.py) and
    run_long_iteration_experiments_simple_functional_mapping_rnn.py (elr.py), with the command lines of
    neuro_shooting/experiment_utils.py (eu.py), demos/neurips20/spiral.py and
    demos/neurips20/simple_functional_mapping_example.py (sfm.py).

    The commands are those of [CommandModel], the sweeps those of [SweepModel].  A started script may or may
    not leave a pt file: that is an argument.  Simplified: seeds are natural numbers; directories can be
    created; printing is left out. *)
From Coq Require Import List String Ascii Arith ZArith QArith Bool.
From Verif Require Import Base SweepModel CommandModel ArgparseModel.
Import ListNotations.
Open Scope string_scope.
Open Scope list_scope.
Open Scope nat_scope.

(** ** Command lines *)

(** eu.py:23, 38-40: the models on offer *)
Definition offered_models : list string :=
  ["updown_universal"; "universal"; "periodic"; "dampened_updown"; "simple"; "2nd_order"; "updown"; "general_updown"].

(** eu.py:16-28; [python] is what [which python] prints (line 19) *)
Definition mapping_sweep_parser (python : string) : parser :=
  [("gpu", Value TInt (AInt 0)); ("path_to_python", Value (TText None) (AText python));
   ("nr_of_seeds", Value TInt (AInt 1)); ("starting_seed_id", Value TInt (AInt 0));
   ("fcn", Value (TText (Some ["cubic"; "quadratic"])) (AText "cubic"));
   ("shooting_model", Value (TText (Some offered_models)) (AText "updown_universal"));
   ("output_base_directory", Value (TText None) (AText "sfm_results")); ("force_recompute", Flag)].

(** eu.py:30-47; [python] is what [which python] prints (line 33) *)
Definition spiral_sweep_parser (python : string) : parser :=
  [("gpu", Value TInt (AInt 0)); ("path_to_python", Value (TText None) (AText python));
   ("nr_of_seeds", Value TInt (AInt 1)); ("starting_seed_id", Value TInt (AInt 0));
   ("shooting_model", Value (TText (Some offered_models)) (AText "updown_universal"));
   ("output_base_directory", Value (TText None) (AText "sfm_results")); ("force_recompute", Flag)].

(** spiral.py:39-107 *)
Definition spiral_parser : parser :=
  [("method", Value (TText (Some ["dopri5"; "adams"; "rk4"])) (AText "rk4"));
   ("stepsize", Value TFloat (ANum (5 # 100))); ("data_size", Value TInt (AInt 200));
   ("batch_time", Value TInt (AInt 5)); ("batch_size", Value TInt (AInt 100)); ("lr", Value TFloat (ANum (5 # 100)));
   ("niters", Value TInt (AInt 2000)); ("batch_validation_size", Value TInt (AInt 25));
   ("seed", Value TInt (AInt (-1))); ("optional_weight", Value TFloat (ANum 10)); ("linear", Flag);
   ("test_freq", Value TInt (AInt 100)); ("viz_freq", Value TInt (AInt 100)); ("validate_with_long_range", Flag);
   ("chunk_time", Value TInt (AInt 5));
   ("shooting_model", Value (TText (Some ["updown_universal"; "simple"; "updown"; "periodic"])) (AText "updown_universal"));
   ("nr_of_particles", Value TInt (AInt 25)); ("pw", Value TFloat (ANum 1)); ("sim_weight", Value TFloat (ANum 100));
   ("norm_weight", Value TFloat (ANum (1 # 100))); ("sim_norm", Value (TText (Some ["l1"; "l2"])) (AText "l2"));
   ("nonlinearity", Value (TText (Some ["identity"; "relu"; "tanh"; "sigmoid"])) (AText "relu"));
   ("inflation_factor", Value TInt (AInt 5)); ("use_particle_rnn_mode", Flag); ("use_particle_free_rnn_mode", Flag);
   ("use_particle_free_time_dependent_mode", Flag); ("nr_of_particle_free_time_dependent_steps", Value TInt (AInt 10));
   ("do_not_use_parameter_penalty_energy", Flag); ("optimize_over_data_initial_conditions", Flag);
   ("optimize_over_data_initial_conditions_type", Value (TText (Some ["direct"; "linear"; "mini_nn"])) (AText "linear"));
   ("disable_distance_based_sampling", Flag); ("custom_parameter_freezing", Flag);
   ("unfreeze_parameters_at_iter", Value TInt (AInt (-1))); ("custom_parameter_initialization", Flag); ("viz", Flag);
   ("gpu", Value TInt (AInt 0)); ("adjoint", Flag); ("checkpointing_time_interval", Value TFloat (ANum 0));
   ("nr_of_checkpoints", Value TInt (AInt 0)); ("do_not_use_analytic_solution", Flag); ("create_animation", Flag);
   ("save_figures", Flag); ("output_directory", Value (TText None) (AText "results_spiral"));
   ("output_basename", Value (TText None) (AText "spiral"))].

(** sfm.py:56-116 *)
Definition mapping_parser : parser :=
  [("method", Value (TText (Some ["dopri5"; "adams"; "rk4"])) (AText "rk4")); ("batch_size", Value TInt (AInt 50));
   ("niters", Value TInt (AInt 250)); ("seed", Value TInt (AInt 1234)); ("adjoint", Flag); ("gpu", Value TInt (AInt 0));
   ("stepsize", Value TFloat (ANum (1 # 10))); ("lr", Value TFloat (ANum (1 # 100)));
   ("shooting_model", Value (TText (Some ["updown_universal"; "universal"; "periodic"; "dampened_updown"; "simple"; "2nd_order"; "updown"; "general_updown"])) (AText "updown"));
   ("nonlinearity", Value (TText (Some ["identity"; "relu"; "tanh"; "sigmoid"; "softmax"])) (AText "relu"));
   ("pw", Value TFloat (ANum 1)); ("sim_weight", Value TFloat (ANum 100)); ("norm_weight", Value TFloat (ANum 1));
   ("nr_of_particles", Value TInt (AInt 20)); ("inflation_factor", Value TInt (AInt 16)); ("use_particle_rnn_mode", Flag);
   ("use_particle_free_rnn_mode", Flag); ("use_particle_free_time_dependent_mode", Flag);
   ("nr_of_particle_free_time_dependent_steps", Value TInt (AInt 10)); ("do_not_use_parameter_penalty_energy", Flag);
   ("do_not_plot_temporal_data", Flag); ("optional_weight", Value TFloat (ANum 10)); ("xrange", Value TFloat (ANum (15 # 10)));
   ("clamp_range", Flag); ("fcn", Value (TText (Some ["cubic"; "quadratic"])) (AText "cubic"));
   ("optimize_over_data_initial_conditions", Flag);
   ("optimize_over_data_initial_conditions_type", Value (TText (Some ["direct"; "linear"; "mini_nn"])) (AText "linear"));
   ("custom_parameter_freezing", Flag); ("unfreeze_parameters_at_iter", Value TInt (AInt (-1)));
   ("custom_parameter_initialization", Flag); ("nr_of_layers", Value TInt (AInt 30)); ("use_updown", Flag);
   ("use_double_resnet", Flag); ("use_rnn", Flag); ("use_double_resnet_rnn", Flag); ("use_simple_resnet", Flag);
   ("use_neural_ode", Flag); ("test_freq", Value TInt (AInt 10)); ("viz_freq", Value TInt (AInt 25)); ("viz", Flag);
   ("verbose", Flag); ("save_figures", Flag); ("output_directory", Value (TText None) (AText "results_simple_functional_mapping"));
   ("output_basename", Value (TText None) (AText "sfm"))].

(** Attributes of the parsed arguments (es.py:10, eu.py:89). *)
Definition text_of (name : string) (ns : pdict argval) : result string :=
  match pd_get name ns with Some (AText s) => Ok s | Some _ => Raise TypeError | None => Raise AttributeError end.
Definition int_of (name : string) (ns : pdict argval) : result Z :=
  match pd_get name ns with Some (AInt z) => Ok z | Some _ => Raise TypeError | None => Raise AttributeError end.
Definition flag_of (name : string) (ns : pdict argval) : result bool :=
  match pd_get name ns with Some (AFlag b) => Ok b | Some _ => Raise TypeError | None => Raise AttributeError end.

(** ** The sweeps of the scripts *)

(** One call of [sweep_parameters] (es.py:29-32): prefix of the directory, template, values to sweep. *)
Record sweep := mkSweep { sw_prefix : string; sw_template : config; sw_values : pdict (list pyval) }.

(** A list of integers to sweep over (es.py:24-25). *)
Definition ints (l : list Z) : list pyval := map VInt l.

(** es.py:9-21 behind the first entries, which differ between the templates (esr.py:12-56): [model] is
    [args.shooting_model] *)
Definition spiral_settings (model : string) : config :=
  [("shooting_model", VStr model); ("niters", VInt 1500); ("optional_weight", VInt 10);
   ("custom_parameter_freezing", VNone); ("unfreeze_parameters_at_iter", VInt 50); ("save_figures", VNone);
   ("viz_freq", VInt 3000); ("custom_parameter_initialization", VNone); ("validate_with_long_range", VNone);
   ("optimize_over_data_initial_conditions", VNone)].

(** es.py:23-26, esr.py:69-72 *)
Definition spiral_values : pdict (list pyval) :=
  [("nr_of_particles", ints [15; 25; 50]%Z); ("inflation_factor", ints [16; 32; 64; 128]%Z)].

(** es.py:9-32 *)
Definition spiral_sweeps (model : string) : list sweep :=
  [mkSweep "spiral_particles_" (spiral_settings model) spiral_values].

(** esr.py:59-67 *)
Definition spiral_free_values : pdict (list pyval) :=
  [("nr_of_particles", ints [2]%Z); ("inflation_factor", ints [16; 32; 64; 128]%Z)].

(** esr.py:12-90 *)
Definition spiral_rnn_sweeps (model : string) : list sweep :=
  [mkSweep "spiral_particle_free_rnn_" (("use_particle_free_rnn_mode", VNone) :: spiral_settings model) spiral_free_values;
   mkSweep "spiral_particle_free_time_dependent_rnn_"
     (("use_particle_free_time_dependent_mode", VNone) :: ("nr_of_particle_free_time_dependent_steps", VInt 5) :: spiral_settings model)
     spiral_free_values;
   mkSweep "spiral_particle_rnn_" (("use_particle_rnn_mode", VNone) :: spiral_settings model) spiral_values].

(** el.py:9-21, elr.py:10-50: [model] is [args.shooting_model], [fcn] is [args.fcn] *)
Definition mapping_settings (model fcn : string) : config :=
  [("shooting_model", VStr model); ("niters", VInt 500); ("optional_weight", VInt 10);
   ("custom_parameter_freezing", VNone); ("unfreeze_parameters_at_iter", VInt 50); ("save_figures", VNone);
   ("viz_freq", VInt 600); ("fcn", VStr fcn); ("do_not_plot_temporal_data", VNone);
   ("optimize_over_data_initial_conditions", VNone)].

(** el.py:23-26, elr.py:65-68 *)
Definition mapping_values : pdict (list pyval) :=
  [("nr_of_particles", ints [2; 5; 15; 25]%Z); ("inflation_factor", ints [4; 8; 16; 32; 64; 128]%Z)].

(** el.py:9-32 *)
Definition mapping_sweeps (model fcn : string) : list sweep :=
  [mkSweep "long_iteration_particles_" (mapping_settings model fcn) mapping_values].

(** elr.py:55-63 *)
Definition mapping_free_values : pdict (list pyval) :=
  [("nr_of_particles", ints [2]%Z); ("inflation_factor", ints [4; 8; 16; 32; 64; 128]%Z)].

(** elr.py:10-86 *)
Definition mapping_rnn_sweeps (model fcn : string) : list sweep :=
  [mkSweep "long_iteration_particle_free_rnn_" (("use_particle_free_rnn_mode", VNone) :: mapping_settings model fcn) mapping_free_values;
   mkSweep "long_iteration_particle_free_time_dependent_rnn_"
     (("use_particle_free_time_dependent_mode", VNone) :: ("nr_of_particle_free_time_dependent_steps", VInt 5) :: mapping_settings model fcn)
     mapping_free_values;
   mkSweep "long_iteration_particle_rnn_" (("use_particle_rnn_mode", VNone) :: mapping_settings model fcn) mapping_values].

(** ** Running *)

(** What a script did: its runs in order, each with sweep (by number), seed, configuration and the command
    given to the shell (eu.py:138-142); the directories holding a pt file. *)
Record run := mkRun { r_sweep : nat; r_seed : nat; r_config : config; r_command : string }.
Definition world : Type := (list string * list run)%type.

Section Running.
(** Whether the [n]-th started command leaves a pt file in its directory (eu.py:132-142; external). *)
Variable leaves : nat -> string -> bool.
(** The script to start, [args.path_to_python], [args.gpu] and [not args.force_recompute] (es.py:31-32, eu.py:138-142). *)
Variables (script python : string) (gpu : Z) (do_not_recompute : bool) (args : sweep_args).

(** eu.py:101-142 for one seed and one configuration *)
Definition run_job (number : nat) (s : sweep) (w : world) (sd : nat * config) : world :=
  let dir := output_directory (sw_prefix s) args (sw_template s) (fst sd) (snd sd) in
  if existsb (String.eqb dir) (fst w) && do_not_recompute then w
  else
    let command := run_command_with_args script (run_args (sw_template s) dir (fst sd) (snd sd)) python (Some gpu)
                     (Some (dir ++ "/runlog.log")%string) in
    (if leaves (List.length (snd w)) command then dir :: fst w else fst w,
     snd w ++ [mkRun number (fst sd) (snd sd) command]).

(** eu.py:85-142: as [SweepModel.sweep_parameters], with the commands *)
Definition run_sweep (number : nat) (s : sweep) (st : sweep_state * world) : result (sweep_state * world) :=
  let '(r, process) := sweep_default (sw_values s) (fst st) in
  let seeds := seq (a_starting_seed_id args) (a_nr_of_seeds args) in
  match r with
  | SweptList l =>
      Ok (process, fold_left (run_job number s) (flat_map (fun seed => map (fun d => (seed, d)) l) seeds) (snd st))
  | SweptDict [] => Ok (process, snd st)
  | SweptDict (_ :: _) => match seeds with [] => Ok (process, snd st) | _ => Raise TypeError end
  end.

(** esr.py:74-90: the sweeps one after the other in one process *)
Fixpoint run_sweeps (number : nat) (l : list sweep) (st : sweep_state * world) : result (sweep_state * world) :=
  match l with
  | [] => Ok st
  | s :: l => st' <- run_sweep number s st ;; run_sweeps (S number) l st'
  end.
End Running.

(** es.py:7, 29-32 with eu.py:89-92: the arguments of the sweeps from the command line; [fcn] is only an
    attribute of the parser that declares it (eu.py:113) *)
Definition sweep_args_of (ns : pdict argval) : result sweep_args :=
  start <- int_of "starting_seed_id" ns ;;
  n <- int_of "nr_of_seeds" ns ;;
  base <- text_of "output_base_directory" ns ;;
  model <- text_of "shooting_model" ns ;;
  Ok (mkArgs (Z.to_nat start) (Z.to_nat n) base (VStr model)
        (match text_of "fcn" ns with Ok f => Some (VStr f) | Raise _ => None end)).

(** A whole script behind its command line (es.py:29-32, esr.py:74-90, el.py:29-32, elr.py:70-86) *)
Definition run_script (leaves : nat -> string -> bool) (script : string) (sweeps : list sweep) (ns : pdict argval)
    (files : list string) : result (list run) :=
  args <- sweep_args_of ns ;;
  python <- text_of "path_to_python" ns ;;
  gpu <- int_of "gpu" ns ;;
  force <- flag_of "force_recompute" ns ;;
  r <- run_sweeps leaves script python gpu (negb force) args 0 sweeps (process0, (files, [])) ;;
  Ok (snd (snd r)).

(** es.py and esr.py *)
Definition spiral_experiments (rnn : bool) (leaves : nat -> string -> bool) (ns : pdict argval) (files : list string) : result (list run) :=
  model <- text_of "shooting_model" ns ;;
  run_script leaves "spiral.py" (if rnn then spiral_rnn_sweeps model else spiral_sweeps model) ns files.

(** el.py and elr.py *)
Definition mapping_experiments (rnn : bool) (leaves : nat -> string -> bool) (ns : pdict argval) (files : list string) : result (list run) :=
  model <- text_of "shooting_model" ns ;;
  fcn <- text_of "fcn" ns ;;
  run_script leaves "simple_functional_mapping_example.py" (if rnn then mapping_rnn_sweeps model fcn else mapping_sweeps model fcn) ns files.
