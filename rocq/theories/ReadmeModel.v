(** The training commands shown in demos/neurips20/README.md (rm.md), character by character; the scripts' parsers are in
    ExperimentModel.v, CirclesModel.v and ImagesModel.v.

    Not modelled: the commands which download data or models, and the lines [cd ...] in front. *)
From Coq Require Import List String Ascii.
From Verif Require Import ArgparseModel ExperimentModel CirclesModel ImagesModel.
Import ListNotations.
Open Scope string_scope.
Open Scope list_scope.

(** rm.md:28-33; a blank follows the backslash of the fourth line *)
Definition cubic_text : string :=
"python simple_functional_mapping_example.py \
   --fcn cubic \
   --custom_parameter_freezing \
   --unfreeze_parameters_at_iter 50 \ 
   --optimize_over_data_initial_conditions \
   --niter 500
".

(** rm.md:35-40; the third line has no backslash, but a blank *)
Definition quadratic_text : string :=
"python simple_functional_mapping_example.py \
   --fcn quadratic \
   --custom_parameter_freezing 
   --unfreeze_parameters_at_iter 50 \
   --optimize_over_data_initial_conditions \
   --niter 500
".

(** rm.md:59-72 *)
Definition spiral_text : string :=
"python spiral.py \
   --seed 0 \
   --shooting_model updown_universal \
   --niters 2000 \
   --optional_weight 10 \
   --save_figures \
   --viz_freq 50 \
   --validate_with_long_range \
   --optimize_over_data_initial_conditions \
   --inflation_factor 32 \
   --viz \
   --nr_of_particles 25 \
   --custom_parameter_freezing \
   --unfreeze_parameters_at_iter 50
".

(** rm.md:94-107 *)
Definition cc_text : string :=
"python cc.py \
   --shooting_dim 2 \
   --method rk4 \
   --stepsize 0.1 \
   --pw 1.5 \
   --shooting_model updown_universal \
   --nr_of_particles 20 \
   --gpu 0 \
   --batch_size 128 \
   --inflation_factor 20 \
   --sim_weight 1.0 \
   --lr 5e-3 \
   --niters 20 \
   --save_model model_20
".

(** rm.md:149-166 *)
Definition rot_text : string :=
"python rot.py \
    --gpu 0 \
    --verbose \
    --lr 5e-3 \
    --method dopri5 \
    --batch_size 25 \
    --norm_weight 0.05 \
    --sim_weight 1.0 \
    --inflation_factor 10 \
    --pw 1.0 \
    --nr_of_particles 100 \
    --optimize_over_data_initial_conditions \
    --shooting_dim 20 \
    --niters 500 \
    --n_skip 4 \
    --i_eval 3 \
    --save \
    --shooting_model updown_universal
".

(** rm.md:203-218 *)
Definition balls_text : string :=
"python balls.py \
   --gpu 0 \
   --verbose \
   --lr 1e-3 \
   --method dopri5 \
   --shooting_model updown_universal \
   --batch_size 25 \
   --sim_weight 1.0 \
   --norm_weight 0.0005 \
   --inflation_factor 20 \
   --pw 1.0 \
   --nr_of_particles 100 \
   --optimize_over_data_initial_conditions \
   --shooting_dim 40 \
   --niters 100 \
   --save_to balls_experiment
".

(** A shown command, and the script with its parser (rm.md:28, 59, 94, 149, 203). *)
Record shown_command := mkShown { sc_text : string; sc_script : string; sc_parser : parser }.

(** rm.md:28-33 *)
Definition cubic := mkShown cubic_text "simple_functional_mapping_example.py" mapping_parser.
(** rm.md:35-40 *)
Definition quadratic := mkShown quadratic_text "simple_functional_mapping_example.py" mapping_parser.
(** rm.md:59-72 *)
Definition spiral := mkShown spiral_text "spiral.py" spiral_parser.
(** rm.md:94-107 *)
Definition circles := mkShown cc_text "cc.py" cc_parser.
(** rm.md:149-166 *)
Definition rotation := mkShown rot_text "rot.py" rot_parser.
(** rm.md:203-218 *)
Definition bouncing := mkShown balls_text "balls.py" balls_parser.
(** rm.md:28-40, 59-72, 94-107, 149-166, 203-218 *)
Definition training_commands : list shown_command := [cubic; quadratic; spiral; circles; rotation; bouncing].
