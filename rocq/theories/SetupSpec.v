(** What the options of the demos promise about the objects a script works with, stated on the options (as parsed) and on
    what can be read off the finished objects. *)
From Coq Require Import List String ZArith QArith Qcanon Bool.
From Verif Require Import Base ArgparseModel IntegratorModel SetupModel.
Import ListNotations.
Open Scope string_scope.
Open Scope list_scope.

(** The class behind the name of a model. *)
Definition class_of_name : list (string * string) :=
  [("simple", "AutoShootingIntegrandModelSimple"); ("2nd_order", "AutoShootingIntegrandModelSecondOrder");
   ("updown", "AutoShootingIntegrandModelUpDown"); ("updown_universal", "AutoShootingIntegrandModelUpDownUniversal");
   ("general_updown", "AutoShootingIntegrandModelGeneralUpDown"); ("periodic", "AutoShootingIntegrandModelUpdownPeriodic");
   ("dampened_updown", "AutoShootingIntegrandModelDampenedUpDown")].

(** The attribute [a] of the shooting model. *)
Definition has_attr (m : made) (a : string) (v : kw) : Prop := pd_get a (g_attrs (m_integrand m)) = Some v.

(** The value given for option [o] arrived as attribute [a]. *)
Definition arrives (ns : pdict argval) (m : made) (o a : string) : Prop :=
  match pd_get o ns with
  | Some (AInt z) => has_attr m a (KInt z)
  | Some (ANum q) => has_attr m a (KNum q)
  | Some (AText s) => has_attr m a (KText s)
  | Some (AFlag b) => has_attr m a (KBool b)
  | None => False
  end.

(** Options every script has for its shooting model. *)
Definition model_options : list (string * string) :=
  [("nonlinearity", "nonlinearity"); ("nr_of_particles", "nr_of_particles"); ("pw", "parameter_weight");
   ("use_particle_rnn_mode", "use_rnn_mode")].

(** Options about the initial conditions of data. *)
Definition data_options : list (string * string) :=
  [("optimize_over_data_initial_conditions", "optimize_over_data_initial_conditions");
   ("optimize_over_data_initial_conditions_type", "optimize_over_data_initial_conditions_type")].

(** The chosen model, with all its options. *)
Definition right_model (ns : pdict argval) (m : made) : Prop :=
  exists name, pd_get "shooting_model" ns = Some (AText name) /\ In (name, g_class (m_integrand m)) class_of_name /\
    (forall o a, In (o, a) model_options -> arrives ns m o a) /\
    (In name ["updown"; "updown_universal"; "general_updown"; "periodic"; "dampened_updown"] ->
     arrives ns m "inflation_factor" "inflation_factor").

(** The initial conditions of data are optimized over if that was asked for, in the way asked for: a matrix of
    parameters, a linear map, or two of them. *)
Definition right_data (ns : pdict argval) (m : made) : Prop :=
  (forall o a, In (o, a) data_options -> arrives ns m o a) /\
  exists dim infl, has_attr m "in_features" (KInt dim) /\ pd_get "inflation_factor" ns = Some (AInt infl) /\
    let linear i o := KObject "Linear" [("in_features", KInt i); ("out_features", KInt o)] in
    (pd_get "optimize_over_data_initial_conditions" ns = Some (AFlag false) -> has_attr m "data_q20" KNone) /\
    (pd_get "optimize_over_data_initial_conditions" ns = Some (AFlag true) ->
     match pd_get "optimize_over_data_initial_conditions_type" ns with
     | Some (AText "direct") => has_attr m "data_q20" (KObject "Parameter" [("rows", KInt 1); ("columns", KInt (dim * infl))])
     | Some (AText "linear") => has_attr m "simple_init" (linear dim (dim * infl)%Z)
     | Some (AText "mini_nn") => has_attr m "init_l1" (linear dim 10%Z) /\ has_attr m "init_l2" (linear 10%Z (dim * infl)%Z)
     | _ => False
     end).

(** The chosen integrator: no step size is passed to methods which choose it themselves. *)
Definition right_integrator (ns : pdict argval) (m : made) : Prop :=
  exists method step, pd_get "method" ns = Some (AText method) /\ pd_get "stepsize" ns = Some (ANum step) /\
    i_library (m_integrator m) = "odeint" /\ i_name (m_integrator m) = method /\
    m_options m = (if in_dec string_dec method ["dopri5"; "adams"] then [] else [("step_size", ONum (Q2Qc step))]).

(** The chosen mode of particle-free blocks. *)
Definition right_modes (ns : pdict argval) (m : made) : Prop :=
  pd_get "use_particle_free_rnn_mode" ns = Some (AFlag (m_free_rnn m)) /\
  pd_get "use_particle_free_time_dependent_mode" ns = Some (AFlag (m_free_time m)) /\
  pd_get "nr_of_particle_free_time_dependent_steps" ns = Some (AInt (m_steps m)).

(** Sizes which are the same in all runs of a script. *)
Definition particle_sizes (m : made) (d : Z) : Prop :=
  has_attr m "in_features" (KInt d) /\ has_attr m "particle_size" (KInt d) /\ has_attr m "particle_dimension" (KInt 1).

(** Gradient computation with the solver's adjoint if asked for. *)
Definition right_adjoint (ns : pdict argval) (m : made) : Prop :=
  pd_get "adjoint" ns = Some (AFlag (i_adjoint (m_integrator m))).

(** Checkpoints as asked for; 0 (or less) stands for none. *)
Definition right_checkpoints (ns : pdict argval) (m : made) : Prop :=
  (exists n, pd_get "nr_of_checkpoints" ns = Some (AInt n) /\
     i_nr_of_checkpoints (m_integrator m) = if Z_lt_dec 0 n then Some n else None) /\
  (exists q, pd_get "checkpointing_time_interval" ns = Some (ANum q) /\
     i_checkpointing_time_interval (m_integrator m) = if Qlt_le_dec 0 q then Some (Q2Qc q) else None).

(** Both particle-free modes are asked for (the block says that they exclude each other). *)
Definition both_modes (ns : pdict argval) : Prop :=
  pd_get "use_particle_free_rnn_mode" ns = Some (AFlag true) /\
  pd_get "use_particle_free_time_dependent_mode" ns = Some (AFlag true).

(** The hand-written equations are used unless that was switched off. *)
Definition right_equations (ns : pdict argval) (m : made) : Prop :=
  exists off, pd_get "do_not_use_analytic_solution" ns = Some (AFlag off) /\ has_attr m "use_analytic_solution" (KBool (negb off)).

(** The optional weight, which only one model has a use for. *)
Definition right_weight (ns : pdict argval) (m : made) : Prop :=
  pd_get "shooting_model" ns = Some (AText "updown_universal") -> arrives ns m "optional_weight" "weighting_factor".

(** The model named [name] is chosen. *)
Definition model_is (ns : pdict argval) (name : string) : Prop := pd_get "shooting_model" ns = Some (AText name).

(** spiral.py: everything as asked. *)
Definition spiral_as_asked (ns : pdict argval) (end_ : Q) (m : made) : Prop :=
  right_model ns m /\ right_data ns m /\ right_weight ns m /\ right_equations ns m /\ right_integrator ns m /\ right_adjoint ns m /\
  right_checkpoints ns m /\ right_modes ns m /\ particle_sizes m 2 /\ m_end m = end_.

(** simple_functional_mapping_example.py: everything as asked (the interval is [0, 1]). *)
Definition mapping_as_asked (ns : pdict argval) (m : made) : Prop :=
  right_model ns m /\ right_data ns m /\ right_weight ns m /\ right_integrator ns m /\ right_adjoint ns m /\ right_modes ns m /\
  particle_sizes m 1 /\ m_end m = 1%Q.

(** cc.py, rot.py and balls.py: everything as asked. *)
Definition image_as_asked (ns : pdict argval) (m : made) : Prop :=
  right_model ns m /\ right_data ns m /\ right_integrator ns m /\
  pd_get "use_particle_free_rnn_mode" ns = Some (AFlag (m_free_rnn m)) /\
  (exists d, pd_get "shooting_dim" ns = Some (AInt d) /\ particle_sizes m d) /\ m_end m = 1%Q.

(** The loss: similarity and norm penalty, each with its weight, the latter unless switched off. *)
Definition weighted (ns : pdict argval) (similarity penalty : Q) (loss : Q) : Prop :=
  exists w nw, pd_get "sim_weight" ns = Some (ANum w) /\ pd_get "norm_weight" ns = Some (ANum nw) /\
    (pd_get "do_not_use_parameter_penalty_energy" ns = Some (AFlag true) -> loss == w * similarity)%Q /\
    (pd_get "do_not_use_parameter_penalty_energy" ns <> Some (AFlag true) -> loss == w * similarity + nw * penalty)%Q.
