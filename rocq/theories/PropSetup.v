(** Properties C133 and C134: the options of the demos reach what they describe. *)
From Coq Require Import List String ZArith QArith Qcanon Bool.
From Verif Require Import Base ArgparseModel ExperimentModel CirclesModel ImagesModel IntegratorModel SetupModel SetupSpec
  SetupProofs2 SetupProofs3 SetupProofs4.
Import ListNotations.
Open Scope string_scope.
Open Scope list_scope.
Open Scope nat_scope.

(** C133 asks that for every accepted command line (but for the two particle-free modes together, which exclude each
    other) the script builds a block whose model, integrator and modes are what the options say.  False for spiral.py:
    with the model 'simple' the options about the initial conditions of data and --do_not_use_analytic_solution do nothing. *)
Theorem C133_spiral_refuted : exists words ns, parse_args spiral_parser words = Some ns /\ ~ both_modes ns /\
  forall end_ m, spiral_setup ns end_ = Ok m -> ~ spiral_as_asked ns end_ m.
Proof. exact spiral_ignores. Qed.
Print Assumptions C133_spiral_refuted.

(** All other options of spiral.py arrive, and for the other models all.
    Missing from the full statement: the model 'simple', for which what it gets instead is said. *)
Theorem C133_spiral_partial : forall words ns end_, parse_args spiral_parser words = Some ns ->
  (both_modes ns -> spiral_setup ns end_ = Raise ValueError) /\
  (~ both_modes ns -> exists m, spiral_setup ns end_ = Ok m /\
     right_model ns m /\ right_weight ns m /\ right_integrator ns m /\ right_adjoint ns m /\ right_checkpoints ns m /\ right_modes ns m /\
     particle_sizes m 2 /\ m_end m = end_ /\
     (~ model_is ns "simple" -> right_data ns m /\ right_equations ns m) /\
     (model_is ns "simple" -> has_attr m "optimize_over_data_initial_conditions" (KBool false) /\
        has_attr m "optimize_over_data_initial_conditions_type" (KText "linear") /\ has_attr m "use_analytic_solution" (KBool true))).
Proof. exact spiral_setup_made. Qed.
Print Assumptions C133_spiral_partial.

Definition spiral_case_words : list string :=
  ["--shooting_model"; "periodic"; "--nonlinearity"; "tanh"; "--nr_of_particles"; "7"; "--inflation_factor"; "3"; "--nr_of_checkpoints"; "4";
   "--optimize_over_data_initial_conditions"; "--do_not_use_analytic_solution"; "--stepsize"; "0.25"].
Example C133_spiral_case : exists ns m, parse_args spiral_parser spiral_case_words = Some ns /\ ~ both_modes ns /\
  spiral_setup ns (2 # 1) = Ok m /\ g_class (m_integrand m) = "AutoShootingIntegrandModelUpdownPeriodic" /\
  has_attr m "nonlinearity" (KText "tanh") /\ has_attr m "use_analytic_solution" (KBool false) /\
  has_attr m "simple_init" (KObject "Linear" [("in_features", KInt 2); ("out_features", KInt 6)]) /\
  m_options m = [("step_size", ONum (Q2Qc (1 # 4)))] /\ i_nr_of_checkpoints (m_integrator m) = Some 4%Z.
Proof.
  eexists. eexists. split; [vm_compute; reflexivity|]. split; [intros (H & _); discriminate H|]. split; [vm_compute; reflexivity|].
  repeat split. cbn. repeat f_equal. apply Qc_is_canon. reflexivity.
Qed.

(** For simple_functional_mapping_example.py: the class of the offered model 'universal' does not exist. *)
Theorem C133_missing_refuted : exists words ns, parse_args mapping_parser words = Some ns /\ ~ both_modes ns /\
  mapping_setup ns = Raise AttributeError.
Proof. exact mapping_missing. Qed.
Print Assumptions C133_missing_refuted.

(** ... --adjoint is ignored, and methods which choose their step size are passed one. *)
Theorem C133_mapping_refuted : exists words ns, parse_args mapping_parser words = Some ns /\ ~ both_modes ns /\ ~ model_is ns "universal" /\
  forall m, mapping_setup ns = Ok m -> ~ right_adjoint ns m /\ ~ right_integrator ns m.
Proof. exact mapping_ignores. Qed.
Print Assumptions C133_mapping_refuted.

(** The other options of this script arrive; three models take the options about the initial conditions of data but
    have no use for them.
    Missing from the full statement: the model 'universal', --adjoint, and the three models. *)
Theorem C133_mapping_partial : forall words ns, parse_args mapping_parser words = Some ns ->
  (model_is ns "universal" -> mapping_setup ns = Raise AttributeError) /\
  (~ model_is ns "universal" -> both_modes ns -> mapping_setup ns = Raise ValueError) /\
  (~ model_is ns "universal" -> ~ both_modes ns -> exists m, mapping_setup ns = Ok m /\
     right_model ns m /\ right_weight ns m /\ right_modes ns m /\ particle_sizes m 1 /\ m_end m = 1%Q /\
     (exists method step, pd_get "method" ns = Some (AText method) /\ pd_get "stepsize" ns = Some (ANum step) /\
        i_library (m_integrator m) = "odeint" /\ i_name (m_integrator m) = method /\ i_adjoint (m_integrator m) = false /\
        m_options m = [("step_size", ONum (Q2Qc step))]) /\
     (forall o a, In (o, a) data_options -> arrives ns m o a) /\
     (~ model_is ns "simple" -> ~ model_is ns "2nd_order" -> ~ model_is ns "dampened_updown" -> right_data ns m) /\
     (model_is ns "simple" \/ model_is ns "2nd_order" \/ model_is ns "dampened_updown" ->
        forall a, In a ["data_q20"; "simple_init"; "init_l1"; "init_l2"] -> pd_get a (g_attrs (m_integrand m)) = None) /\
     (model_is ns "2nd_order" \/ model_is ns "dampened_updown" -> has_attr m "use_analytic_solution" (KBool false)) /\
     (~ model_is ns "2nd_order" -> ~ model_is ns "dampened_updown" -> has_attr m "use_analytic_solution" (KBool true))).
Proof. exact mapping_all. Qed.
Print Assumptions C133_mapping_partial.

Example C133_mapping_case : exists ns m,
  parse_args mapping_parser ["--shooting_model"; "general_updown"; "--optimize_over_data_initial_conditions";
    "--optimize_over_data_initial_conditions_type"; "direct"; "--use_particle_free_time_dependent_mode"] = Some ns /\
  ~ model_is ns "universal" /\ ~ both_modes ns /\ mapping_setup ns = Ok m /\
  has_attr m "data_q20" (KObject "Parameter" [("rows", KInt 1); ("columns", KInt 16)]) /\ m_free_time m = true /\ m_steps m = 10%Z.
Proof.
  eexists. eexists. split; [vm_compute; reflexivity|]. split; [discriminate|]. split; [intros (H & _); discriminate H|].
  split; [vm_compute; reflexivity|]. repeat split.
Qed.

(** For cc.py, rot.py and balls.py: again the model 'simple'. *)
Theorem C133_image_refuted : exists words, forall p per, In (p, per) [(cc_parser, true); (rot_parser, false); (balls_parser, true)] ->
  exists ns, parse_args p words = Some ns /\ forall m, image_setup per ns = Ok m -> ~ image_as_asked ns m.
Proof. exact image_ignores. Qed.
Print Assumptions C133_image_refuted.

(** All else arrives; a block is always built.
    Missing from the full statement: the initial conditions of data with the model 'simple'. *)
Theorem C133_image_partial : forall p per, In (p, per) [(cc_parser, true); (rot_parser, false); (balls_parser, true)] ->
  forall words ns, parse_args p words = Some ns ->
  exists m, image_setup per ns = Ok m /\ right_model ns m /\ right_integrator ns m /\
    pd_get "use_particle_free_rnn_mode" ns = Some (AFlag (m_free_rnn m)) /\
    (exists d, pd_get "shooting_dim" ns = Some (AInt d) /\ particle_sizes m d) /\ m_end m = 1%Q /\
    (~ model_is ns "simple" -> right_data ns m) /\
    (model_is ns "simple" -> has_attr m "optimize_over_data_initial_conditions" (KBool false)) /\
    (model_is ns "updown_universal" -> has_attr m "weighting_factor" (KNum (1 # 10))).
Proof. exact image_all. Qed.
Print Assumptions C133_image_partial.

Example C133_image_case : exists ns m,
  parse_args balls_parser ["--shooting_dim"; "12"; "--shooting_model"; "updown_universal"; "--method"; "dopri5"; "--stepsize"; "0.5"] = Some ns /\
  image_setup true ns = Ok m /\ has_attr m "particle_size" (KInt 12) /\ m_options m = [] /\ i_name (m_integrator m) = "dopri5".
Proof. eexists. eexists. split; [vm_compute; reflexivity|]. split; [vm_compute; reflexivity|]. repeat split. Qed.

(** C134 asks that the loss which is minimized is the similarity times --sim_weight plus the norm penalty times
    --norm_weight (the latter unless it is switched off).  False for cc.py, which leaves out the penalty. *)
Theorem C134_circles_refuted : exists words ns loss, parse_args cc_parser words = Some ns /\ cc_loss ns 0 1 = Ok loss /\ ~ weighted ns 0 1 loss.
Proof. exact cc_ignores. Qed.
Print Assumptions C134_circles_refuted.

(** What cc.py minimizes.
    Missing from the full statement: the norm penalty. *)
Theorem C134_circles_partial : forall words ns sim pen, parse_args cc_parser words = Some ns ->
  exists w, pd_get "sim_weight" ns = Some (ANum w) /\ cc_loss ns sim pen = Ok (w * sim)%Q.
Proof. exact cc_loss_made. Qed.
Print Assumptions C134_circles_partial.

Example C134_circles_case : exists ns, parse_args cc_parser ["--norm_weight"; "7"; "--sim_weight"; "2"] = Some ns /\
  cc_loss ns (3 # 1) (1 # 1) = Ok (2 * (3 # 1))%Q.
Proof. eexists. split; [vm_compute; reflexivity|]. reflexivity. Qed.

(** spiral.py, with the similarity in the chosen norm. *)
Theorem C134_spiral : forall words ns l1 l2 pen, parse_args spiral_parser words = Some ns ->
  exists norm loss, pd_get "sim_norm" ns = Some (AText norm) /\ spiral_loss ns l1 l2 pen = Ok loss /\
    weighted ns (if string_dec norm "l1" then l1 else l2) pen loss.
Proof. exact spiral_loss_made. Qed.
Print Assumptions C134_spiral.

Example C134_spiral_case : exists ns, parse_args spiral_parser ["--sim_norm"; "l1"; "--do_not_use_parameter_penalty_energy"] = Some ns /\
  exists loss, spiral_loss ns (1 # 2) (1 # 3) (1 # 5) = Ok loss /\ (loss == 50)%Q.
Proof. eexists. split; [vm_compute; reflexivity|]. eexists. split; [vm_compute; reflexivity|]. reflexivity. Qed.

(** simple_functional_mapping_example.py with a shooting block. *)
Theorem C134_mapping : forall words ns sim pen, parse_args mapping_parser words = Some ns ->
  exists loss, mapping_loss ns sim pen = Ok loss /\ weighted ns sim pen loss.
Proof. exact mapping_loss_made. Qed.
Print Assumptions C134_mapping.

Example C134_mapping_case : exists ns, parse_args mapping_parser ["--norm_weight"; "0.5"] = Some ns /\
  exists loss, mapping_loss ns (1 # 10) (4 # 1) = Ok loss /\ (loss == 12)%Q.
Proof. eexists. split; [vm_compute; reflexivity|]. eexists. split; [vm_compute; reflexivity|]. reflexivity. Qed.

(** rot.py and balls.py. *)
Theorem C134_images : forall p words ns sim pen, p = rot_parser \/ p = balls_parser -> parse_args p words = Some ns ->
  exists loss, image_loss ns sim pen = Ok loss /\ weighted ns sim pen loss.
Proof. exact image_loss_made. Qed.
Print Assumptions C134_images.

Example C134_images_case : exists ns, parse_args rot_parser ["--norm_weight"; "0.5"] = Some ns /\
  exists loss, image_loss ns (1 # 10) (4 # 1) = Ok loss /\ (loss == 12)%Q.
Proof. eexists. split; [vm_compute; reflexivity|]. eexists. split; [vm_compute; reflexivity|]. reflexivity. Qed.
