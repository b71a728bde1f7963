{
 "claims": [
  {
   "property": "C01",
   "status": "proved",
   "theorems": [
    "C01_assemble_disassemble_round_trip"
   ],
   "note": ""
  },
  {
   "property": "C02",
   "status": "proved",
   "theorems": [
    "C02_time_major_disassembly",
    "C02_time_major_succeeds"
   ],
   "note": ""
  },
  {
   "property": "C03",
   "status": "proved",
   "theorems": [
    "C03_assembly_succeeds_iff",
    "C03_disassembly_argument_errors",
    "C03_exact_length_uses_everything",
    "C03_short_vector_rejected"
   ],
   "note": ""
  },
  {
   "property": "C04",
   "status": "proved",
   "theorems": [
    "C04_merge_adds_exactly_the_block",
    "C04_merge_never_overwrites"
   ],
   "note": ""
  },
  {
   "property": "C05",
   "status": "proved",
   "theorems": [
    "C05_concatenate_deconcatenate"
   ],
   "note": ""
  },
  {
   "property": "C06",
   "status": "partial",
   "theorems": [
    "C06_concat_rejects_differing_names_refuted",
    "C06_concat_rejects_foreign_names_partial"
   ],
   "note": "Full statement is false (refuted): a later block lacking variables is silently accepted. Partial: names unknown to the first block are rejected, result names = first block's names."
  },
  {
   "property": "C07",
   "status": "proved",
   "theorems": [
    "C07_tuple_dict_round_trip",
    "C07_tuple_dict_of_dicts_round_trip",
    "C07_parameter_objects_round_trip",
    "C07_parameter_objects_with_none_fail"
   ],
   "note": ""
  },
  {
   "property": "C08",
   "status": "proved",
   "theorems": [
    "C08_extract_key"
   ],
   "note": ""
  },
  {
   "property": "C09",
   "status": "proved",
   "theorems": [
    "C09_zero_padding_concatenates",
    "C09_zero_padding_shape",
    "C09_data_concatenation_dim"
   ],
   "note": ""
  },
  {
   "property": "C10",
   "status": "proved",
   "theorems": [
    "C10_rhs_vector_alignment",
    "C10_concatenated_rhs_alignment"
   ],
   "note": ""
  },
  {
   "property": "C11",
   "status": "proved",
   "theorems": [
    "C11_checkpoint_intervals_cover",
    "C11_any_grid_covers"
   ],
   "note": ""
  },
  {
   "property": "C12",
   "status": "proved",
   "theorems": [
    "C12_intervals_chain"
   ],
   "note": ""
  },
  {
   "property": "C13",
   "status": "proved",
   "theorems": [
    "C13_checkpointed_equals_direct",
    "C13_differs_without_flow"
   ],
   "note": ""
  },
  {
   "property": "C14",
   "status": "partial",
   "theorems": [
    "C14_no_time_lost_refuted",
    "C14_returned_times_partial"
   ],
   "note": "Full statement is false (refuted): decreasing times with checkpointing lose requested outputs, and a repeated final time is dropped. Partial: exactly which times are returned for non-decreasing requests."
  },
  {
   "property": "C15",
   "status": "proved",
   "theorems": [
    "C15_value_errors",
    "C15_no_other_errors",
    "C15_senseless_settings",
    "C15_grid"
   ],
   "note": ""
  },
  {
   "property": "C16",
   "status": "proved",
   "theorems": [
    "C16_constructor_contract"
   ],
   "note": ""
  },
  {
   "property": "C17",
   "status": "partial",
   "theorems": [
    "C17_caller_options_unchanged_refuted",
    "C17_constructor_effect_partial"
   ],
   "note": "Full statement is false (refuted): the constructor writes into the caller's option dictionary, so a second integrator given the same dictionary silently uses the first one's step size. Partial: exactly which entries change."
  },
  {
   "property": "C18",
   "status": "proved",
   "theorems": [
    "C18_anode_guard",
    "C18_anode_never_checkpointed"
   ],
   "note": ""
  },
  {
   "property": "C19",
   "status": "proved",
   "theorems": [
    "C19_lookup_total",
    "C19_constructed_coherent"
   ],
   "note": ""
  },
  {
   "property": "C20",
   "status": "partial",
   "theorems": [
    "C20_closest_earlier_refuted",
    "C20_closest_or_next_partial"
   ],
   "note": "Full statement is false (refuted): a query strictly between grid points returns the next grid point's parameters whenever the cached time lies before it, so repeating a query alternates between two answers. Partial: what is returned after any history; exact at grid times, below and above the range."
  },
  {
   "property": "C21",
   "status": "proved",
   "theorems": [
    "C21_single_set_constant",
    "C21_rnn_mode_constant"
   ],
   "note": ""
  },
  {
   "property": "C22",
   "status": "proved",
   "theorems": [
    "C22_parameters_after_forward"
   ],
   "note": ""
  },
  {
   "property": "C23",
   "status": "partial",
   "theorems": [
    "C23_retry_refuted",
    "C23_retry_partial"
   ],
   "note": "Full statement is false (refuted): a first call with pass-through blocks that fails after the enlargement parameters were created makes every later call with pass-through blocks raise ValueError. Partial: retries behave as on the original block when no failing call could create enlargement parameters."
  },
  {
   "property": "C24",
   "status": "proved",
   "theorems": [
    "C24_enlargement_created_once",
    "C24_own_objects"
   ],
   "note": ""
  },
  {
   "property": "C25",
   "status": "proved",
   "theorems": [
    "C25_enlarge_embeds_centrally",
    "C25_every_parameter_used_once",
    "C25_desired_size_reached",
    "C25_never_shrinks"
   ],
   "note": ""
  },
  {
   "property": "C26",
   "status": "partial",
   "theorems": [
    "C26_registered_refuted",
    "C26_registered_partial",
    "C26_single_block_registered"
   ],
   "note": "Full statement is false (refuted): enlargement parameters are registered under 'pt_enlarge_'+key only, so two pass-through blocks with the same variable overwrite each other in the registry. Partial: exactly which names are registered; complete for a single pass-through block."
  },
  {
   "property": "C27",
   "status": "proved",
   "theorems": [
    "C27_distinct_names",
    "C27_time_steps_distinct",
    "C27_all_registered",
    "C27_registration_succeeds",
    "C27_one_mode"
   ],
   "note": ""
  },
  {
   "property": "C28",
   "status": "partial",
   "theorems": [
    "C28_move_refuted",
    "C28_last_setting_partial"
   ],
   "note": "Full statement is false (refuted): to()/_apply after set_integration_time_vector raises AttributeError. Partial: the times used by forward are always those of the last setter call."
  },
  {
   "property": "C29",
   "status": "proved",
   "theorems": [
    "C29_hooks_in_registration_order",
    "C29_handle_is_registration_number"
   ],
   "note": ""
  },
  {
   "property": "C30",
   "status": "proved",
   "theorems": [
    "C30_no_penalty_before_time_zero",
    "C30_penalty_is_energy_at_time_zero"
   ],
   "note": ""
  },
  {
   "property": "C31",
   "status": "proved",
   "theorems": [
    "C31_parameters_frozen_per_integration",
    "C31_parameters_fresh_without_rnn_mode"
   ],
   "note": ""
  },
  {
   "property": "C32",
   "status": "partial",
   "theorems": [
    "C32_explicit_plans_refuted",
    "C32_explicit_plans_always_rejected_partial",
    "C32_cached_plans_partial"
   ],
   "note": "Finding: ShootingIntegrandBase.disassemble_tensor has its test inverted; passing explicit plans raises ValueError always (C32_explicit_plans_refuted, ..._always_rejected_partial). Using the cached plans, and ValueError without any, is proved."
  },
  {
   "property": "C33",
   "status": "partial",
   "theorems": [
    "C33_transposed_evaluation_refuted",
    "C33_transposition_always_fails_partial",
    "C33_untransposed_partial"
   ],
   "note": "Finding: transpose_state_dict_of_dicts reads the dictionary it is filling, so transposition raises KeyError for every non-empty state (refuted + general failure theorem). The untransposed evaluation is characterised completely."
  },
  {
   "property": "C34",
   "status": "partial",
   "theorems": [
    "C34_autodiff_refuted",
    "C34_autodiff_always_fails_partial",
    "C34_analytic_partial"
   ],
   "note": "Finding: the reduced Lagrangian calls the parameter function object, which is not callable, so externally managed parameters with autodiff costates never work (refuted + general failure theorem). The analytic case is proved under the stated success hypotheses on the model's own functions."
  },
  {
   "property": "C35",
   "status": "proved",
   "theorems": [
    "C35_unique_minimiser",
    "C35_closed_form",
    "C35_kinetic_energy",
    "C35_kinetic_positive"
   ],
   "note": "autograd.grad is an oracle assumed to return the partial derivatives. Potential affine in the parameters as in the shipped models. With parameter_weight None the optimal transport kinetic energy raises TypeError."
  },
  {
   "property": "C36",
   "status": "proved",
   "theorems": [
    "C36_error",
    "C36_five_iterations",
    "C36_convergence",
    "C36_coupled_error",
    "C36_optimal_transport",
    "C36_optimal_transport_no_weight"
   ],
   "note": "autograd.grad is an oracle assumed to return the partial derivatives; learning rate and step number arbitrary."
  },
  {
   "property": "C37",
   "status": "proved",
   "theorems": [
    "C37_particles_not_influenced_by_data"
   ],
   "note": "Explicit schemes with steps that do not depend on the computed values (adaptive step control depends on all entries of the vector, data included, and is outside the statement proved). Costates evolved analytically use the data dimension, so both runs must have the same one then."
  },
  {
   "property": "C38",
   "status": "partial",
   "theorems": [
    "C38_convolution",
    "C38_right_hand_side",
    "C38_initial_data",
    "C38_sample_alone_partial",
    "C38_common_sample_partial",
    "C38_step_control_refuted"
   ],
   "note": "Right-hand sides and initial data of all vector models and the convolutional right-hand sides are shown to act sample by sample, for all batches and parameters; whole integrations are covered for any explicit scheme made of right-hand side evaluations and linear combinations with fixed coefficients (euler, midpoint, rk4 with fixed steps; default rk4). Refuted for step size control (dopri5, adams): the error is measured over all entries of the vector, so a sample integrated next to another one can get other steps and another result; the witness is a simplified controller with one Euler/Heun pair."
  },
  {
   "property": "C39",
   "status": "partial",
   "theorems": [
    "C39_updown_costates",
    "C39_updown_weights",
    "C39_updown_parameters_partial",
    "C39_universal_costates",
    "C39_universal_weights",
    "C39_universal_parameters_partial",
    "C39_simple_costates",
    "C39_simple_parameters_partial",
    "C39_general_costates",
    "C39_general_weights",
    "C39_general_parameters_partial",
    "C39_periodic_costates",
    "C39_periodic_weights",
    "C39_periodic_parameters_partial",
    "C39_symmetrized_costates",
    "C39_symmetrized_weights",
    "C39_symmetrized_parameters_partial",
    "C39_debug_costates",
    "C39_debug_parameters_partial",
    "C39_autodiff_defined",
    "C39_autodiff_unique",
    "C39_updown_bias_refuted",
    "C39_simple_raises_partial",
    "C39_simple_weights_refuted",
    "C39_dampened_q2_costates_refuted"
   ],
   "note": "Costate equations correct for all particle dimensions; weights correct for all dimensions (up-down, universal, general, periodic, symmetrized); biases correct for particle_dimension 1. Finding: with particle_dimension > 1 the hand-written biases are not those found by differentiation, the simple model's loop raises or gives a wrong weight, and the dampened model inherits costates without the dampening."
  },
  {
   "property": "C40",
   "status": "partial",
   "theorems": [
    "C40_sigmoid_refuted",
    "C40_derivative_partial",
    "C40_differentiable",
    "C40_case_insensitive",
    "C40_names",
    "C40_default"
   ],
   "note": "Refuted for 'sigmoid': get_nonlinearity returns torch.sigmoid as its own derivative, larger than the true derivative at every point. Proved for all other names wherever the function is differentiable (everywhere except relu at 0), together with case-insensitivity and the exact set of accepted names. Entrywise, over the reals."
  },
  {
   "property": "C41",
   "status": "partial",
   "theorems": [
    "C41_updown_shapes",
    "C41_universal_shapes",
    "C41_general_shapes",
    "C41_periodic_shapes",
    "C41_dampened_q2_shapes",
    "C41_simple_shapes",
    "C41_debug_shapes",
    "C41_second_order_shapes",
    "C41_dampened_shapes",
    "C41_symmetrized_shapes_partial",
    "C41_ot_shapes_partial",
    "C41_symmetrized_inflated_partial",
    "C41_ot_inflated_partial",
    "C41_symmetrized_refuted",
    "C41_initial_states",
    "C41_initial_data"
   ],
   "note": "Finding: UpdownSymmetrized and OptimalTransportSimple are only consistent for inflation factor 1. All other vector models proved for all sizes, including initial states and initial data."
  },
  {
   "property": "C42",
   "status": "partial",
   "theorems": [
    "C42_simple_filter3",
    "C42_batch_filter3",
    "C42_updown_filter3",
    "C42_simple_other",
    "C42_batch_other",
    "C42_updown_other",
    "C42_initial_states",
    "C42_initial_data",
    "C42_linear_mode_partial",
    "C42_mini_nn_mode_partial",
    "C42_optimised_data_refuted",
    "C42_circular_partial"
   ],
   "note": "Filter 3 keeps height and width for every image size and every model without optimised initial conditions; other filters always change it or raise. Finding (refuted): UpDownConv2D with optimised initial conditions: mini_nn mode loses one row and column, linear mode gives the wrong number of channels and the right-hand side raises. Also SNN_Conv2d circular padding p pads p in total rather than 2p."
  },
  {
   "property": "C43",
   "status": "partial",
   "theorems": [
    "C43_no_bias_refuted",
    "C43_linear_partial",
    "C43_dampening_partial",
    "C43_conv_partial",
    "C43_group_norm_partial"
   ],
   "note": "False for SNN_Conv2d(bias=False) and SNN_GroupNorm(affine=False): KeyError on every evaluation (C43_no_bias_refuted). Proved for the linear layers with or without bias, convolutions with bias, and affine group normalisation."
  },
  {
   "property": "C44",
   "status": "proved",
   "theorems": [
    "C44_moved",
    "C44_weights",
    "C44_stays"
   ],
   "note": ""
  },
  {
   "property": "C45",
   "status": "proved",
   "theorems": [
    "C45_construct",
    "C45_subsampling",
    "C45_batch_and_channel_rejected"
   ],
   "note": ""
  },
  {
   "property": "C46",
   "status": "partial",
   "theorems": [
    "C46_centre_refuted",
    "C46_centre_partial"
   ],
   "note": "False as stated: an odd extent can lose its centre (extent 5, stride 2), shown by C46_centre_refuted. C46_centre_partial gives the exact condition: the centre of odd extent n is kept iff the stride divides (n+1)/2."
  },
  {
   "property": "C47",
   "status": "proved",
   "theorems": [
    "C47_nonincreasing",
    "C47_above_minimum",
    "C47_steps_do_not_raise"
   ],
   "note": ""
  },
  {
   "property": "C48",
   "status": "proved",
   "theorems": [
    "C48_only_after_patience",
    "C48_reductions_far_apart",
    "C48_step_cases"
   ],
   "note": ""
  },
  {
   "property": "C49",
   "status": "proved",
   "theorems": [
    "C49_sticky",
    "C49_set_only_when_exhausted"
   ],
   "note": ""
  },
  {
   "property": "C50",
   "status": "proved",
   "theorems": [
    "C50_restore"
   ],
   "note": ""
  },
  {
   "property": "C51",
   "status": "partial",
   "theorems": [
    "C51_constant_is_bad_refuted",
    "C51_constant_is_bad_partial"
   ],
   "note": "Full statement is false (refuted): for negative metrics best*(1-threshold) exceeds best, so a constant negative metric counts as an improvement in every epoch. Partial: non-negative metrics."
  },
  {
   "property": "C52",
   "status": "partial",
   "theorems": [
    "C52_product_refuted",
    "C52_product_partial",
    "C52_choices"
   ],
   "note": "False for a dictionary without keys: the call returns the (empty) dictionary instead of a list with one combination (C52_product_refuted). C52_product_partial proves the product property for every non-empty dictionary in a fresh process."
  },
  {
   "property": "C53",
   "status": "partial",
   "theorems": [
    "C53_independent_refuted",
    "C53_leak_partial",
    "C53_same_keys_partial"
   ],
   "note": "False: the mutable default arguments keep earlier results and leftover values (C53_independent_refuted). C53_leak_partial says exactly what a later sweep returns from any state; C53_same_keys_partial gives a condition under which the new part is right."
  },
  {
   "property": "C54",
   "status": "partial",
   "theorems": [
    "C54_false_removes_refuted",
    "C54_merge_partial",
    "C54_command_line"
   ],
   "note": "False does not remove a flag which the template sets (C54_false_removes_refuted). Everything else, including that no existing dictionary changes, is C54_merge_partial."
  },
  {
   "property": "C55",
   "status": "partial",
   "theorems": [
    "C55_distinct_refuted",
    "C55_distinct_partial",
    "C55_runs_partial"
   ],
   "note": "False when values contain underscores (C55_distinct_refuted, with a skipped run). C55_distinct_partial and C55_runs_partial prove it when the values of a key print differently and without underscore."
  },
  {
   "property": "C56",
   "status": "proved",
   "theorems": [
    "C56_counts",
    "C56_switch",
    "C56_moved",
    "C56_unknown"
   ],
   "note": ""
  },
  {
   "property": "C57",
   "status": "partial",
   "theorems": [
    "C57_channels_refuted",
    "C57_channels_partial",
    "C57_decreasing_partial",
    "C57_names_unique"
   ],
   "note": "False as stated: a layer without blocks escapes the channel checks, so channels [4,2,4,8] with block counts [1,0,0,1] are accepted (C57_channels_refuted). The partial theorems give the checks which hold for layers with blocks."
  },
  {
   "property": "C58",
   "status": "partial",
   "theorems": [
    "C58_terminates_refuted",
    "C58_cover_partial",
    "C58_filled_partial"
   ],
   "note": "False for chunk_time=1 and at least two points: the loop never ends (C58_terminates_refuted). For chunk_time of at least two everything is proved."
  },
  {
   "property": "C59",
   "status": "proved",
   "theorems": [
    "C59_inside"
   ],
   "note": ""
  },
  {
   "property": "C60",
   "status": "partial",
   "theorems": [
    "C60_restart_refuted",
    "C60_measures_partial",
    "C60_exactly_partial"
   ],
   "note": "False when the mean vanishes at a step back in time: 0 * -inf is NaN (C60_restart_refuted). Proved for positive means; for all non-negative values it is proved exactly when each measure is a number, minus infinity or NaN."
  },
  {
   "property": "C61",
   "status": "partial",
   "theorems": [
    "C61_updown_stationary",
    "C61_updown_conserved",
    "C61_updown_analytic_flow_partial",
    "C61_universal_stationary",
    "C61_universal_conserved",
    "C61_universal_analytic_flow_partial",
    "C61_simple_stationary",
    "C61_simple_conserved",
    "C61_simple_analytic_flow_partial",
    "C61_general_stationary",
    "C61_general_conserved",
    "C61_general_analytic_flow_partial",
    "C61_periodic_stationary",
    "C61_periodic_conserved",
    "C61_periodic_analytic_flow_partial",
    "C61_symmetrized_stationary",
    "C61_symmetrized_conserved",
    "C61_symmetrized_analytic_flow_partial",
    "C61_debug_stationary",
    "C61_debug_conserved",
    "C61_debug_analytic_flow_partial",
    "C61_analytic_flow_refuted"
   ],
   "note": "Conserved for all dimensions when the parameters are found by differentiation; with the hand-written parameters for particle_dimension 1. Finding: not conserved with the hand-written parameters for particle_dimension 2 (consequence of C39)."
  },
  {
   "property": "C62",
   "status": "partial",
   "theorems": [
    "C62_scalar_round_trip_refuted"
   ],
   "note": "False of the code: torch.prod of an empty shape is a float, so slicing raises TypeError."
  },
  {
   "property": "C63",
   "status": "partial",
   "theorems": [
    "C63_time_slices_refuted",
    "C63_time_slices_partial"
   ],
   "note": "Full statement is false (refuted): with several blocks and concatenation the time-vector results are joined along an un-shifted dimension. Partial: one block, no concatenation of several blocks: each slice equals the scalar result."
  },
  {
   "property": "C64",
   "status": "partial",
   "theorems": [
    "C64_keep_zero_refuted",
    "C64_keep_zero_never_constructs"
   ],
   "note": "False of the code (refuted): the constructor always raises RuntimeError with the flag set and a non-empty state."
  },
  {
   "property": "C65",
   "status": "partial",
   "theorems": [
    "C65_late_pass_through_refuted",
    "C65_late_pass_through_partial"
   ],
   "note": "Full statement is false (refuted): after a first successful call without pass-through the block never enlarges. Partial: what later calls do in that case."
  },
  {
   "property": "C66",
   "status": "proved",
   "theorems": [
    "C66_independent_calls"
   ],
   "note": ""
  },
  {
   "property": "C67",
   "status": "proved",
   "theorems": [
    "C67_zero_dynamics"
   ],
   "note": ""
  },
  {
   "property": "C68",
   "status": "proved",
   "theorems": [
    "C68_constant_metric_converges"
   ],
   "note": ""
  },
  {
   "property": "C69",
   "status": "partial",
   "theorems": [
    "C69_last_block_refuted",
    "C69_last_block_partial"
   ],
   "note": "False for a network with a single block: its output is dropped and the classifier sees the first convolution (C69_last_block_refuted). Proved for two or more blocks."
  },
  {
   "property": "C70",
   "status": "proved",
   "theorems": [
    "C70_chunked_equals_direct"
   ],
   "note": ""
  },
  {
   "property": "C71",
   "status": "partial",
   "theorems": [
    "C71_all_windows_refuted",
    "C71_all_windows_partial"
   ],
   "note": "False: the last window is never drawn (C71_all_windows_refuted). C71_all_windows_partial proves that every other window can be drawn with uniform sampling."
  },
  {
   "property": "C72",
   "status": "partial",
   "theorems": [
    "C72_apply_refuted",
    "C72_to_partial"
   ],
   "note": "False for moves through _apply (cuda(), double()): tensor weights are not converted (C72_apply_refuted). Proved for to()."
  },
  {
   "property": "C73",
   "status": "proved",
   "theorems": [
    "C73_zeros_like",
    "C73_zeros_with_batch_size",
    "C73_zeros_with_batch_size_scalars",
    "C73_zeros_with_batch_and_channel_size",
    "C73_zeros_with_batch_and_channel_size_vectors",
    "C73_batch_size",
    "C73_channel_size",
    "C73_no_size"
   ],
   "note": ""
  },
  {
   "property": "C74",
   "status": "partial",
   "theorems": [
    "C74_zero",
    "C74_constant_refuted",
    "C74_constant_partial",
    "C74_random",
    "C74_sample_size_refuted",
    "C74_sample_partial",
    "C74_sample_size_partial",
    "C74_value_errors",
    "C74_wrong_kind",
    "C74_of_size",
    "C74_like"
   ],
   "note": "False in two places: the convolution initialisers have no create_constant_parameters (C74_constant_refuted), and a sample batch larger than the number of particles gives more particles than requested (C74_sample_size_refuted). Proved otherwise."
  },
  {
   "property": "C75",
   "status": "proved",
   "theorems": [
    "C75_times",
    "C75_variables",
    "C75_parameters",
    "C75_norms",
    "C75_sums"
   ],
   "note": "Names of variables, parameters and objects are assumed to have no dot and object names not to start with 'sqr_', as in all shipped models."
  },
  {
   "property": "C76",
   "status": "partial",
   "theorems": [
    "C76_energies",
    "C76_kinetic_refuted",
    "C76_kinetic_partial",
    "C76_lower_bound_partial",
    "C76_frobenius"
   ],
   "note": "False with parameter weights, which the hook ignores (C76_kinetic_refuted; the universal model has weight 10 on its third layer by default). Proved for weights of one or None; a lower bound for weights of at least one."
  },
  {
   "property": "C77",
   "status": "partial",
   "theorems": [
    "C77_all_models_refuted",
    "C77_convolutions",
    "C77_linear_partial",
    "C77_exactly",
    "C77_failure",
    "C77_no_record"
   ],
   "note": "False for convolutional models: nuclear and spectral norms of four-dimensional weights raise a RuntimeError, leaving times and energies in the record without norms (C77_all_models_refuted, C77_failure). Proved for linear layers; exact condition in C77_exactly."
  },
  {
   "property": "C78",
   "status": "proved",
   "theorems": [
    "C78_concatenated_results"
   ],
   "note": ""
  },
  {
   "property": "C79",
   "status": "partial",
   "theorems": [
    "C79_arguments_refuted",
    "C79_arguments_partial",
    "C79_device_partial"
   ],
   "note": "False for values with spaces, empty values and unescaped semicolons (refuted); proved for plain values and for values with escaped semicolons."
  },
  {
   "property": "C80",
   "status": "partial",
   "theorems": [
    "C80_interpreter_refuted",
    "C80_interpreter_partial"
   ],
   "note": "False: the path is only used in an alias, which a non-interactive shell does not expand; the command is always the name python, and the path has no influence (proved)."
  },
  {
   "property": "C81",
   "status": "partial",
   "theorems": [
    "C81_config_refuted",
    "C81_config_partial",
    "C81_key_values_partial",
    "C81_split_again"
   ],
   "note": "False for a leading empty part, for nothing added to nothing (AttributeError), for a non-empty start with raw semicolons and for values with semicolons (refuted); proved otherwise."
  },
  {
   "property": "C82",
   "status": "partial",
   "theorems": [
    "C82_any_batch_refuted",
    "C82_single_raises",
    "C82_image_size",
    "C82_reconstruction_partial"
   ],
   "note": "False when there is a single sample, time or latent dimension: squeeze removes the dimension and RuntimeError follows (refuted); proved for at least two of each, with the accepted image sizes determined exactly."
  },
  {
   "property": "C83",
   "status": "partial",
   "theorems": [
    "C83_single_refuted",
    "C83_training_step_partial",
    "C83_evaluation_outside",
    "C83_nothing_kept",
    "C83_negative"
   ],
   "note": "Refuted for single samples, times or latent dimensions (they raise, as in C82). Proved for batches of at least two samples and latent dimensions (single ones raise, see C82); evaluation timepoints outside the sequence and skipping everything raise (proved)."
  },
  {
   "property": "C84",
   "status": "partial",
   "theorems": [
    "C84_training_mode_refuted",
    "C84_rot_partial",
    "C84_balls",
    "C84_cc"
   ],
   "note": "False for rot.py: after the first evaluation the model stays in evaluation mode, so only the first epoch trains in training mode (refuted, and the exact behaviour proved); proved for balls.py and cc.py."
  },
  {
   "property": "C85",
   "status": "partial",
   "theorems": [
    "C85_best_saved_refuted",
    "C85_never_saved",
    "C85_best_saved_partial"
   ],
   "note": "False when the first validation error is NaN: nothing is ever saved (refuted); proved otherwise, with ties going to the last epoch."
  },
  {
   "property": "C86",
   "status": "proved",
   "theorems": [
    "C86_test_metrics",
    "C86_empty"
   ],
   "note": ""
  },
  {
   "property": "C87",
   "status": "partial",
   "theorems": [
    "C87_train_loss_refuted",
    "C87_train_loss_batches",
    "C87_train_loss_partial"
   ],
   "note": "False when batches differ in size: it is the average of batch averages (refuted, exact value proved); proved for equal sizes."
  },
  {
   "property": "C88",
   "status": "proved",
   "theorems": [
    "C88_concentric"
   ],
   "note": ""
  },
  {
   "property": "C89",
   "status": "partial",
   "theorems": [
    "C89_uniform_refuted",
    "C89_radius_law",
    "C89_uniform_partial"
   ],
   "note": "False for shells with a hole, which the demo's outer class is (refuted; the exact law is proved); proved for full balls."
  },
  {
   "property": "C90",
   "status": "partial",
   "theorems": [
    "C90_all_tested_refuted",
    "C90_same_size_refuted",
    "C90_loaders_partial",
    "C90_unsupported"
   ],
   "note": "False: drop_last discards up to a batch of test samples, and augmented CIFAR training images are 28x28 but test images 32x32 (both refuted); proved: complete exactly when the batch size divides the number of samples, batches full, no training sample used twice, sizes agree for MNIST and without augmentation."
  },
  {
   "property": "C91",
   "status": "proved",
   "theorems": [
    "C91_sample",
    "C91_too_many",
    "C91_one_class",
    "C91_to_numpy"
   ],
   "note": ""
  },
  {
   "property": "C92",
   "status": "partial",
   "theorems": [
    "C92_every_network_refuted",
    "C92_baselines_raise",
    "C92_shooting_partial",
    "C92_clamp_raises",
    "C92_spiral_partial"
   ],
   "note": "False: every network except shooting stops with NameError or AttributeError, clamp_range without particles with KeyError, spiral.py with more than 100 samples per batch with NameError (refuted and each characterised); proved for shooting otherwise."
  },
  {
   "property": "C93",
   "status": "partial",
   "theorems": [
    "C93_saved_penalty_refuted",
    "C93_sfm_partial",
    "C93_spiral_partial",
    "C93_spiral_norms"
   ],
   "note": "False: norm_penalty is saved with the value of norm_loss (refuted; right exactly for penalty zero or weight one used); the others proved."
  },
  {
   "property": "C94",
   "status": "partial",
   "theorems": [
    "C94_epochs_refuted",
    "C94_scheduler_refuted",
    "C94_sfm_partial",
    "C94_spiral_partial"
   ],
   "note": "False: niters+1 epochs are trained, and spiral.py also steps the scheduler at figures and at the end (refuted); the exact order of all events is proved."
  },
  {
   "property": "C95",
   "status": "proved",
   "theorems": [
    "C95_sfm_freezing",
    "C95_spiral_freezing"
   ],
   "note": ""
  },
  {
   "property": "C96",
   "status": "proved",
   "theorems": [
    "C96_function_data",
    "C96_uniform",
    "C96_random_inputs",
    "C96_unknown"
   ],
   "note": ""
  },
  {
   "property": "C97",
   "status": "partial",
   "theorems": [
    "C97_plot_range_refuted",
    "C97_cubic",
    "C97_quadratic_partial"
   ],
   "note": "False for the quadratic function when the squared range is below 2 (refuted; exactly characterised); proved for the cubic function."
  },
  {
   "property": "C98",
   "status": "proved",
   "theorems": [
    "C98_resnet",
    "C98_updown",
    "C98_double",
    "C98_rnn",
    "C98_rnn_limit",
    "C98_resnet_is_shooting_step",
    "C98_double_shared",
    "C98_cnn_shared",
    "C98_layer_names",
    "C98_parameters"
   ],
   "note": ""
  },
  {
   "property": "C99",
   "status": "proved",
   "theorems": [
    "C99_collected",
    "C99_networks"
   ],
   "note": ""
  },
  {
   "property": "C100",
   "status": "proved",
   "theorems": [
    "C100_every_block_gets_its_own_derivatives",
    "C100_without_concatenation"
   ],
   "note": ""
  },
  {
   "property": "C101",
   "status": "proved",
   "theorems": [
    "C101_updown",
    "C101_universal",
    "C101_general",
    "C101_simple",
    "C101_debug",
    "C101_dampened_q2",
    "C101_periodic",
    "C101_second_order",
    "C101_symmetrized",
    "C101_optimal_transport",
    "C101_dampened"
   ],
   "note": ""
  },
  {
   "property": "C102",
   "status": "partial",
   "theorems": [
    "C102_dampening_refuted",
    "C102_dampened_q2_partial",
    "C102_dampened_updown_partial"
   ],
   "note": "False for UpdownDampenedQ2: its dampening factor -0.5 is subtracted, every solution grows like exp(t/2). Proved for DampenedUpDown with nonnegative nonlinearities."
  },
  {
   "property": "C103",
   "status": "partial",
   "theorems": [
    "C103_appears_refuted",
    "C103_appears_partial",
    "C103_injective",
    "C103_concatenation",
    "C103_unchanged"
   ],
   "note": "Typesetting is refuted for pairs LaTeX joins (two hyphens, quotation marks) and runs of blanks; proved for all other printable text. Injectivity, concatenation and unchanged plain text are proved for all texts."
  },
  {
   "property": "C104",
   "status": "partial",
   "theorems": [
    "C104_saves_refuted",
    "C104_saves_partial",
    "C104_nameless_partial"
   ],
   "note": "Refuted: a directory below a missing one, or the empty path, raises and nothing is saved. Proved when the directory or its parent exists. Also, with an empty name (or one of dots only) matplotlib sees no extension: '.png.png', '.pdf.png' and '.pgf.png' are written, all of them png (C104_nameless_partial)."
  },
  {
   "property": "C105",
   "status": "partial",
   "theorems": [
    "C105_round_trip",
    "C105_setup",
    "C105_missing",
    "C105_plotting_refuted",
    "C105_plotting_partial"
   ],
   "note": "Set-up and reset are proved exactly. For plotting: refuted when it fails in between (the backend stays pgf, there is no finally); proved for plots that return."
  },
  {
   "property": "C106",
   "status": "partial",
   "theorems": [
    "C106_every_curve_refuted",
    "C106_single_evaluation_refuted",
    "C106_shown_partial",
    "C106_saved_partial",
    "C106_mode"
   ],
   "note": "Refuted: names are excluded by their beginning, so every quantity whose name begins with the letter t or with energy is missing; a record of one evaluation raises. Proved for all other names and at least two evaluations."
  },
  {
   "property": "C107",
   "status": "partial",
   "theorems": [
    "C107_rejected_refuted",
    "C107_rejected_partial",
    "C107_stacked",
    "C107_broadcast",
    "C107_fits",
    "C107_empty"
   ],
   "note": "Stacking is proved for arrays of one shape and, entry by entry, for arrays that can be repeated to the shape of the first. Rejection of other shapes is refuted: an array with axes of extent one is silently repeated; proved exactly when an array cannot be repeated to the first one's shape."
  },
  {
   "property": "C108",
   "status": "partial",
   "theorems": [
    "C108_only_recorded_refuted",
    "C108_limit_refuted",
    "C108_shown_partial",
    "C108_saved_partial",
    "C108_order",
    "C108_order_refuted"
   ],
   "note": "Refuted: frames left in the directory from an earlier, longer run are in the animation; from the hundred thousandth evaluation on the names do not sort in order of time; one figure more than max_display is shown. Proved otherwise."
  },
  {
   "property": "C109",
   "status": "partial",
   "theorems": [
    "C109_every_model_refuted",
    "C109_shown_partial",
    "C109_saved_partial",
    "C109_options",
    "C109_settings"
   ],
   "note": "Refuted for the first-order model the spiral demo offers: it has no state q2, the call raises KeyError and leaves the pgf backend. Proved for models with two states and for calls without particles."
  },
  {
   "property": "C110",
   "status": "partial",
   "theorems": [
    "C110_agrees_with_the_package",
    "C110_gradient_refuted",
    "C110_gradient_partial",
    "C110_reaches_time_one_refuted",
    "C110_energy_constant_refuted",
    "C110_advect_partial"
   ],
   "note": "Agreement with the package is proved for all inputs. Refuted: convergence with several rows per particle (only the first row is differenced), reaching time 1, constant energy. Proved: convergence on the first row, the midpoint rule with the recorded values."
  },
  {
   "property": "C111",
   "status": "partial",
   "theorems": [
    "C111_ratios_refuted",
    "C111_ratios",
    "C111_fixed_point",
    "C111_factors",
    "C111_learning_rate_one_partial",
    "C111_reported"
   ],
   "note": "Refuted for the script's settings (factor 15/16, learning rate 1/2, two iterations): the ratio for the state is 5/4 everywhere, and no factor suits both equations. The last printed ratio divides a gradient by itself, so it is always one. Proved for learning rate one."
  },
  {
   "property": "C112",
   "status": "partial",
   "theorems": [
    "C112_same_refuted",
    "C112_differs",
    "C112_up_to_features_partial",
    "C112_package_defined"
   ],
   "note": "Refuted: the script also divides by the number of features, so with two or more features everything is too small by that factor whenever the costates do not sum to zero. Proved: the package's quantities are the hand-made ones times the number of features, hence equal with one feature."
  },
  {
   "property": "C113",
   "status": "proved",
   "theorems": [
    "C113_network_parameters",
    "C113_misfit"
   ],
   "note": "Proved, for every integrator which returns a vector of the given length per time and every first and last part which keep sizes. The refusal of particles which do not fit comes at the first pass, not at the construction."
  },
  {
   "property": "C114",
   "status": "partial",
   "theorems": [
    "C114_report_refuted",
    "C114_script_passes",
    "C114_report_partial"
   ],
   "note": "Refuted: expected parameters which the network lacks are not counted; without the first pass the script reports 14 of 14 tests passed although it expects 18 parameters. Proved: no failure exactly when every existing parameter is expected with its size, and the script's formulas are right for all two-layer networks."
  },
  {
   "property": "C115",
   "status": "proved",
   "theorems": [
    "C115_updown",
    "C115_universal",
    "C115_general",
    "C115_periodic",
    "C115_symmetrized",
    "C115_simple",
    "C115_debug",
    "C115_dimension_two"
   ],
   "note": "Proved. Differentiation is any function that returns the partial derivatives (existence shown). The restriction to particle dimension 1 is needed: for dimension 2 the two norm penalties differ (C115_dimension_two), since the hand-written offsets are not summed over the dimension (see C39)."
  },
  {
   "property": "C116",
   "status": "partial",
   "theorems": [
    "C116_zero_refuted",
    "C116_symmetric_refuted",
    "C116_nothing_refuted",
    "C116_outcome_partial",
    "C116_equal_partial",
    "C116_missing"
   ],
   "note": "Refuted: gradients that are zero everywhere raise RuntimeError (maximum of nothing) although they agree; the outcome changes when the two gradients are exchanged; the script congratulates if nothing was compared. Proved: if no gradient of the hand-written equations is zero everywhere, the script finishes, every outcome and both counts are right, and it congratulates exactly when all gradients agree as stated, in particular for equal gradients (C115)."
  },
  {
   "property": "C117",
   "status": "partial",
   "theorems": [
    "C117_mapping_accepted",
    "C117_spiral_accepted_partial",
    "C117_spiral_refused",
    "C117_accepted_refuted"
   ],
   "note": "Refuted for the spiral scripts: they offer eight shooting models, spiral.py knows four; with the others every run ends with a usage error. Proved for the mapping scripts and, as partial, for the four known models."
  },
  {
   "property": "C118",
   "status": "partial",
   "theorems": [
    "C118_spiral_exact",
    "C118_mapping_exact",
    "C118_exact_refuted",
    "C118_spiral_done_partial",
    "C118_mapping_done_partial",
    "C118_spiral_forced_partial",
    "C118_mapping_forced_partial"
   ],
   "note": "Refuted for the rnn scripts: the default argument keeps the combinations of earlier sweeps, so later sweeps repeat them. Proved exactly for the two scripts with one sweep; for the rnn scripts: nothing wanted is left out, and the exact list under --force_recompute."
  },
  {
   "property": "C119",
   "status": "partial",
   "theorems": [
    "C119_checkpoints_refuted",
    "C119_aligned_checkpoints_partial"
   ],
   "note": "Refuted: a checkpoint which is not a whole number of steps away from the first time adds a step (witness: default step size 1/2, interval 3/4 or two checkpoints on [0, 1]). Proved as partial, with exact equality at arbitrary requested times, if all checkpoints lie on the grid of steps."
  },
  {
   "property": "C120",
   "status": "partial",
   "theorems": [
    "C120_single_times_refuted",
    "C120_grid_times_partial",
    "C120_grid_values_partial",
    "C120_euler_times_partial"
   ],
   "note": "Refuted for rk4: inside a step the value is interpolated linearly, so accuracy drops, while integrating to the time shortens the step. Proved as partial: for all times on the grid (all that the script compares) with all three methods, and for all times with Euler's method."
  },
  {
   "property": "C121",
   "status": "proved",
   "theorems": [
    "C121_recorded_times",
    "C121_recorded_before_exceptions"
   ],
   "note": "Proved for the three fixed-step methods and any number of runs recorded in the same data."
  },
  {
   "property": "C122",
   "status": "partial",
   "theorems": [
    "C122_whole_time_refuted",
    "C122_rk4_sum_partial",
    "C122_rk4_constant_partial",
    "C122_last_evaluation_partial",
    "C122_chunks_partial"
   ],
   "note": "Refuted for euler and midpoint: nothing is recorded after the last evaluation, so the last step, or half of it, does not count. Proved as partial: exactly this for all methods (one run), the full statement for rk4 with any number of restarted or continued runs, the decomposition over steps for varying norms, and that the chunks of get_time_chunks meet the hypotheses and add up to the whole time whatever chunk_time is."
  },
  {
   "property": "C123",
   "status": "proved",
   "theorems": [
    "C123_batches_are_windows"
   ],
   "note": "Proved. numpy's choice, the distance scaling and the solver generating the data are arguments of which only lengths are used."
  },
  {
   "property": "C125",
   "status": "partial",
   "theorems": [
    "C125_accepted_refuted",
    "C125_exactly_partial",
    "C125_runs_partial",
    "C125_dimension_partial",
    "C125_simple_partial",
    "C125_batch_partial",
    "C125_unwritable_partial"
   ],
   "note": "Refuted: the command line without options has shooting_dim 20, but the points have two features, and the first forward pass raises RuntimeError. Proved: for sizes of at least 1, a weight other than 0 and an accepted seed, the run ends well exactly if the dimension is 2, the batch size is at least 2 and, unless there are no epochs, the batch size is not 2999 (one of 3000 points is left over and BatchNorm refuses it) and the model is not the simple one (the hook finds no second layer, after a full epoch of training and before anything is saved); then every epoch has a complete recording. A file which cannot be written ends the run with an exception, after the files before it."
  },
  {
   "property": "C126",
   "status": "partial",
   "theorems": [
    "C126_checkpoints_refuted",
    "C126_checkpoints_partial",
    "C126_backward_partial",
    "C126_forward_partial"
   ],
   "note": "Refuted with checkpoints: for two decreasing times and any number of checkpoints nothing is integrated and None is returned (the loop takes the last time as lying before the checkpoint); an interval between checkpoints raises RuntimeError (torch.arange). Proved without checkpoints for euler, midpoint and rk4."
  },
  {
   "property": "C124",
   "status": "partial",
   "theorems": [
    "C124_circles_refuted",
    "C124_particles_refuted",
    "C124_exactly_partial",
    "C124_reproducible_partial",
    "C124_circles_partial",
    "C124_circles_data_partial",
    "C124_mapping_partial"
   ],
   "note": "Refuted for cc.py, whose data are drawn before the seed is set, and for spiral.py with --custom_parameter_initialization, where the number of particles shifts the windows drawn during training. Proved: exactly how rot.py, balls.py, spiral.py and simple_functional_mapping_example.py start from a seed, that they are reproducible for every seed but -1 (negative or too large ones are refused with ValueError), that cc.py depends on earlier draws by its data only (and those not on numpy), and that the data of simple_functional_mapping_example.py depend on --seed, --xrange and --fcn only."
  },
  {
   "property": "C127",
   "status": "partial",
   "theorems": [
    "C127_order_refuted",
    "C127_order_partial",
    "C127_complete_partial",
    "C127_windows_partial",
    "C127_prefix_partial"
   ],
   "note": "Refuted for simple_functional_mapping_example.py: starting an iteration of the evaluation loader draws from torch's generator, which shuffles the training samples. Proved there: orders agree as long as evaluations happened after the same epochs, and every epoch visits each sample once. Proved for spiral.py: windows come from numpy's generator and do not depend on frequencies nor on torch's orders."
  },
  {
   "property": "C128",
   "status": "partial",
   "theorems": [
    "C128_analytic_refuted",
    "C128_default_data_refuted",
    "C128_once_refuted",
    "C128_every_call_partial",
    "C128_analytic_partial",
    "C128_general_partial",
    "C128_vector_partial",
    "C128_passes_partial"
   ],
   "note": "Refuted: with analytic solutions the bias is the average of the costates, a matrix with a row per dimension, and bias[0].item() or bias[1] raises unless there are two dimensions and one feature; with the default hook data None every pass raises TypeError; every batch is written, as the batch number is read but not used. Proved: what a call does, when it succeeds for each model, and that passes over times from zero on write once each and give the values without the hook. Missing: epochs other than integers, negative or decreasing times, adaptive solvers."
  },
  {
   "property": "C129",
   "status": "partial",
   "theorems": [
    "C129_ahead_refuted",
    "C129_errors_partial"
   ],
   "note": "Refuted: more than 17 images are silently 17, zero and small negative values compare nothing (the error is NaN), values from -4 to -19 compare 20+k images. Proved: the errors for every value exactly, with the decoded images."
  },
  {
   "property": "C131",
   "status": "partial",
   "theorems": [
    "C131_accepted_refuted",
    "C131_exactly_partial",
    "C131_runs_partial",
    "C131_no_directory_partial",
    "C131_errors_partial",
    "C131_batch_ignored"
   ],
   "note": "Refuted: 15 or more (or a negative number of) skipped timepoints, an evaluated timepoint outside 0..15, one latent dimension, or a test set which leaves a single sequence in its last batch raise; --batch_size is without effect. Proved: exactly these fail (the first two only if there are epochs), what the files contain, what the errors are. Integrator, optimizer and scheduler are taken not to raise, the block to give trajectories."
  },
  {
   "property": "C132",
   "status": "partial",
   "theorems": [
    "C132_saved_refuted",
    "C132_exactly_partial",
    "C132_saves_partial",
    "C132_best_partial"
   ],
   "note": "Refuted: an existing directory raises FileExistsError, so with the default runs/ only the first run works (and none after a rot.py --save in the same place); with --evaluate_ahead 0 nothing is ever saved; one latent dimension or a single sequence left in a last batch raise. Proved: exactly when a run ends well, and that a model is saved exactly if there are compared images, and that it is the one of the epoch with the smallest mean validation error (the last such epoch)."
  },
  {
   "property": "C130",
   "status": "partial",
   "theorems": [
    "C130_commands_refuted",
    "C130_commands_partial",
    "C130_lines",
    "C130_started",
    "C130_blank_rejected",
    "C130_circles_partial",
    "C130_rotation_partial",
    "C130_bouncing_partial"
   ],
   "note": "Refuted for both commands of simple_functional_mapping_example.py: the cubic one has a blank behind a backslash, which becomes an argument and is refused; the quadratic one lacks a backslash and runs 250 iterations with parameters never unfrozen (C95), its last three lines are lost. Proved: the other four are started as shown and accepted; those of cc.py, rot.py and balls.py save what C125, C131 and C132 say (balls.py is refused when run again); a command over several lines is started as shown exactly if each line but the last ends with a bare backslash."
  },
  {
   "property": "C133",
   "status": "partial",
   "theorems": [
    "C133_spiral_refuted",
    "C133_spiral_partial",
    "C133_missing_refuted",
    "C133_mapping_refuted",
    "C133_mapping_partial",
    "C133_image_refuted",
    "C133_image_partial"
   ],
   "note": "Refuted: spiral.py, cc.py, rot.py and balls.py ignore --optimize_over_data_initial_conditions(_type) for the model 'simple', spiral.py there also --do_not_use_analytic_solution; simple_functional_mapping_example.py offers the model 'universal', whose class does not exist (AttributeError), ignores --adjoint, and passes a step size to methods which choose their own. Proved: everything else arrives, and exactly which command lines are refused. Creation of tensors in the constructors is not part of this model (sizes below 1)."
  },
  {
   "property": "C134",
   "status": "partial",
   "theorems": [
    "C134_circles_refuted",
    "C134_circles_partial",
    "C134_spiral",
    "C134_mapping",
    "C134_images"
   ],
   "note": "Refuted for cc.py, where the penalty is commented out, so --norm_weight has no effect. Proved for the other four scripts; for spiral.py with the similarity in the norm chosen by --sim_norm."
  },
  {
   "property": "C135",
   "status": "proved",
   "theorems": [
    "C135_spiral",
    "C135_mapping",
    "C135_circles",
    "C135_rotation",
    "C135_balls",
    "C135_spiral_saved",
    "C135_mapping_saved",
    "C135_learning_rate"
   ],
   "note": "Names and sizes of the tensors, not their values; the first forward pass of cc.py before the optimizer is made is not part of the model. Found on the way: frozen particles are in the optimizer too, so that unfreezing them later has an effect. Rates in scientific notation are covered."
  },
  {
   "property": "C136",
   "status": "partial",
   "theorems": [
    "C136_rotation",
    "C136_balls",
    "C136_circles",
    "C136_falling",
    "C136_display_refuted",
    "C136_display_partial",
    "C136_spiral_bound",
    "C136_mapping_bound",
    "C136_spiral_improving",
    "C136_mapping_improving",
    "C136_spiral_often",
    "C136_mapping_often",
    "C136_spiral_stagnating",
    "C136_mapping_stagnating"
   ],
   "note": "False for the display frequency in spiral.py (C136_display_refuted): losses are evaluated, and the scheduler is stepped, in epochs with a test or a figure, so with a flat loss --viz_freq 1 instead of 100 reduces the rate tenfold within 12 epochs. True for simple_functional_mapping_example.py (C136_display_partial), where only tests step the scheduler. All other parts hold. With the default options there are so few evaluations that spiral.py can reduce the rate at most once and simple_functional_mapping_example.py at most twice. The schedulers are torch 1.7.0's, with exact numbers."
  },
  {
   "property": "C137",
   "status": "partial",
   "theorems": [
    "C137_curve",
    "C137_other_equation",
    "C137_data_refuted",
    "C137_data_partial",
    "C137_inwards_partial",
    "C137_outwards_partial"
   ],
   "note": "False for long steps: '--linear --stepsize 2 --data_size 6' is accepted, and the last point is more than 1000 away from the origin (C137_data_refuted); with steps of 3/2 or more the points at whole steps always move outwards (C137_outwards_partial). Proved: the equation has exactly this solution (C137_curve); with rk4 and steps h up to 1 every point, at whatever time, is within 401/400*h^2 + t*h^4 of the spiral (C137_data_partial), also with checkpoints at whole steps, so within 0.0026 with the defaults; at whole steps the points come strictly closer to the origin (C137_inwards_partial). Missing: solvers with step size control, checkpoints between steps, steps between 1 and 3/2."
  },
  {
   "property": "C138",
   "status": "partial",
   "theorems": [
    "C138_proportional_refuted",
    "C138_counts_partial",
    "C138_linear_partial"
   ],
   "note": "False: distances are rounded to multiples of the smallest; in a run with six points two different distances are offered equally often, however halves are rounded (C138_proportional_refuted). Proved: for all positive distances every starting point with a full window and one more point behind it is offered at least once, and the number is within 1/2 of the ratio to the smallest distance; no other point is offered (C138_counts_partial). On the linear data with steps up to 1/5 at whole steps, distances get strictly shorter, and every point is offered once, twice or three times (C138_linear_partial). Missing: exact proportions; distances of zero (which divide by zero)."
  },
  {
   "property": "C139",
   "status": "partial",
   "theorems": [
    "C139_set_up",
    "C139_moved_refuted",
    "C139_moved_partial",
    "C139_new_tensors_partial",
    "C139_single_time_partial",
    "C139_particle_free_partial"
   ],
   "note": "The first half is proved for every model, mode and history (C139_set_up): setup_device also makes its device the default one. Moving is false (C139_moved_refuted): the layers created in an evaluation (automatic differentiation, the model 'simple') stay on the default device, so that no call elsewhere ever succeeds (C139_new_tensors_partial) unless there is a single time only (C139_single_time_partial); in the particle-free modes the particles are not registered and are left behind, whatever was called (C139_particle_free_partial); enlargement parameters created after the move are on the default device. Proved: particle blocks with analytic parameters and without enlargement can be moved at any time and then give the results they give without devices (C139_moved_partial)."
  },
  {
   "property": "C140",
   "status": "proved",
   "theorems": [
    "C140_functions",
    "C140_gradients",
    "C140_script"
   ],
   "note": "Proved over the real numbers; the automatic differentiation is an arbitrary function that finds partial derivatives. The gradient of x is 6xp + 3x^2 p; the gradient of p, which the script does not print, is the sum of those of both losses."
  },
  {
   "property": "C141",
   "status": "partial",
   "theorems": [
    "C141_start_refuted",
    "C141_between_refuted",
    "C141_grid_times_partial",
    "C141_elapsed_times_partial",
    "C141_time_zero_partial"
   ],
   "note": "False: single times are integrated from 0, vectors from their first time (C141_start_refuted); times between steps are interpolated in vectors (C141_between_refuted); the single time 0 is always refused (C141_time_zero_partial). Proved for whole blocks and the default solver: for vectors that start with 0, and times which are whole numbers of steps away, all four results are rows of those with the vector (C141_grid_times_partial), also with checkpoints after whole numbers of steps; for other first times the single time is the elapsed one if the right-hand side does not depend on the time (C141_elapsed_times_partial)."
  },
  {
   "property": "C142",
   "status": "proved",
   "theorems": [
    "C142_parameters",
    "C142_derivatives",
    "C142_runs"
   ],
   "note": "Full, for runs that succeed with the given particles. Parameters are equal as values, not only close (real numbers). C142_unevenly shows that repeating only some of the particles does change the parameters."
  },
  {
   "property": "C143",
   "status": "proved",
   "theorems": [
    "C143_parameters",
    "C143_derivatives",
    "C143_runs"
   ],
   "note": "Full. Errors are the same as well. The weight 0 is excluded (division by zero)."
  },
  {
   "property": "C144",
   "status": "partial",
   "theorems": [
    "C144_no_influence_refuted",
    "C144_derivatives_partial",
    "C144_runs_partial"
   ],
   "note": "False: parameters are means over all particles, so particles without costates shrink them (C144_no_influence_refuted: one more such particle halves the derivative of the data). Proved: they stay without costates, and B particles of which only A have costates act exactly as these A with B/A times the weight, for derivatives and for whole runs (C144_derivatives_partial, C144_runs_partial)."
  },
  {
   "property": "C145",
   "status": "partial",
   "theorems": [
    "C145_after_failure_refuted",
    "C145_other_time_refuted",
    "C145_end_partial",
    "C145_entries_partial",
    "C145_start_partial",
    "C145_kept_partial"
   ],
   "note": "False in two ways: after a trajectory which raised, the vector of times stays and the model returns whole trajectories (C145_after_failure_refuted); a block which integrates up to another time than 1 integrates up to 1 afterwards (C145_other_time_refuted). Proved for blocks which integrate up to 1: a successful trajectory leaves the block exactly as model(x) would, whatever the solver (C145_kept_partial); its last entry is model(x) if 1 is a whole number of steps (C145_end_partial), the entry k is the result up to the time k/(N-1) if that is a whole number of steps (C145_entries_partial; otherwise it is interpolated, see C141), and the first one are the data and particles as they are (C145_start_partial)."
  },
  {
   "property": "C146",
   "status": "partial",
   "theorems": [
    "C146_freezes_refuted",
    "C146_nothing_partial"
   ],
   "note": "False: state_dict() returns detached tensors, so setting requires_grad does not reach the parameters (C146_freezes_refuted, in contrast to utils.freeze_parameters, C56). Proved: the parameters never change, and exactly unknown names raise KeyError (C146_nothing_partial)."
  },
  {
   "property": "C147",
   "status": "partial",
   "theorems": [
    "C147_every_activation_refuted",
    "C147_parameters_partial",
    "C147_derivatives_partial",
    "C147_runs_partial"
   ],
   "note": "False for relu, sigmoid and softmax (C147_every_activation_refuted, for each of the three). Proved without activation and for tanh: the weights are the same and the biases have the opposite sign, derivatives and whole runs are mirrored, errors are the same."
  },
  {
   "property": "C148",
   "status": "partial",
   "theorems": [
    "C148_every_model_refuted",
    "C148_derivatives_partial",
    "C148_runs_partial"
   ],
   "note": "False for 'simple', which applies the activation to q1 (C148_every_model_refuted: a rotation of the plane, relu). Proved for up-down, universal, dampened second variable, symmetrized and periodic, for every activation; missing: the general up-down model and the two simple ones."
  },
  {
   "property": "C149",
   "status": "partial",
   "theorems": [
    "C149_model_kept_refuted",
    "C149_first_order_refuted",
    "C149_first_order_partial",
    "C149_gradients_partial",
    "C149_field_partial",
    "C149_from_place_partial",
    "C149_block_partial",
    "C149_particles_partial"
   ],
   "note": "False in four respects: the model keeps the five times of the picture (C149_model_kept_refuted, C149_block_partial), is_higher_order_model=False always fails (C149_first_order_refuted, C149_first_order_partial), true observations which require gradients are refused (C149_gradients_partial), and the particles are never drawn because no block has the attribute q_params (C149_particles_partial). True and proved: places and vectors belong together, vectors are unit vectors along the way of the sample which started there (C149_field_partial, C149_from_place_partial)."
  },
  {
   "property": "C150",
   "status": "proved",
   "theorems": [
    "C150_derivatives",
    "C150_runs"
   ],
   "note": "Proved for all eight models, also for those which C148 leaves out."
  },
  {
   "property": "C151",
   "status": "partial",
   "theorems": [
    "C151_shown_refuted",
    "C151_script_partial",
    "C151_text_partial"
   ],
   "note": "False (C151_shown_refuted): Popen without text mode gives bytes, whose split does not take the str '\\n', so that the function raises a TypeError for every script and every output, after the script has run, and prints nothing (C151_script_partial). For an output of type str the rest of the function is right (C151_text_partial)."
  },
  {
   "property": "C152",
   "status": "proved",
   "theorems": [
    "C152_own_file"
   ],
   "note": "Names are compared as strings; a process name which contains a slash can lead to another directory."
  },
  {
   "property": "C153",
   "status": "partial",
   "theorems": [
    "C153_failure_refuted",
    "C153_arguments_partial"
   ],
   "note": "The exit code is dropped (C153_failure_refuted). The arguments arrive unchanged, also those with spaces or quotes, other than with the bash commands of C79 (C153_arguments_partial)."
  },
  {
   "property": "C154",
   "status": "proved",
   "theorems": [
    "C154_derivatives",
    "C154_runs",
    "C154_outputs"
   ],
   "note": "Proved for all six models with inner units. The model simple has no second variable; in its debugging variant q2 is a second set of features, not of inner units, and is not treated."
  },
  {
   "property": "C155",
   "status": "partial",
   "theorems": [
    "C155_runs",
    "C155_particles",
    "C155_anode",
    "C155_anode_refuted"
   ],
   "note": "Proved for odeint, and for anode unless a single time is given: that one is taken for the length of the integration and has to be 1, so that moving it raises ValueError."
  },
  {
   "property": "C156",
   "status": "proved",
   "theorems": [
    "C156_mixtures"
   ],
   "note": ""
  },
  {
   "property": "C157",
   "status": "partial",
   "theorems": [
    "C157_return_refuted",
    "C157_linear_partial",
    "C157_return_partial"
   ],
   "note": "False (C157_return_refuted): for x' = x none of the three methods returns; Euler's method misses by the factor 1 - (a h)^2 in each step for x' = a x (C157_linear_partial). Proved: exact return, through all requested times, for velocities which do not depend on the place (C157_return_partial), for Euler's method neither on the time."
  },
  {
   "property": "C158",
   "status": "partial",
   "theorems": [
    "C158_parameters",
    "C158_dampened_refuted",
    "C158_derivatives_partial",
    "C158_runs_partial",
    "C158_backwards_partial"
   ],
   "note": "Proved for seven of the eight models with hand-written equations, for derivatives and whole runs; negative factors reverse the time (C158_backwards_partial). False of the model whose second state is dampened by a constant factor (C158_dampened_refuted): its derivatives do not vanish without costates."
  }
 ]
}