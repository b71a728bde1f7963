# Design

A machine-checked model (Rocq / Coq 8.16.1) of the Python library in `/repo`
(`uncbiag/neuro_shooting`).  The sources were read as text only; nothing was run.

## Approach

* Shallow, executable Gallina definitions, function by function and branch by
  branch.  Each model definition is preceded by a comment naming the file and
  lines it mirrors, and saying where it simplifies.
* Python exceptions are values: `result A := Ok a | Raise exn` (`Base.v`).
  Every theorem about a successful run is about `Ok`; nothing is totalised with
  made-up defaults.  Loops whose termination is not structural carry fuel, and
  running out of fuel is an error value which the theorems exclude (or, for
  C58, which is proved to happen for every amount of fuel).
* Objects with identity (option dictionaries, sweep dictionaries, mutable
  default arguments) live on an explicit heap or in an explicit process state.
* Objects used over time (shooting blocks, integrands, schedulers, parameter
  functions) are state machines; properties quantify over all histories of
  public calls.
* External code enters as section variables, which become universally
  quantified arguments of the theorems; any contract needed is a visible
  hypothesis.

## Layout (`rocq/theories`)

| files | content |
|---|---|
| `Base`, `BaseFacts`, `Tensor`, `TensorFacts`, `RealSum` | exceptions, sorted dictionaries, tensors as shape + row-major data, finite real sums |
| `*Model.v`, `VecInit`, `VecFlow` | the model, no proofs |
| `*Spec.v`, `VecNet` | independent specifications used in the statements |
| `*Proofs*.v` | lemmas |
| `Prop*.v` | only the property theorems, `Print Assumptions` below each, and an `Example` instance beside each |

## Trusted base

* Coq's kernel (8.16.1) and its standard library.
* What `Print Assumptions` lists beneath each theorem.  Theorems about discrete
  objects are "Closed under the global context".  Theorems over the real
  numbers (activation functions, energies, vector models, convolution,
  scheduler, integrator grids) list only axioms of the standard library:
  `ClassicalDedekindReals.sig_not_dec`, `ClassicalDedekindReals.sig_forall_dec`,
  `FunctionalExtensionality.functional_extensionality_dep` and, through
  Coquelicot or classical reasoning, `Classical_Prop.classic`.  No axiom is
  added here and no other library's axioms are used.
* The reading of the Python code: that each definition does what the cited
  lines do, under the simplifications below.
* The behaviour of external code as modelled: `torch` tensor operations (cat,
  view, slicing, zeros, broadcasting, matmul, conv2d, group_norm, linspace,
  arange), `SortedDict`, `nn.Module` parameter registration, `argparse` (options
  with one value, flags, `--a=b`, unique abbreviations; no positional arguments).  ODE solvers
  (`torchdiffeq`, `anode`) and `torch.autograd.grad` are never given a fixed
  meaning: they are universally quantified, with their contract (flow law;
  returns the partial derivatives) as hypothesis where one is needed.  The one
  exception is C119/C120, where the methods euler, midpoint and rk4 of
  `torchdiffeq` are modelled after release 0.0.1 (not part of /repo).

### Modelled

| source (`neuro_shooting/` unless given) | model |
|---|---|
| `activation_functions_and_derivatives.py` | `ActivationModel` |
| `state_costate_and_data_dictionary_utils.py` | `ScdModel` |
| `generic_integrator.py` | `IntegratorModel` |
| `shooting_blocks.py` | `ParamFuncModel`, `BlockModel` |
| `shooting_integrands.py` | `IntegrandModel`, `EnergyModel` |
| `overwrite_classes.py` | `LayersModel`, and the layers' arithmetic in `VecModel`, `ConvModel` |
| `shooting_models.py` | `VecModel`, `VecInit`, `VecFlow`, `ConvModel` |
| `striding_block.py` | `StridingModel` |
| `custom_lr_scheduler.py` | `SchedulerModel` |
| `res_net.py` | `ResNetModel` (channel numbers, names and data flow between blocks) |
| `utils.py` | `UtilsModel` |
| `setup_device` of `utils.py`, `to` and `_apply` of `shooting_blocks.py`, devices of what an evaluation creates (`shooting_integrands.py`, `shooting_models.py`) | `DeviceModel` |
| `tests/autodiff_tries.py` | `TriesModel` (and `ActivationModel`) |
| `forward` of `shooting_blocks.py` with the integrator of `generic_integrator.py` and a fixed-step solver | `BlockSolverModel` |
| the system of states, costates and data of `shooting_integrands.py` (`forward`) with hand-written equations and a fixed-step solver | `ParticlesModel` |
| `validation_measures.py` | `ComplexityModel` |
| `parameter_initialization.py` | `InitModel` |
| `shooting_hooks.py` | `HooksModel` |
| `command_line_execution_tools.py`, `experiment_utils.py` (sweeps, merging, command lines, run names) | `SweepModel` |
| `command_line_execution_tools.py` (configuration strings, shell commands) | `CommandModel`; the shell in `ShellSpec` |
| `command_line_execution_tools.py` (log file names, processes and their output) | `ProcessModel` |
| `demos/neurips20/spiral.py` (chunking, batches) | `SpiralModel` |
| `demos/neurips20/spiral.py` (generated data, data sets and loaders) | `LoaderModel` |
| `demos/neurips20/autoencoder.py`, training step of `rot.py` | `AutoencoderModel` |
| training loops of `demos/neurips20/rot.py`, `balls.py`, `cc.py` | `LoopModel` |
| main programs of `demos/neurips20/rot.py` and `balls.py` (command lines, data sets, `evaluate`, files), `load_data` of `utils.py` | `ImagesModel` |
| training commands of `demos/neurips20/README.md` | `ReadmeModel` |
| constructors of the vector models and of blocks with keyword arguments (`shooting_models.py`, `shooting_integrands.py`, `shooting_blocks.py`), and their use in the five demos | `SetupModel` (without the tensors they create) |
| parameters of layers, autoencoders and blocks, optimizers, schedulers and parameter counts of the five demos (`autoencoder.py`, `spiral.py`, `simple_functional_mapping_example.py`, `cc.py`, `rot.py`, `balls.py`, `utils.py:43-69`) | `TrainedModel` (names and sizes) |
| learning rates over the epochs of the five demos; torch's `ReduceLROnPlateau` and `CosineAnnealingLR` (release 1.7.0) written down as external | `RatesModel` (on `FunctionalModel` and `LoopModel`) |
| `DiffEqRHS`, `generate_data` and the choice of the integrator for the data in `spiral.py` | `SpiralDataModel` (on `SetupModel`, `FixedGridModel`) |
| `demos/neurips20/cc.py` main program (command line, block, classifier, hook, files) | `CirclesModel` |
| `Model.trajectory` and `freeze_parameters` of `demos/neurips20/cc.py` | `TrajectoryModel` |
| seeding (`neuro_shooting/utils.py`, `demos/neurips20/`): what is drawn before and after, orders and windows of training | `SeedModel` |
| `demos/neurips20/utils.py` (sphere data), metrics of `cc.py` | `SphereModel` |
| `data_loaders.py`, `demos/neurips20/utils.py` (sampling) | `DataModel` |
| main programs of `demos/neurips20/simple_functional_mapping_example.py` and `spiral.py` | `FunctionalModel` |
| `demos/neurips20/simple_discrete_neural_networks.py`, parameters across layers | `DiscreteNetModel` |
| `neuro_shooting/figure_utils.py`, pgf settings of `figure_settings.py`, `plot_temporal_data` of `vector_visualization.py` | `FigureModel` |
| the other functions of `vector_visualization.py` (drawing as conditions on shapes, frames, animation) | `VizModel`, `visualize`: `VisualizeModel` |
| `tests/test_standalone_shooting_updown.py` (ts.py) except its main program | `StandaloneModel` |
| `tests/raw_fixed_point_check.py` (rf.py) | `RawFixedModel` |
| `tests/autograd_versus_manualgrad.py` (mg.py) | `ManualGradModel` |
| the whole network of `res_net.py` on tensors (blocks, striding, parameters); `tests/striding_and_upsampling.py` | `NetworkModel` (first convolution, normalisation and classifier as arguments; the integrator as an argument returning one vector per time) |
| `tests/autograd_gradient_test.py` (gt.py) | `GradCheckModel` (comparison and report); its integration and loss in `AnalyticFlowSpec` |
| the four `demos/neurips20/run_*experiments*.py`, the argument parsers of `experiment_utils.py`, `spiral.py`, `simple_functional_mapping_example.py` | `ExperimentModel`; Python's `argparse` in `ArgparseModel` |
| `tests/integration_time_test.py`; the fixed-step solvers of `torchdiffeq` (external) | `FixedGridModel` |
| recording with `parameter_evolution_hook` during fixed-step runs (`spiral.py:418-427, 686-700`) | `RecordModel` |
| `tensorboard_shooting_hooks.py` | `TensorboardModel` (the writer as a list of entries) |
| data, losses, figure range of `simple_functional_mapping_example.py`; losses of `spiral.py` | `FunctionalDataModel` |

### Not modelled

The rest of `figure_settings.py` and the training
scripts under `demos/` other than the functions cited.  Placement on GPUs is
modelled for blocks only (`DeviceModel`); gradients through the integration (`odeint_adjoint`
backward passes) are not modelled.

### Simplifications

* Floating point numbers are exact: integers/rationals for times and metrics
  (with NaN and infinities in the scheduler), real numbers in energies, vector
  and convolutional models.  Rounding errors are out of scope.
* `torch.cat`'s legacy acceptance of empty one-dimensional tensors is left out.
* `desired_size` of enlargement parameters is the pair used by the code; a
  third tuple entry is never read.
* `reset` of integrands is modelled in `IntegrandModel`, not per shooting model.
* In `ResNetModel`, `BasicResNet` is abstracted to channel numbers, block names
  and which value reaches the classifier; `NetworkModel` has the tensors.
* File names in sweeps are compared as strings; wildcard characters given to
  `glob` are not interpreted.  Lower-casing is ASCII.
* `autograd.grad` returning `None` for unused variables is not modelled.
* Hooks get the integrand's values and cannot change them.
* The bias of a linear layer is kept as a one-row matrix in the vector models.
* Division by zero (zero weights, group norm with zero variance and `eps`=0)
  is excluded by hypothesis wherever it would matter.
* Group norm is modelled with one channel per group and convolutions with
  stride, dilation and groups 1, the only forms used by the models.
* In `AutoencoderModel` the values computed by layers are arbitrary functions,
  only shapes are fixed; linear layers take two-dimensional input, differences
  do not broadcast, and batch norm's error for a single value is left out.
* In `LoopModel` all that a training step changes is one opaque value; training
  steps, forward passes and scheduler steps are arbitrary functions that see the
  training flag.  That a forward pass in evaluation mode changes nothing is a
  hypothesis.
* In `SphereModel` and `DataModel` random generators are streams of values given
  as arguments, data loaders are lists of batches, images their side lengths.
* In `FunctionalModel` a run is the list of its events (training step with or
  without fixed positions, evaluation, scheduler step, figure); what happens
  inside an event is not modelled, which variables exist at which point is.
* Figures are values, not pictures; the file system has directories and files without
  links and permissions; matplotlib accepts all values of existing settings; LaTeX is
  specified as a reader of the constructs the escaping produces (`FigureSpec`).
* The convolutional networks in `DiscreteNetModel` have arbitrary layers; assigning
  a tensor to a row of another size is an error instead of broadcasting.
* `VecFlow` integrates the dictionaries themselves; that assembling them into
  one vector is faithful is C01/C10.

## Statements

Theorems quantify over all dictionaries, tensors, histories, grids, solvers
and sizes without bounds.  When the property as a user would expect it is false
of the code, it is kept in `properties.jsonl` unchanged, refuted with a witness
(`..._refuted`), the strongest true part is proved (`..._partial`), and the
status is `partial`.

## Properties (63 proved, 95 partial)

The full statements are in `properties.jsonl`.

### C01 Assemble/disassemble round trip (proved)

*Model:* ScdModel. *How:* Induction over blocks and variables with a running offset; assembly flattens in key order, disassembly cuts the same lengths. Scalars are excluded (see C62).

*Theorems:* `C01_assemble_disassemble_round_trip`

### C02 Time-major disassembly is disassembly per time point (proved)

*Model:* ScdModel. *How:* Disassembly with dim=1 is related, entry by entry, to disassembling each row; second theorem: it succeeds when the row-wise one does.

*Theorems:* `C02_time_major_disassembly`, `C02_time_major_succeeds`

### C03 Assembly/disassembly error contract (proved)

*Model:* ScdModel. *How:* Exact success condition of assembly; ValueErrors of disassembly; a vector of the planned length is used up completely; shorter vectors raise. (Longer ones are silently accepted: finding.)

*Theorems:* `C03_assembly_succeeds_iff`, `C03_disassembly_argument_errors`, `C03_exact_length_uses_everything`, `C03_short_vector_rejected`

### C04 Merging a block into a dictionary of dictionaries (proved)

*Model:* ScdModel. *How:* Lookup laws of sorted dictionaries; ValueError when the block name is taken.

*Theorems:* `C04_merge_adds_exactly_the_block`, `C04_merge_never_overwrites`

### C05 Concatenate then deconcatenate is the identity (proved)

*Model:* ScdModel, Tensor. *How:* Concatenation and slicing at index level (ravel/unravel), induction over blocks with per-variable offsets.

*Theorems:* `C05_concatenate_deconcatenate`

### C06 Concatenation rejects blocks with differing variable names (partial)

*Model:* ScdModel. *How:* Refuted by a witness; partial: names unknown to the first block are rejected.

*Note:* Full statement is false (refuted): a later block lacking variables is silently accepted. Partial: names unknown to the first block are rejected, result names = first block's names.

*Theorems:* `C06_concat_rejects_differing_names_refuted`, `C06_concat_rejects_foreign_names_partial`

### C07 Tuple/dictionary round trips used for autodiff (proved)

*Model:* ScdModel. *How:* Induction over dictionaries; round trip for parameter objects, and failure (IndexError) for objects holding None entries.

*Theorems:* `C07_tuple_dict_round_trip`, `C07_tuple_dict_of_dicts_round_trip`, `C07_parameter_objects_round_trip`, `C07_parameter_objects_with_none_fail`

### C08 Extracting one variable from all blocks (proved)

*Model:* ScdModel. *How:* Case analysis on the number of blocks.

*Theorems:* `C08_extract_key`

### C09 Zero padding of new data channels always concatenates (proved)

*Model:* ScdModel. *How:* Shape calculus for the shared, mutated target shape; then concatenation is defined.

*Theorems:* `C09_zero_padding_concatenates`, `C09_zero_padding_shape`, `C09_data_concatenation_dim`

### C10 The right-hand side vector lines up with the state vector (proved)

*Model:* ScdModel. *How:* Prefixing names with "dot_" / "p_" keeps the key order, so offsets agree with C01; also through concatenate/deconcatenate.

*Theorems:* `C10_rhs_vector_alignment`, `C10_concatenated_rhs_alignment`

### C11 Checkpoint intervals cover exactly the requested times (proved)

*Model:* IntegratorModel. *How:* The interval loop over an arbitrary total order: invariants on emitted flags; any grid.

*Theorems:* `C11_checkpoint_intervals_cover`, `C11_any_grid_covers`

### C12 Checkpoint intervals chain without gaps (proved)

*Model:* IntegratorModel. *How:* Invariant: last time of an interval = first of the next.

*Theorems:* `C12_intervals_chain`

### C13 Checkpointed integration gives the same result as direct integration (proved)

*Model:* IntegratorModel. *How:* Solver arbitrary with a flow law; induction over intervals. Second theorem: without flow law a one-step Euler solver gives a different result.

*Theorems:* `C13_checkpointed_equals_direct`, `C13_differs_without_flow`

### C14 Checkpointing never loses requested time points (partial)

*Model:* IntegratorModel. *How:* Refuted (decreasing times); partial: exactly which times come back.

*Note:* Full statement is false (refuted): decreasing times with checkpointing lose requested outputs, and a repeated final time is dropped. Partial: exactly which times are returned for non-decreasing requests.

*Theorems:* `C14_no_time_lost_refuted`, `C14_returned_times_partial`

### C15 Checkpointing configuration errors (proved)

*Model:* IntegratorModel. *How:* Case analysis; grids given by exact linspace/arange.

*Theorems:* `C15_value_errors`, `C15_no_other_errors`, `C15_senseless_settings`, `C15_grid`

### C16 Integrator construction and options (proved)

*Model:* IntegratorModel. *How:* Exact contract of the constructor for every argument combination.

*Theorems:* `C16_constructor_contract`

### C17 Constructing an integrator does not change the caller's options (partial)

*Model:* IntegratorModel. *How:* Option dictionaries on a heap; refuted; partial: exactly which entry is written.

*Note:* Full statement is false (refuted): the constructor writes into the caller's option dictionary, so a second integrator given the same dictionary silently uses the first one's step size. Partial: exactly which entries change.

*Theorems:* `C17_caller_options_unchanged_refuted`, `C17_constructor_effect_partial`

### C18 ANODE integration guard (proved)

*Model:* IntegratorModel. *How:* Guard on [0,1]; combined with C11/C12: checkpointing always makes it fail.

*Theorems:* `C18_anode_guard`, `C18_anode_never_checkpointed`

### C19 Time-dependent parameter lookup is total and cache-coherent (proved)

*Model:* ParamFuncModel. *How:* Invariant over all histories of queries; search loops carry fuel, exhaustion excluded by the theorem.

*Theorems:* `C19_lookup_total`, `C19_constructed_coherent`

### C20 Time-dependent parameter lookup returns the closest earlier parameters (partial)

*Model:* ParamFuncModel. *How:* Refuted; partial: what is returned after any history.

*Note:* Full statement is false (refuted): a query strictly between grid points returns the next grid point's parameters whenever the cached time lies before it, so repeating a query alternates between two answers. Partial: what is returned after any history; exact at grid times, below and above the range.

*Theorems:* `C20_closest_earlier_refuted`, `C20_closest_or_next_partial`

### C21 Particle-free RNN mode uses one constant parameter set (proved)

*Model:* ParamFuncModel. *How:* Single parameter set; composition with the constructor for rnn mode.

*Theorems:* `C21_single_set_constant`, `C21_rnn_mode_constant`

### C22 parameters() is available exactly after a successful forward pass (proved)

*Model:* BlockModel. *How:* Invariant over histories of public calls: available iff some forward call succeeded.

*Theorems:* `C22_parameters_after_forward`

### C23 A failed forward call can be retried (partial)

*Model:* BlockModel. *How:* Refuted; partial under the condition that no failing call could create enlargement parameters.

*Note:* Full statement is false (refuted): a first call with pass-through blocks that fails after the enlargement parameters were created makes every later call with pass-through blocks raise ValueError. Partial: retries behave as on the original block when no failing call could create enlargement parameters.

*Theorems:* `C23_retry_refuted`, `C23_retry_partial`

### C24 Enlargement parameters are created once (proved)

*Model:* BlockModel. *How:* Invariant over histories: the enlargement attributes never change once set.

*Theorems:* `C24_enlargement_created_once`, `C24_own_objects`

### C25 Enlarging a tensor embeds it centrally (proved)

*Model:* BlockModel, Tensor. *How:* Index-level description of the enlarged tensor.

*Theorems:* `C25_enlarge_embeds_centrally`, `C25_every_parameter_used_once`, `C25_desired_size_reached`, `C25_never_shrinks`

### C26 Every enlargement parameter stays registered for optimisation (partial)

*Model:* BlockModel. *How:* Refuted with two blocks; exact set of registered names; complete for one block.

*Note:* Full statement is false (refuted): enlargement parameters are registered under 'pt_enlarge_'+key only, so two pass-through blocks with the same variable overwrite each other in the registry. Partial: exactly which names are registered; complete for a single pass-through block.

*Theorems:* `C26_registered_refuted`, `C26_registered_partial`, `C26_single_block_registered`

### C27 Particle-free parameters are registered under distinct names (proved)

*Model:* BlockModel. *How:* Injectivity of decimal printing and of the name format (for one object; across steps).

*Theorems:* `C27_distinct_names`, `C27_time_steps_distinct`, `C27_all_registered`, `C27_registration_succeeds`, `C27_one_mode`

### C28 Integration time setters (partial)

*Model:* BlockModel. *How:* Histories of setter calls; refuted for to().

*Note:* Full statement is false (refuted): to()/_apply after set_integration_time_vector raises AttributeError. Partial: the times used by forward are always those of the last setter call.

*Theorems:* `C28_move_refuted`, `C28_last_setting_partial`

### C29 Hooks run in registration order, once per evaluation (proved)

*Model:* IntegrandModel. *How:* Registry as ordered list; specification replays the history of operations independently.

*Theorems:* `C29_hooks_in_registration_order`, `C29_handle_is_registration_number`

### C30 Norm penalty life cycle (proved)

*Model:* IntegrandModel. *How:* State machine over histories.

*Theorems:* `C30_no_penalty_before_time_zero`, `C30_penalty_is_energy_at_time_zero`

### C31 Particle RNN mode freezes the parameters per integration (proved)

*Model:* IntegrandModel. *How:* State machine over histories.

*Theorems:* `C31_parameters_frozen_per_integration`, `C31_parameters_fresh_without_rnn_mode`

### C32 Explicit assembly plans are honoured (partial)

*Model:* IntegrandModel. *How:* Refuted; always rejected; cached plans proved.

*Note:* Finding: ShootingIntegrandBase.disassemble_tensor has its test inverted; passing explicit plans raises ValueError always (C32_explicit_plans_refuted, ..._always_rejected_partial). Using the cached plans, and ValueError without any, is proved.

*Theorems:* `C32_explicit_plans_refuted`, `C32_explicit_plans_always_rejected_partial`, `C32_cached_plans_partial`

### C33 Transposed evaluation is supported (partial)

*Model:* IntegrandModel. *How:* Refuted; always fails with transposition; complete description without it.

*Note:* Finding: transpose_state_dict_of_dicts reads the dictionary it is filling, so transposition raises KeyError for every non-empty state (refuted + general failure theorem). The untransposed evaluation is characterised completely.

*Theorems:* `C33_transposed_evaluation_refuted`, `C33_transposition_always_fails_partial`, `C33_untransposed_partial`

### C34 Externally managed parameters work with autodiff costate evolution (partial)

*Model:* IntegrandModel. *How:* Refuted; always fails with autodiff; analytic case proved.

*Note:* Finding: the reduced Lagrangian calls the parameter function object, which is not callable, so externally managed parameters with autodiff costates never work (refuted + general failure theorem). The analytic case is proved under the stated success hypotheses on the model's own functions.

*Theorems:* `C34_autodiff_refuted`, `C34_autodiff_always_fails_partial`, `C34_analytic_partial`

### C35 Parameters minimise the reduced energy (proved)

*Model:* EnergyModel. *How:* Energies over R; completing the square; unique minimiser, closed form.

*Note:* autograd.grad is an oracle assumed to return the partial derivatives. Potential affine in the parameters as in the shipped models. With parameter_weight None the optimal transport kinetic energy raises TypeError.

*Theorems:* `C35_unique_minimiser`, `C35_closed_form`, `C35_kinetic_energy`, `C35_kinetic_positive`

### C36 Iterative parameter solver (proved)

*Model:* EnergyModel. *How:* Linear recurrence; error after k steps, five steps, limit; coupled and optimal transport variants.

*Note:* autograd.grad is an oracle assumed to return the partial derivatives; learning rate and step number arbitrary.

*Theorems:* `C36_error`, `C36_five_iterations`, `C36_convergence`, `C36_coupled_error`, `C36_optimal_transport`, `C36_optimal_transport_no_weight`

### C37 Particles are not influenced by the data (proved)

*Model:* IntegrandModel. *How:* Two runs of any explicit scheme; the particle part of every evaluation agrees. Works on the joint vector, through disassembly and assembly.

*Note:* Explicit schemes with steps that do not depend on the computed values (adaptive step control depends on all entries of the vector, data included, and is outside the statement proved). Costates evolved analytically use the data dimension, so both runs must have the same one then.

*Theorems:* `C37_particles_not_influenced_by_data`

### C38 Batch elements are independent (partial)

*Model:* VecFlow, VecModel, ConvModel. *How:* Every right-hand side acts sample by sample; two-run induction over integrator programs with fixed coefficients.

*Note:* Right-hand sides and initial data of all vector models and the convolutional right-hand sides are shown to act sample by sample, for all batches and parameters; whole integrations are covered for any explicit scheme made of right-hand side evaluations and linear combinations with fixed coefficients (euler, midpoint, rk4 with fixed steps; default rk4). Refuted for step size control (dopri5, adams): the error is measured over all entries of the vector, so a sample integrated next to another one can get other steps and another result; the witness is a simplified controller with one Euler/Heun pair.

*Theorems:* `C38_convolution`, `C38_right_hand_side`, `C38_initial_data`, `C38_sample_alone_partial`, `C38_common_sample_partial`, `C38_step_control_refuted`

### C39 Analytic shooting equations equal the autodiff ones (partial)

*Model:* VecModel, VecNet. *How:* Reduced Lagrangian differentiated over R (derivable_pt_lim along every coordinate); each model shown to be an instance of a general layered network.

*Note:* Costate equations correct for all particle dimensions; weights correct for all dimensions (up-down, universal, general, periodic, symmetrized); biases correct for particle_dimension 1. Finding: with particle_dimension > 1 the hand-written biases are not those found by differentiation, the simple model's loop raises or gives a wrong weight, and the dampened model inherits costates without the dampening.

*Theorems:* `C39_updown_costates`, `C39_updown_weights`, `C39_updown_parameters_partial`, `C39_universal_costates`, `C39_universal_weights`, `C39_universal_parameters_partial`, `C39_simple_costates`, `C39_simple_parameters_partial`, `C39_general_costates`, `C39_general_weights`, `C39_general_parameters_partial`, `C39_periodic_costates`, `C39_periodic_weights`, `C39_periodic_parameters_partial`, `C39_symmetrized_costates`, `C39_symmetrized_weights`, `C39_symmetrized_parameters_partial`, `C39_debug_costates`, `C39_debug_parameters_partial`, `C39_autodiff_defined`, `C39_autodiff_unique`, `C39_updown_bias_refuted`, `C39_simple_raises_partial`, `C39_simple_weights_refuted`, `C39_dampened_q2_costates_refuted`

### C40 Activation functions come with their derivatives (partial)

*Model:* ActivationModel. *How:* Stdlib derivatives; sigmoid refuted at every point.

*Note:* Refuted for 'sigmoid': get_nonlinearity returns torch.sigmoid as its own derivative, larger than the true derivative at every point. Proved for all other names wherever the function is differentiable (everywhere except relu at 0), together with case-insensitivity and the exact set of accepted names. Entrywise, over the reals.

*Theorems:* `C40_sigmoid_refuted`, `C40_derivative_partial`, `C40_differentiable`, `C40_case_insensitive`, `C40_names`, `C40_default`

### C41 Right-hand side shapes match state shapes (partial)

*Model:* VecModel, VecInit. *How:* Shape calculus incl. broadcasting; states, data, derivatives.

*Note:* Finding: UpdownSymmetrized and OptimalTransportSimple are only consistent for inflation factor 1. All other vector models proved for all sizes, including initial states and initial data.

*Theorems:* `C41_updown_shapes`, `C41_universal_shapes`, `C41_general_shapes`, `C41_periodic_shapes`, `C41_dampened_q2_shapes`, `C41_simple_shapes`, `C41_debug_shapes`, `C41_second_order_shapes`, `C41_dampened_shapes`, `C41_symmetrized_shapes_partial`, `C41_ot_shapes_partial`, `C41_symmetrized_inflated_partial`, `C41_ot_inflated_partial`, `C41_symmetrized_refuted`, `C41_initial_states`, `C41_initial_data`

### C42 Convolutional models preserve the spatial size (partial)

*Model:* ConvModel. *How:* Shape calculus of convolution, padding, group norm.

*Note:* Filter 3 keeps height and width for every image size and every model without optimised initial conditions; other filters always change it or raise. Finding (refuted): UpDownConv2D with optimised initial conditions: mini_nn mode loses one row and column, linear mode gives the wrong number of channels and the right-hand side raises. Also SNN_Conv2d circular padding p pads p in total rather than 2p.

*Theorems:* `C42_simple_filter3`, `C42_batch_filter3`, `C42_updown_filter3`, `C42_simple_other`, `C42_batch_other`, `C42_updown_other`, `C42_initial_states`, `C42_initial_data`, `C42_linear_mode_partial`, `C42_mini_nn_mode_partial`, `C42_optimised_data_refuted`, `C42_circular_partial`

### C43 Layers without bias are usable (partial)

*Model:* LayersModel. *How:* Case analysis; KeyErrors refute it for convolution and group norm.

*Note:* False for SNN_Conv2d(bias=False) and SNN_GroupNorm(affine=False): KeyError on every evaluation (C43_no_bias_refuted). Proved for the linear layers with or without bias, convolutions with bias, and affine group normalisation.

*Theorems:* `C43_no_bias_refuted`, `C43_linear_partial`, `C43_dampening_partial`, `C43_conv_partial`, `C43_group_norm_partial`

### C44 Removing parameters from a layer (proved)

*Model:* LayersModel. *How:* Construction and histories of add_weight/_apply/to.

*Theorems:* `C44_moved`, `C44_weights`, `C44_stays`

### C45 Striding subsamples consistently (proved)

*Model:* StridingModel. *How:* Index-level description of strided tensors in all three dictionaries.

*Theorems:* `C45_construct`, `C45_subsampling`, `C45_batch_and_channel_rejected`

### C46 Striding an odd extent keeps the centre element (partial)

*Model:* StridingModel. *How:* Refuted; exact condition (stride divides (n+1)/2).

*Note:* False as stated: an odd extent can lose its centre (extent 5, stride 2), shown by C46_centre_refuted. C46_centre_partial gives the exact condition: the centre of odd extent n is kept iff the stride divides (n+1)/2.

*Theorems:* `C46_centre_refuted`, `C46_centre_partial`

### C47 Learning rates stay above the minimum and only decrease (proved)

*Model:* SchedulerModel. *How:* Invariants over all metric histories, NaN and infinities included.

*Theorems:* `C47_nonincreasing`, `C47_above_minimum`, `C47_steps_do_not_raise`

### C48 Learning rates are only reduced after patience is exhausted (proved)

*Model:* SchedulerModel. *How:* A reduction implies a window of bad epochs counted on the history itself.

*Theorems:* `C48_only_after_patience`, `C48_reductions_far_apart`, `C48_step_cases`

### C49 Convergence flag is sticky and meaningful (proved)

*Model:* SchedulerModel. *How:* Invariant; the flag is set only when no group can be reduced.

*Theorems:* `C49_sticky`, `C49_set_only_when_exhausted`

### C50 Scheduler state save/restore (proved)

*Model:* SchedulerModel. *How:* Restored scheduler equals the saved one in every later step.

*Theorems:* `C50_restore`

### C51 A constant metric is never an improvement (partial)

*Model:* SchedulerModel. *How:* Refuted for negative metrics; partial for non-negative.

*Note:* Full statement is false (refuted): for negative metrics best*(1-threshold) exceeds best, so a constant negative metric counts as an improvement in every epoch. Partial: non-negative metrics.

*Theorems:* `C51_constant_is_bad_refuted`, `C51_constant_is_bad_partial`

### C52 Parameter sweep is the Cartesian product (partial)

*Model:* SweepModel. *How:* Recursion with shared mutable accumulator equals a list product defined separately.

*Note:* False for a dictionary without keys: the call returns the (empty) dictionary instead of a list with one combination (C52_product_refuted). C52_product_partial proves the product property for every non-empty dictionary in a fresh process.

*Theorems:* `C52_product_refuted`, `C52_product_partial`, `C52_choices`

### C53 Successive sweeps are independent (partial)

*Model:* SweepModel. *How:* Default arguments as process state; refuted; exact leak described.

*Note:* False: the mutable default arguments keep earlier results and leftover values (C53_independent_refuted). C53_leak_partial says exactly what a later sweep returns from any state; C53_same_keys_partial gives a condition under which the new part is right.

*Theorems:* `C53_independent_refuted`, `C53_leak_partial`, `C53_same_keys_partial`

### C54 Merging swept arguments into the template (partial)

*Model:* SweepModel. *How:* Dictionaries on a heap; refuted for False; everything else proved.

*Note:* False does not remove a flag which the template sets (C54_false_removes_refuted). Everything else, including that no existing dictionary changes, is C54_merge_partial.

*Theorems:* `C54_false_removes_refuted`, `C54_merge_partial`, `C54_command_line`

### C55 Different configurations get different experiment names (partial)

*Model:* SweepModel. *How:* Refuted by colliding names; injectivity under conditions; runs executed.

*Note:* False when values contain underscores (C55_distinct_refuted, with a skipped run). C55_distinct_partial and C55_runs_partial prove it when the values of a key print differently and without underscore.

*Theorems:* `C55_distinct_refuted`, `C55_distinct_partial`, `C55_runs_partial`

### C56 Parameter counts and freezing (proved)

*Model:* UtilsModel. *How:* Counts equal sums; freezing changes exactly the named parameters.

*Theorems:* `C56_counts`, `C56_switch`, `C56_moved`, `C56_unknown`

### C57 Residual network channel bookkeeping (partial)

*Model:* ResNetModel. *How:* Telescoping sums; names injective; refuted for zero-block layers.

*Note:* False as stated: a layer without blocks escapes the channel checks, so channels [4,2,4,8] with block counts [1,0,0,1] are accepted (C57_channels_refuted). The partial theorems give the checks which hold for layers with blocks.

*Theorems:* `C57_channels_refuted`, `C57_channels_partial`, `C57_decreasing_partial`, `C57_names_unique`

### C58 Long-range validation chunks cover the trajectory (partial)

*Model:* SpiralModel. *How:* Loop with fuel; coverage by induction; non-termination shown by exhaustion for every fuel.

*Note:* False for chunk_time=1 and at least two points: the loop never ends (C58_terminates_refuted). For chunk_time of at least two everything is proved.

*Theorems:* `C58_terminates_refuted`, `C58_cover_partial`, `C58_filled_partial`

### C59 Sampled training windows stay inside the trajectory (proved)

*Model:* SpiralModel. *How:* List arithmetic; every drawn window lies inside.

*Theorems:* `C59_inside`

### C60 Complexity measure ignores time restarts (partial)

*Model:* ComplexityModel. *How:* Restarts contribute nothing; refuted when the mean vanishes.

*Note:* False when the mean vanishes at a step back in time: 0 * -inf is NaN (C60_restart_refuted). Proved for positive means; for all non-negative values it is proved exactly when each measure is a number, minus infinity or NaN.

*Theorems:* `C60_restart_refuted`, `C60_measures_partial`, `C60_exactly_partial`

### C61 Energy conservation (partial)

*Model:* VecModel, VecNet. *How:* Chain rule along solutions; stationarity of the Lagrangian in the parameters (envelope argument).

*Note:* Conserved for all dimensions when the parameters are found by differentiation; with the hand-written parameters for particle_dimension 1. Finding: not conserved with the hand-written parameters for particle_dimension 2 (consequence of C39).

*Theorems:* `C61_updown_stationary`, `C61_updown_conserved`, `C61_updown_analytic_flow_partial`, `C61_universal_stationary`, `C61_universal_conserved`, `C61_universal_analytic_flow_partial`, `C61_simple_stationary`, `C61_simple_conserved`, `C61_simple_analytic_flow_partial`, `C61_general_stationary`, `C61_general_conserved`, `C61_general_analytic_flow_partial`, `C61_periodic_stationary`, `C61_periodic_conserved`, `C61_periodic_analytic_flow_partial`, `C61_symmetrized_stationary`, `C61_symmetrized_conserved`, `C61_symmetrized_analytic_flow_partial`, `C61_debug_stationary`, `C61_debug_conserved`, `C61_debug_analytic_flow_partial`, `C61_analytic_flow_refuted`

### C62 Scalar variables survive the round trip (partial)

*Model:* ScdModel. *How:* Refuted.

*Note:* False of the code: torch.prod of an empty shape is a float, so slicing raises TypeError.

*Theorems:* `C62_scalar_round_trip_refuted`

### C63 A time vector gives the per-time results (partial)

*Model:* BlockModel. *How:* Refuted for several concatenated blocks; partial otherwise.

*Note:* Full statement is false (refuted): with several blocks and concatenation the time-vector results are joined along an un-shifted dimension. Partial: one block, no concatenation of several blocks: each slice equals the scalar result.

*Theorems:* `C63_time_slices_refuted`, `C63_time_slices_partial`

### C64 State parameters can be kept at zero (partial)

*Model:* BlockModel. *How:* Refuted; never constructs.

*Note:* False of the code (refuted): the constructor always raises RuntimeError with the flag set and a non-empty state.

*Theorems:* `C64_keep_zero_refuted`, `C64_keep_zero_never_constructs`

### C65 Pass-through blocks are enlarged in every call (partial)

*Model:* BlockModel. *How:* Refuted; partial: what happens.

*Note:* Full statement is false (refuted): after a first successful call without pass-through the block never enlarges. Partial: what later calls do in that case.

*Theorems:* `C65_late_pass_through_refuted`, `C65_late_pass_through_partial`

### C66 Forward calls are independent of each other (proved)

*Model:* BlockModel. *How:* Observational equivalence of states reachable by forward/parameters calls.

*Theorems:* `C66_independent_calls`

### C67 Zero dynamics return the inputs (proved)

*Model:* BlockModel. *How:* Constant solver through assembly, disassembly and concatenation.

*Theorems:* `C67_zero_dynamics`

### C68 A stagnating metric eventually reports convergence (proved)

*Model:* SchedulerModel. *How:* Well-founded bound on reductions (Archimedean).

*Theorems:* `C68_constant_metric_converges`

### C69 Classifier sees the last shooting block (partial)

*Model:* ResNetModel. *How:* Refuted for one block; partial for two or more.

*Note:* False for a network with a single block: its output is dropped and the classifier sees the first convolution (C69_last_block_refuted). Proved for two or more blocks.

*Theorems:* `C69_last_block_refuted`, `C69_last_block_partial`

### C70 Chunked validation equals direct prediction (proved)

*Model:* SpiralModel. *How:* Flow law and C58.

*Theorems:* `C70_chunked_equals_direct`

### C71 Every window of the trajectory can be drawn (partial)

*Model:* SpiralModel. *How:* Refuted (last window); partial for the others.

*Note:* False: the last window is never drawn (C71_all_windows_refuted). C71_all_windows_partial proves that every other window can be drawn with uniform sampling.

*Theorems:* `C71_all_windows_refuted`, `C71_all_windows_partial`

### C72 Moving a layer takes all of it along (partial)

*Model:* LayersModel. *How:* Refuted for _apply; proved for to().

*Note:* False for moves through _apply (cuda(), double()): tensor weights are not converted (C72_apply_refuted). Proved for to().

*Theorems:* `C72_apply_refuted`, `C72_to_partial`

### C73 Zero dictionaries match the dictionary they stand for (proved)

*Model:* ScdModel. *How:* Entry-wise relation between dictionaries; exact error condition.

*Theorems:* `C73_zeros_like`, `C73_zeros_with_batch_size`, `C73_zeros_with_batch_size_scalars`, `C73_zeros_with_batch_and_channel_size`, `C73_zeros_with_batch_and_channel_size_vectors`, `C73_batch_size`, `C73_channel_size`, `C73_no_size`

### C74 Initial particles have the requested size and values (partial)

*Model:* InitModel. *How:* Entry-wise description of the result for each initialiser; refuted for constants of convolution initialisers and for large sample batches.

*Note:* False in two places: the convolution initialisers have no create_constant_parameters (C74_constant_refuted), and a sample batch larger than the number of particles gives more particles than requested (C74_sample_size_refuted). Proved otherwise.

*Theorems:* `C74_zero`, `C74_constant_refuted`, `C74_constant_partial`, `C74_random`, `C74_sample_size_refuted`, `C74_sample_partial`, `C74_sample_size_partial`, `C74_value_errors`, `C74_wrong_kind`, `C74_of_size`, `C74_like`

### C75 The hook records every evaluation completely (proved)

*Model:* HooksModel. *How:* One call appends a flat list of named values; names are decoded at the last dot; induction over the calls.

*Note:* Names of variables, parameters and objects are assumed to have no dot and object names not to start with 'sqr_', as in all shipped models.

*Theorems:* `C75_times`, `C75_variables`, `C75_parameters`, `C75_norms`, `C75_sums`

### C76 The recorded energy is the kinetic energy (partial)

*Model:* HooksModel, EnergyModel. *How:* Both energies as sums over all parameters.

*Note:* False with parameter weights, which the hook ignores (C76_kinetic_refuted; the universal model has weight 10 on its third layer by default). Proved for weights of one or None; a lower bound for weights of at least one.

*Theorems:* `C76_energies`, `C76_kinetic_refuted`, `C76_kinetic_partial`, `C76_lower_bound_partial`, `C76_frobenius`

### C77 The recording hook works with every shipped model (partial)

*Model:* HooksModel. *How:* Success exactly when all parameters except biases are non-empty matrices.

*Note:* False for convolutional models: nuclear and spectral norms of four-dimensional weights raise a RuntimeError, leaving times and energies in the record without norms (C77_all_models_refuted, C77_failure). Proved for linear layers; exact condition in C77_exactly.

*Theorems:* `C77_all_models_refuted`, `C77_convolutions`, `C77_linear_partial`, `C77_exactly`, `C77_failure`, `C77_no_record`

### C78 Concatenated results are the separate results side by side (proved)

*Model:* BlockModel. *How:* The stages of forward before the last one do not depend on the concatenation switch; the last stage is described by the concatenation theorem (C05) for states, costates, data and output.

*Theorems:* `C78_concatenated_results`

### C79 Options of a run arrive at the script unchanged (partial)

*Model:* CommandModel. *How:* Shell token recognition and quoting are specified in ShellSpec. Induction over the text shows that plain and escaped text passes through both levels of quoting; induction over the options gives the argument list.

*Note:* False for values with spaces, empty values and unescaped semicolons (refuted); proved for plain values and for values with escaped semicolons.

*Theorems:* `C79_arguments_refuted`, `C79_arguments_partial`, `C79_device_partial`

### C80 The chosen interpreter runs the script (partial)

*Model:* CommandModel. *How:* From C79: the delivered command starts with the word python for every path.

*Note:* False: the path is only used in an alias, which a non-interactive shell does not expand; the command is always the name python, and the path has no influence (proved).

*Theorems:* `C80_interpreter_refuted`, `C80_interpreter_partial`

### C81 Configuration strings carry their parts (partial)

*Model:* CommandModel. *How:* The splitting and rejoining of the code is shown equal to character-wise escaping, which distributes over concatenation; induction over the parts.

*Note:* False for a leading empty part, for nothing added to nothing (AttributeError), for a non-empty start with raw semicolons and for values with semicolons (refuted); proved otherwise.

*Theorems:* `C81_config_refuted`, `C81_config_partial`, `C81_key_values_partial`, `C81_split_again`

### C82 An autoencoder reconstructs every sample at every time (partial)

*Model:* AutoencoderModel. *How:* Layers are arbitrary functions with torch's shapes. The indices of squeeze, transpose and view are computed with ravel lemmas; the decoder input row n*T+t is shown to be the latent vector of sample n and time t.

*Note:* False when there is a single sample, time or latent dimension: squeeze removes the dimension and RuntimeError follows (refuted); proved for at least two of each, with the accepted image sizes determined exactly.

*Theorems:* `C82_any_batch_refuted`, `C82_single_raises`, `C82_image_size`, `C82_reconstruction_partial`

### C83 The masked training step compares matching timepoints (partial)

*Model:* AutoencoderModel. *How:* The kept list is a sorted sublist of a permutation of the remaining timepoints; the boolean mask selection on inputs and on trajectories visits the same positions in row-major order, by induction over the samples.

*Note:* Refuted for single samples, times or latent dimensions (they raise, as in C82). Proved for batches of at least two samples and latent dimensions (single ones raise, see C82); evaluation timepoints outside the sequence and skipping everything raise (proved).

*Theorems:* `C83_single_refuted`, `C83_training_step_partial`, `C83_evaluation_outside`, `C83_nothing_kept`, `C83_negative`

### C84 Training steps run in training mode, evaluations in evaluation mode (partial)

*Model:* LoopModel. *How:* The loops are folds over epochs; induction shows that the model state after k epochs is the independent recursion weights_after with the mode of each epoch.

*Note:* False for rot.py: after the first evaluation the model stays in evaluation mode, so only the first epoch trains in training mode (refuted, and the exact behaviour proved); proved for balls.py and cc.py.

*Theorems:* `C84_training_mode_refuted`, `C84_rot_partial`, `C84_balls`, `C84_cc`

### C85 The best model is on disk (partial)

*Model:* LoopModel. *How:* Invariant over epochs: the stored error is the least so far and belongs to the last epoch attaining it.

*Note:* False when the first validation error is NaN: nothing is ever saved (refuted); proved otherwise, with ties going to the last epoch.

*Theorems:* `C85_best_saved_refuted`, `C85_never_saved`, `C85_best_saved_partial`

### C86 Test metrics do not depend on batching (proved)

*Model:* SphereModel. *How:* Real analysis shows the stable loss formula equals the cross entropy and that rounding the sigmoid half-to-even gives 1 exactly for positive outputs; induction over the batches gives the sums.

*Theorems:* `C86_test_metrics`, `C86_empty`

### C87 The reported training loss is the average over samples (partial)

*Model:* SphereModel. *How:* Sums over batches by induction; equal sizes let the denominators be merged.

*Note:* False when batches differ in size: it is the average of batch averages (refuted, exact value proved); proved for equal sizes.

*Theorems:* `C87_train_loss_refuted`, `C87_train_loss_batches`, `C87_train_loss_partial`

### C88 Concentric sphere data (proved)

*Model:* SphereModel. *How:* The norm of the generated point is computed as (max-min)*u^(1/dim)+min; induction over the points.

*Theorems:* `C88_concentric`

### C89 Points are spread evenly over the shell (partial)

*Model:* SphereModel. *How:* Monotonicity of powers turns the radius condition into a condition on the random number.

*Note:* False for shells with a hole, which the demo's outer class is (refuted; the exact law is proved); proved for full balls.

*Theorems:* `C89_uniform_refuted`, `C89_radius_law`, `C89_uniform_partial`

### C90 Evaluation loaders present every sample, in the training image size (partial)

*Model:* DataModel. *How:* Induction over the batches for the dropped tail; permutation reasoning for the shuffled loader.

*Note:* False: drop_last discards up to a batch of test samples, and augmented CIFAR training images are 28x28 but test images 32x32 (both refuted); proved: complete exactly when the batch size divides the number of samples, batches full, no training sample used twice, sizes agree for MNIST and without augmentation.

*Theorems:* `C90_all_tested_refuted`, `C90_same_size_refuted`, `C90_loaders_partial`, `C90_unsupported`

### C91 Balanced subsets and array conversion (proved)

*Model:* DataModel. *How:* Positions of a label are exactly the indices carrying it; drawn indices stay in range; concatenation of batches.

*Theorems:* `C91_sample`, `C91_too_many`, `C91_one_class`, `C91_to_numpy`

### C92 Every network on offer can be trained (partial)

*Model:* FunctionalModel. *How:* The main programs are modelled with variables that may be unassigned; case analysis of the options and induction over the epochs.

*Note:* False: every network except shooting stops with NameError or AttributeError, clamp_range without particles with KeyError, spiral.py with more than 100 samples per batch with NameError (refuted and each characterised); proved for shooting otherwise.

*Theorems:* `C92_every_network_refuted`, `C92_baselines_raise`, `C92_shooting_partial`, `C92_clamp_raises`, `C92_spiral_partial`

### C93 Saved losses are what they are called (partial)

*Model:* FunctionalDataModel. *How:* Sums over the lists of predictions by induction; lookup in the saved entries.

*Note:* False: norm_penalty is saved with the value of norm_loss (refuted; right exactly for penalty zero or weight one used); the others proved.

*Theorems:* `C93_saved_penalty_refuted`, `C93_sfm_partial`, `C93_spiral_partial`, `C93_spiral_norms`

### C94 Training schedule (partial)

*Model:* FunctionalModel. *How:* The log of a run is shown to be the concatenation of independently described days, by induction over the epochs.

*Note:* False: niters+1 epochs are trained, and spiral.py also steps the scheduler at figures and at the end (refuted); the exact order of all events is proved.

*Theorems:* `C94_epochs_refuted`, `C94_scheduler_refuted`, `C94_sfm_partial`, `C94_spiral_partial`

### C95 Positions stay fixed until the given epoch (proved)

*Model:* FunctionalModel. *How:* Invariant over the epochs that the flag equals the condition on the epoch number.

*Theorems:* `C95_sfm_freezing`, `C95_spiral_freezing`

### C96 Function data (proved)

*Model:* FunctionalDataModel. *How:* Arithmetic on each sample, the loader lemmas of DataProofs for the batches.

*Theorems:* `C96_function_data`, `C96_uniform`, `C96_random_inputs`, `C96_unknown`

### C97 Figures show all data (partial)

*Model:* FunctionalDataModel. *How:* Monotonicity of the cube; for the quadratic function factoring x^2+3/(1+x^2) against its values at the ends.

*Note:* False for the quadratic function when the squared range is below 2 (refuted; exactly characterised); proved for the cubic function.

*Theorems:* `C97_plot_range_refuted`, `C97_cubic`, `C97_quadratic_partial`

### C98 Discrete networks compute their residual recursions, and the recurrent one approximates a flow (proved)

*Model:* DiscreteNetModel. *How:* Induction over the layers with the tensor lemmas of VecProofs3; convergence by the mean value theorem and a discrete Gronwall estimate.

*Theorems:* `C98_resnet`, `C98_updown`, `C98_double`, `C98_rnn`, `C98_rnn_limit`, `C98_resnet_is_shooting_step`, `C98_double_shared`, `C98_cnn_shared`, `C98_layer_names`, `C98_parameters`

### C99 Parameters are collected by layer (proved)

*Model:* DiscreteNetModel. *How:* Joining the pieces of a split name gives it back; an invariant over layer and parameter numbers states which rows are filled.

*Theorems:* `C99_collected`, `C99_networks`

### C100 Blocks are evaluated together and each gets its own derivatives (proved)

*Model:* IntegrandModel. *How:* Concatenation lays the blocks side by side (invariant of C05), the shape-preserving equations keep the layout, deconcatenation cuts at the block offsets.

*Theorems:* `C100_every_block_gets_its_own_derivatives`, `C100_without_concatenation`

### C101 Vector models compute their equations (proved)

*Model:* VecModel. *How:* Entry-wise evaluation of linear layers and pointwise operations (lemmas of VecProofs3).

*Theorems:* `C101_updown`, `C101_universal`, `C101_general`, `C101_simple`, `C101_debug`, `C101_dampened_q2`, `C101_periodic`, `C101_second_order`, `C101_symmetrized`, `C101_optimal_transport`, `C101_dampened`

### C102 Dampening dampens (partial)

*Model:* VecModel. *How:* The square of an entry has a nonpositive derivative; for the refuted model x' = x/2 is solved explicitly.

*Note:* False for UpdownDampenedQ2: its dampening factor -0.5 is subtracted, every solution grows like exp(t/2). Proved for DampenedUpDown with nonnegative nonlinearities.

*Theorems:* `C102_dampening_refuted`, `C102_dampened_q2_partial`, `C102_dampened_updown_partial`

### C103 Escaped text appears in LaTeX as it is (partial)

*Model:* FigureModel. *How:* A reader of LaTeX source (control words and symbols, groups, blanks, joined pairs) as specification; induction on the text, all 256 characters by cases.

*Note:* Typesetting is refuted for pairs LaTeX joins (two hyphens, quotation marks) and runs of blanks; proved for all other printable text. Injectivity, concatenation and unchanged plain text are proved for all texts.

*Theorems:* `C103_appears_refuted`, `C103_appears_partial`, `C103_injective`, `C103_concatenation`, `C103_unchanged`

### C104 Figures are saved in three formats (partial)

*Model:* FigureModel. *How:* File system with os.path.join, mkdir and the extension rule of matplotlib; frame argument over the three writes.

*Note:* Refuted: a directory below a missing one, or the empty path, raises and nothing is saved. Proved when the directory or its parent exists. Also, with an empty name (or one of dots only) matplotlib sees no extension: '.png.png', '.pdf.png' and '.pgf.png' are written, all of them png (C104_nameless_partial).

*Theorems:* `C104_saves_refuted`, `C104_saves_partial`, `C104_nameless_partial`

### C105 Plot settings are restored (partial)

*Model:* FigureModel. *How:* State with exceptions; lookups after updates; everything between set-up and reset keeps the settings.

*Note:* Set-up and reset are proved exactly. For plotting: refuted when it fails in between (the backend stays pgf, there is no finally); proved for plots that return.

*Theorems:* `C105_round_trip`, `C105_setup`, `C105_missing`, `C105_plotting_refuted`, `C105_plotting_partial`

### C106 Every recorded curve gets its figure (partial)

*Model:* FigureModel. *How:* Loop invariant over the record; file names of different quantities differ; frame argument for other files.

*Note:* Refuted: names are excluded by their beginning, so every quantity whose name begins with the letter t or with energy is missing; a record of one evaluation raises. Proved for all other names and at least two evaluations.

*Theorems:* `C106_every_curve_refuted`, `C106_single_evaluation_refuted`, `C106_shown_partial`, `C106_saved_partial`, `C106_mode`

### C107 Recorded arrays are stacked unchanged (partial)

*Model:* VizModel. *How:* Index-level reading of the assignment with broadcasting.

*Note:* Stacking is proved for arrays of one shape and, entry by entry, for arrays that can be repeated to the shape of the first. Rejection of other shapes is refuted: an array with axes of extent one is silently repeated; proved exactly when an array cannot be repeated to the first one's shape.

*Theorems:* `C107_rejected_refuted`, `C107_rejected_partial`, `C107_stacked`, `C107_broadcast`, `C107_fits`, `C107_empty`

### C108 The animation shows the recorded evolution in order of time (partial)

*Model:* VizModel. *How:* Loop invariant over the files; five-digit names are strictly increasing; a strictly increasing list is determined by its elements, so the expansion of the pattern by the shell is the list of frames.

*Note:* Refuted: frames left in the directory from an earlier, longer run are in the animation; from the hundred thousandth evaluation on the names do not sort in order of time; one figure more than max_display is shown. Proved otherwise.

*Theorems:* `C108_only_recorded_refuted`, `C108_limit_refuted`, `C108_shown_partial`, `C108_saved_partial`, `C108_order`, `C108_order_refuted`

### C109 Training progress is visualised for every model (partial)

*Model:* VizModel. *How:* State with exceptions; the drawing calls as conditions on shapes; lookups after updates of the settings.

*Note:* Refuted for the first-order model the spiral demo offers: it has no state q2, the call raises KeyError and leaves the pgf backend. Proved for models with two states and for calls without particles.

*Theorems:* `C109_every_model_refuted`, `C109_shown_partial`, `C109_saved_partial`, `C109_options`, `C109_settings`

### C110 The standalone up-down script agrees with the package (partial)

*Model:* StandaloneModel. *How:* Closed formulas of both programs and exchange of sums; derivatives of the Hamiltonian entry by entry; loop invariant over the steps.

*Note:* Agreement with the package is proved for all inputs. Refuted: convergence with several rows per particle (only the first row is differenced), reaching time 1, constant energy. Proved: convergence on the first row, the midpoint rule with the recorded values.

*Theorems:* `C110_agrees_with_the_package`, `C110_gradient_refuted`, `C110_gradient_partial`, `C110_reaches_time_one_refuted`, `C110_energy_constant_refuted`, `C110_advect_partial`

### C111 The scalar fixed-point check reports agreement (partial)

*Model:* RawFixedModel. *How:* Closed form of the iteration by induction; differentiation of the reduced Lagrangian (Coquelicot); trajectories by induction over the steps.

*Note:* Refuted for the script's settings (factor 15/16, learning rate 1/2, two iterations): the ratio for the state is 5/4 everywhere, and no factor suits both equations. The last printed ratio divides a gradient by itself, so it is always one. Proved for learning rate one.

*Theorems:* `C111_ratios_refuted`, `C111_ratios`, `C111_fixed_point`, `C111_factors`, `C111_learning_rate_one_partial`, `C111_reported`

### C112 Hand-made shooting equations agree with the package (partial)

*Model:* ManualGradModel. *How:* Closed formulas of the script and uniqueness of the stationary parameters and costate derivatives of the simple model.

*Note:* Refuted: the script also divides by the number of features, so with two or more features everything is too small by that factor whenever the costates do not sum to zero. Proved: the package's quantities are the hand-made ones times the number of features, hence equal with one feature.

*Theorems:* `C112_same_refuted`, `C112_differs`, `C112_up_to_features_partial`, `C112_package_defined`

### C113 A residual network has exactly the expected parameters (proved)

*Model:* NetworkModel. *How:* Invariant of blocks before and after their first pass (names, plans, stored enlargement, registry), carried through the blocks of a layer and by induction over the layers and the images.

*Note:* Proved, for every integrator which returns a vector of the given length per time and every first and last part which keep sizes. The refusal of particles which do not fit comes at the first pass, not at the construction.

*Theorems:* `C113_network_parameters`, `C113_misfit`

### C114 The parameter report detects deviations (partial)

*Model:* NetworkModel. *How:* Closed form of the counting loop; comparison of the formulas name by name.

*Note:* Refuted: expected parameters which the network lacks are not counted; without the first pass the script reports 14 of 14 tests passed although it expects 18 parameters. Proved: no failure exactly when every existing parameter is expected with its size, and the script's formulas are right for all two-layer networks.

*Theorems:* `C114_report_refuted`, `C114_script_passes`, `C114_report_partial`

### C115 Switching to the hand-written equations changes nothing (proved)

*Model:* VecModel, VecFlow. *How:* Both settings are shown to compute the same parameters, right-hand sides and costates for particles with the same entries (uniqueness of the derivatives, values only depend on entries in range); induction over the instructions of the integrator.

*Note:* Proved. Differentiation is any function that returns the partial derivatives (existence shown). The restriction to particle dimension 1 is needed: for dimension 2 the two norm penalties differ (C115_dimension_two), since the hand-written offsets are not summed over the dimension (see C39).

*Theorems:* `C115_updown`, `C115_universal`, `C115_general`, `C115_periodic`, `C115_symmetrized`, `C115_simple`, `C115_debug`, `C115_dimension_two`

### C116 The gradient comparison reports agreement exactly (partial)

*Model:* GradCheckModel. *How:* Closed form of masks, selection and maximum; induction over parameters and models.

*Note:* Refuted: gradients that are zero everywhere raise RuntimeError (maximum of nothing) although they agree; the outcome changes when the two gradients are exchanged; the script congratulates if nothing was compared. Proved: if no gradient of the hand-written equations is zero everywhere, the script finishes, every outcome and both counts are right, and it congratulates exactly when all gradients agree as stated, in particular for equal gradients (C115).

*Theorems:* `C116_zero_refuted`, `C116_symmetric_refuted`, `C116_nothing_refuted`, `C116_outcome_partial`, `C116_equal_partial`, `C116_missing`

### C117 Every run started by an experiment script is accepted, with the intended settings (partial)

*Model:* ArgparseModel, ExperimentModel. *How:* The words the shell delivers (C79) are parsed option by option; induction over the list of arguments; every template and swept value is checked against the declaration of its option.

*Note:* Refuted for the spiral scripts: they offer eight shooting models, spiral.py knows four; with the others every run ends with a usage error. Proved for the mapping scripts and, as partial, for the four known models.

*Theorems:* `C117_mapping_accepted`, `C117_spiral_accepted_partial`, `C117_spiral_refused`, `C117_accepted_refuted`

### C118 An experiment script runs exactly the wanted runs (partial)

*Model:* ExperimentModel. *How:* Directories of different runs differ (C55), so an invariant accounts for every result by a file or a run; induction over jobs and sweeps.

*Note:* Refuted for the rnn scripts: the default argument keeps the combinations of earlier sweeps, so later sweeps repeat them. Proved exactly for the two scripts with one sweep; for the rnn scripts: nothing wanted is left out, and the exact list under --force_recompute.

*Theorems:* `C118_spiral_exact`, `C118_mapping_exact`, `C118_exact_refuted`, `C118_spiral_done_partial`, `C118_mapping_done_partial`, `C118_spiral_forced_partial`, `C118_mapping_forced_partial`

### C119 Checkpoints do not change what the default solver computes (partial)

*Model:* FixedGridModel, IntegratorModel. *How:* The solver's loops are proved to evaluate one function of the time (`solver_values`); this function from a grid point on is the one started there with the value at this point; induction over the chunks of the checkpointed loop. Witness by computation.

*Note:* Refuted: a checkpoint which is not a whole number of steps away from the first time adds a step (witness: default step size 1/2, interval 3/4 or two checkpoints on [0, 1]). Proved as partial, with exact equality at arbitrary requested times, if all checkpoints lie on the grid of steps.

*Theorems:* `C119_checkpoints_refuted`, `C119_aligned_checkpoints_partial`

### C120 The value at a requested time does not depend on the other requested times (partial)

*Model:* FixedGridModel, IntegratorModel. *How:* `solver_values`, then the value at a grid point is a number of whole steps; for Euler the interpolation of a step is a shorter step.

*Note:* Refuted for rk4: inside a step the value is interpolated linearly, so accuracy drops, while integrating to the time shortens the step. Proved as partial: for all times on the grid (all that the script compares) with all three methods, and for all times with Euler's method.

*Theorems:* `C120_single_times_refuted`, `C120_grid_times_partial`, `C120_grid_values_partial`, `C120_euler_times_partial`

### C121 The recording hook sees every evaluation of the solver and leaves the results alone (proved)

*Model:* RecordModel, HooksModel, FixedGridModel. *How:* The solver is written once more with a state that the right-hand side may change; it is proved to return the values of `fixed_grid` and to pass through the list of evaluations of each step, for which the hook appends one entry to each series (C75).

*Note:* Proved for the three fixed-step methods and any number of runs recorded in the same data.

*Theorems:* `C121_recorded_times`, `C121_recorded_before_exceptions`

### C122 The complexity measures account for the whole evaluated time (partial)

*Model:* RecordModel, ComplexityModel, SpiralModel. *How:* The trapezoidal sum over the recording splits at every step end, because the repeated time there contributes nothing and time going back between runs is skipped by the code; the parts telescope.

*Note:* Refuted for euler and midpoint: nothing is recorded after the last evaluation, so the last step, or half of it, does not count. Proved as partial: exactly this for all methods (one run), the full statement for rk4 with any number of restarted or continued runs, the decomposition over steps for varying norms, and that the chunks of get_time_chunks meet the hypotheses and add up to the whole time whatever chunk_time is.

*Theorems:* `C122_whole_time_refuted`, `C122_rk4_sum_partial`, `C122_rk4_constant_partial`, `C122_last_evaluation_partial`, `C122_chunks_partial`

### C123 Every batch of the spiral loaders consists of windows of the trajectory (proved)

*Model:* LoaderModel, SpiralModel. *How:* Induction over the order of iteration, with the caches of the data set (data_batch, batch times) as invariant; the window facts follow from the lemmas on get_batch in SpiralProofs.

*Note:* Proved. numpy's choice, the distance scaling and the solver generating the data are arguments of which only lengths are used.

*Theorems:* `C123_batches_are_windows`

### C125 Every accepted command line of cc.py trains and saves (partial)

*Model:* CirclesModel. *How:* Sizes of states, costates, data and parameters are an invariant of every instruction of the integrator, from the size lemmas of the vector models (VecProofs4, 5, 9); induction over instructions, batches and epochs; 2999 is prime by computation; accepted namespaces by the lemma on argparse.

*Note:* Refuted: the command line without options has shooting_dim 20, but the points have two features, and the first forward pass raises RuntimeError. Proved: for sizes of at least 1, a weight other than 0 and an accepted seed, the run ends well exactly if the dimension is 2, the batch size is at least 2 and, unless there are no epochs, the batch size is not 2999 (one of 3000 points is left over and BatchNorm refuses it) and the model is not the simple one (the hook finds no second layer, after a full epoch of training and before anything is saved); then every epoch has a complete recording. A file which cannot be written ends the run with an exception, after the files before it.

*Theorems:* `C125_accepted_refuted`, `C125_exactly_partial`, `C125_runs_partial`, `C125_dimension_partial`, `C125_simple_partial`, `C125_batch_partial`, `C125_unwritable_partial`

### C126 Decreasing times integrate backwards (partial)

*Model:* FixedGridModel, IntegratorModel. *How:* The increment for the turned right-hand side at the turned time equals the increment with negative length, from linearity of the vectors; then the grid lemma of C120. The loop over checkpoints by computation on its first iteration.

*Note:* Refuted with checkpoints: for two decreasing times and any number of checkpoints nothing is integrated and None is returned (the loop takes the last time as lying before the checkpoint); an interval between checkpoints raises RuntimeError (torch.arange). Proved without checkpoints for euler, midpoint and rk4.

*Theorems:* `C126_checkpoints_refuted`, `C126_checkpoints_partial`, `C126_backward_partial`, `C126_forward_partial`

### C124 A seed determines the run (partial)

*Model:* SeedModel, SphereModel, FunctionalDataModel, LoaderModel, ArgparseModel. *How:* Programs are functions of the three generator states; seeding replaces all of them. For cc.py an invariant says that drawing never looks at numpy's generator. Refutations by generators which count.

*Note:* Refuted for cc.py, whose data are drawn before the seed is set, and for spiral.py with --custom_parameter_initialization, where the number of particles shifts the windows drawn during training. Proved: exactly how rot.py, balls.py, spiral.py and simple_functional_mapping_example.py start from a seed, that they are reproducible for every seed but -1 (negative or too large ones are refused with ValueError), that cc.py depends on earlier draws by its data only (and those not on numpy), and that the data of simple_functional_mapping_example.py depend on --seed, --xrange and --fcn only.

*Theorems:* `C124_circles_refuted`, `C124_particles_refuted`, `C124_exactly_partial`, `C124_reproducible_partial`, `C124_circles_partial`, `C124_circles_data_partial`, `C124_mapping_partial`

### C127 Evaluations do not change what is trained on (partial)

*Model:* SeedModel, FunctionalModel, LoaderModel. *How:* The orders as a function of the generator and the epochs followed by an evaluation, induction over epochs; for the spiral, loaders outside of online mode draw nothing and online mode ignores indices.

*Note:* Refuted for simple_functional_mapping_example.py: starting an iteration of the evaluation loader draws from torch's generator, which shuffles the training samples. Proved there: orders agree as long as evaluations happened after the same epochs, and every epoch visits each sample once. Proved for spiral.py: windows come from numpy's generator and do not depend on frequencies nor on torch's orders.

*Theorems:* `C127_order_refuted`, `C127_order_partial`, `C127_complete_partial`, `C127_windows_partial`, `C127_prefix_partial`

### C128 The tensorboard hook shows the first layer once per tenth epoch (partial)

*Model:* TensorboardModel (with RecordModel, VecModel). *How:* Case analysis of the hook; the shape of the bias is followed through the assignments of each model; the evaluations of a run are those of C121, of which only the first can be at time zero.

*Note:* Refuted: with analytic solutions the bias is the average of the costates, a matrix with a row per dimension, and bias[0].item() or bias[1] raises unless there are two dimensions and one feature; with the default hook data None every pass raises TypeError; every batch is written, as the batch number is read but not used. Proved: what a call does, when it succeeds for each model, and that passes over times from zero on write once each and give the values without the hook. Missing: epochs other than integers, negative or decreasing times, adaptive solvers.

*Theorems:* `C128_analytic_refuted`, `C128_default_data_refuted`, `C128_once_refuted`, `C128_every_call_partial`, `C128_analytic_partial`, `C128_general_partial`, `C128_vector_partial`, `C128_passes_partial`

### C129 --evaluate_ahead of balls.py chooses the images which are compared (partial)

*Model:* ImagesModel (with AutoencoderModel). *How:* Index-level facts on slices, squeezing and means; the decoded images come from C82.

*Note:* Refuted: more than 17 images are silently 17, zero and small negative values compare nothing (the error is NaN), values from -4 to -19 compare 20+k images. Proved: the errors for every value exactly, with the decoded images.

*Theorems:* `C129_ahead_refuted`, `C129_errors_partial`

### C131 Accepted command lines of rot.py train and save (partial)

*Model:* ImagesModel (with AutoencoderModel, ArgparseModel). *How:* Every pass is one of C82/C83; the batches of a data set are followed through the loader (a single sample is left exactly if the remainder is one); induction on the epochs.

*Note:* Refuted: 15 or more (or a negative number of) skipped timepoints, an evaluated timepoint outside 0..15, one latent dimension, or a test set which leaves a single sequence in its last batch raise; --batch_size is without effect. Proved: exactly these fail (the first two only if there are epochs), what the files contain, what the errors are. Integrator, optimizer and scheduler are taken not to raise, the block to give trajectories.

*Theorems:* `C131_accepted_refuted`, `C131_exactly_partial`, `C131_runs_partial`, `C131_no_directory_partial`, `C131_errors_partial`, `C131_batch_ignored`

### C132 Runs of balls.py which end well leave a model (partial)

*Model:* ImagesModel (with AutoencoderModel, ArgparseModel). *How:* Induction on the epochs with the state of the file; errors are finite unless nothing is compared (C129).

*Note:* Refuted: an existing directory raises FileExistsError, so with the default runs/ only the first run works (and none after a rot.py --save in the same place); with --evaluate_ahead 0 nothing is ever saved; one latent dimension or a single sequence left in a last batch raise. Proved: exactly when a run ends well, and that a model is saved exactly if there are compared images, and that it is the one of the epoch with the smallest mean validation error (the last such epoch).

*Theorems:* `C132_saved_refuted`, `C132_exactly_partial`, `C132_saves_partial`, `C132_best_partial`

### C130 The training commands shown in the README work (partial)

*Model:* ReadmeModel (with ArgparseModel, ExperimentModel, CirclesModel, ImagesModel). *How:* Line continuation and lines are given by a separate small specification on top of ShellSpec; induction on the lines of a command; the six texts by computation.

*Note:* Refuted for both commands of simple_functional_mapping_example.py: the cubic one has a blank behind a backslash, which becomes an argument and is refused; the quadratic one lacks a backslash and runs 250 iterations with parameters never unfrozen (C95), its last three lines are lost. Proved: the other four are started as shown and accepted; those of cc.py, rot.py and balls.py save what C125, C131 and C132 say (balls.py is refused when run again); a command over several lines is started as shown exactly if each line but the last ends with a bare backslash.

*Theorems:* `C130_commands_refuted`, `C130_commands_partial`, `C130_lines`, `C130_started`, `C130_blank_rejected`, `C130_circles_partial`, `C130_rotation_partial`, `C130_bouncing_partial`

### C133 Options reach the objects they describe (partial)

*Model:* `SetupModel`: keyword calls through the chain of base classes (binding, defaults, `**kwargs`, swallowing), the constructors of seven models and their bases, `setup_integrator`, `setup_shooting_block` and the main programs up to the block; parsers of `ExperimentModel`, `CirclesModel`, `ImagesModel`; integrators of `IntegratorModel`.. *How:* The attribute list of each model is computed once for symbolic values (cases only over texts with choices); option values exist by the types of the parsed namespace.

*Note:* Refuted: spiral.py, cc.py, rot.py and balls.py ignore --optimize_over_data_initial_conditions(_type) for the model 'simple', spiral.py there also --do_not_use_analytic_solution; simple_functional_mapping_example.py offers the model 'universal', whose class does not exist (AttributeError), ignores --adjoint, and passes a step size to methods which choose their own. Proved: everything else arrives, and exactly which command lines are refused. Creation of tensors in the constructors is not part of this model (sizes below 1).

*Theorems:* `C133_spiral_refuted`, `C133_spiral_partial`, `C133_missing_refuted`, `C133_mapping_refuted`, `C133_mapping_partial`, `C133_image_refuted`, `C133_image_partial`

### C134 The loss weighs similarity and norm penalty as asked (partial)

*Model:* `SetupModel`: the loss of each script as a function of the parsed options, the similarity and the penalty (exact numbers).. *How:* Option values exist by the types of the parsed namespace; then arithmetic.

*Note:* Refuted for cc.py, where the penalty is commented out, so --norm_weight has no effect. Proved for the other four scripts; for spiral.py with the similarity in the norm chosen by --sim_norm.

*Theorems:* `C134_circles_refuted`, `C134_circles_partial`, `C134_spiral`, `C134_mapping`, `C134_images`

### C135 A run trains and counts exactly the parameters of its model (proved)

*Model:* `TrainedModel`: parameters of layers, autoencoder and block (particle, particle-free and particle-free time-dependent modes; linear map for data), registration in `parameters()` order, parameter groups and schedulers of the five scripts, `count_parameters` and the saved numbers.. *How:* The parameters of a block are computed from its attributes (C133); distinctness of names and sums of sizes by induction over states, costates and time steps.

*Note:* Names and sizes of the tensors, not their values; the first forward pass of cc.py before the optimizer is made is not part of the model. Found on the way: frozen particles are in the optimizer too, so that unfreezing them later has an effect. Rates in scientific notation are covered.

*Theorems:* `C135_spiral`, `C135_mapping`, `C135_circles`, `C135_rotation`, `C135_balls`, `C135_spiral_saved`, `C135_mapping_saved`, `C135_learning_rate`

### C136 Learning rates follow the schedule, whatever is displayed (partial)

*Model:* `RatesModel`: `ReduceLROnPlateau` and `CosineAnnealingLR` (recursive form, with its divisions) of torch 1.7.0 and the rates seen by the training steps, on the event logs of `FunctionalModel` and the loops of `LoopModel`.. *How:* Invariant over the event log relating number of scheduler steps, bad epochs and reductions; for improvements now and then, that the bad epochs are the last ones and none of them is an improvement; for the cosine, the recursion equals the closed form as long as 1+cos is not zero, by induction over the epochs of each loop.

*Note:* False for the display frequency in spiral.py (C136_display_refuted): losses are evaluated, and the scheduler is stepped, in epochs with a test or a figure, so with a flat loss --viz_freq 1 instead of 100 reduces the rate tenfold within 12 epochs. True for simple_functional_mapping_example.py (C136_display_partial), where only tests step the scheduler. All other parts hold. With the default options there are so few evaluations that spiral.py can reduce the rate at most once and simple_functional_mapping_example.py at most twice. The schedulers are torch 1.7.0's, with exact numbers.

*Theorems:* `C136_rotation`, `C136_balls`, `C136_circles`, `C136_falling`, `C136_display_refuted`, `C136_display_partial`, `C136_spiral_bound`, `C136_mapping_bound`, `C136_spiral_improving`, `C136_mapping_improving`, `C136_spiral_often`, `C136_mapping_often`, `C136_spiral_stagnating`, `C136_mapping_stagnating`

### C137 The linear data of spiral.py lie on the spiral (partial)

*Model:* SpiralDataModel: diff_eq_rhs, generate_points over pairs of real numbers, with the integrator of the options (SetupModel, IntegratorModel) and the fixed-step solvers of FixedGridModel.. *How:* Uniqueness by the derivative of exp(t/5)*|y-curve|^2. A step of rk4 is multiplication by a polynomial; it is compared with the curve by turning back (derivative of exp(-lambda t)*P(t) bounded by t^4) and its absolute value is computed. The chord by Rolle's theorem twice. An invariant over the solver's grid, including the shortened last step and interpolation.

*Note:* False for long steps: '--linear --stepsize 2 --data_size 6' is accepted, and the last point is more than 1000 away from the origin (C137_data_refuted); with steps of 3/2 or more the points at whole steps always move outwards (C137_outwards_partial). Proved: the equation has exactly this solution (C137_curve); with rk4 and steps h up to 1 every point, at whatever time, is within 401/400*h^2 + t*h^4 of the spiral (C137_data_partial), also with checkpoints at whole steps, so within 0.0026 with the defaults; at whole steps the points come strictly closer to the origin (C137_inwards_partial). Missing: solvers with step size control, checkpoints between steps, steps between 1 and 3/2.

*Theorems:* `C137_curve`, `C137_other_equation`, `C137_data_refuted`, `C137_data_partial`, `C137_inwards_partial`, `C137_outwards_partial`

### C138 Starting points are offered in proportion to distance (partial)

*Model:* SpiralDataModel: distances, generate_data; SpiralModel: create_uniform_distance_selection_array with any function that divides by the minimum and rounds to a nearest integer.. *How:* Counting occurrences over the blocks of the array. On the linear data a distance is a power of the absolute value of the step's factor times the first distance; how small it can get follows from C137.

*Note:* False: distances are rounded to multiples of the smallest; in a run with six points two different distances are offered equally often, however halves are rounded (C138_proportional_refuted). Proved: for all positive distances every starting point with a full window and one more point behind it is offered at least once, and the number is within 1/2 of the ratio to the smallest distance; no other point is offered (C138_counts_partial). On the linear data with steps up to 1/5 at whole steps, distances get strictly shorter, and every point is offered once, twice or three times (C138_linear_partial). Missing: exact proportions; distances of zero (which divide by zero).

*Theorems:* `C138_proportional_refuted`, `C138_counts_partial`, `C138_linear_partial`

### C139 A block can be used on the device it is on (partial)

*Model:* DeviceModel: devices, setup_device, placed blocks (BlockModel's block with the device of every parameter object), move, placed_forward (BlockModel's forward with torch's device checks), run_calls. *How:* If all used objects are on the device of the data, the checks pass and the call is BlockModel.forward; the constructor's registrations reach all particles when names differ; relations preserved by every call give the invariants (no new states in the registry, no change of placement).

*Note:* The first half is proved for every model, mode and history (C139_set_up): setup_device also makes its device the default one. Moving is false (C139_moved_refuted): the layers created in an evaluation (automatic differentiation, the model 'simple') stay on the default device, so that no call elsewhere ever succeeds (C139_new_tensors_partial) unless there is a single time only (C139_single_time_partial); in the particle-free modes the particles are not registered and are left behind, whatever was called (C139_particle_free_partial); enlargement parameters created after the move are on the default device. Proved: particle blocks with analytic parameters and without enlargement can be moved at any time and then give the results they give without devices (C139_moved_partial).

*Theorems:* `C139_set_up`, `C139_moved_refuted`, `C139_moved_partial`, `C139_new_tensors_partial`, `C139_single_time_partial`, `C139_particle_free_partial`

### C140 Automatic and manual derivatives agree in autodiff_tries.py (proved)

*Model:* TriesModel: the cubic, both derivatives, both losses, the main part with accumulated gradients. *How:* Both losses are sums over the entries of one function of weight and point; the partial derivatives of such sums are computed entry by entry (induction over the tensors), and the differentiation inside myLoss is replaced by the manual derivative at all points of the same size.

*Note:* Proved over the real numbers; the automatic differentiation is an arbitrary function that finds partial derivatives. The gradient of x is 6xp + 3x^2 p; the gradient of p, which the script does not print, is the sum of those of both losses.

*Theorems:* `C140_functions`, `C140_gradients`, `C140_script`

### C141 A vector of times gives the results of the single times (partial)

*Model:* BlockSolverModel: BlockModel's forward with the integrator of IntegratorModel and the fixed-step solvers of FixedGridModel in place of the open solver. *How:* Rows of the stacked solution are the values of the solver; C63's slices are transferred from the solver that reports one row to the single-time run, whose last row is the same by C119/C120; autonomous methods do not depend on the time of the step.

*Note:* False: single times are integrated from 0, vectors from their first time (C141_start_refuted); times between steps are interpolated in vectors (C141_between_refuted); the single time 0 is always refused (C141_time_zero_partial). Proved for whole blocks and the default solver: for vectors that start with 0, and times which are whole numbers of steps away, all four results are rows of those with the vector (C141_grid_times_partial), also with checkpoints after whole numbers of steps; for other first times the single time is the elapsed one if the right-hand side does not depend on the time (C141_elapsed_times_partial).

*Theorems:* `C141_start_refuted`, `C141_between_refuted`, `C141_grid_times_partial`, `C141_elapsed_times_partial`, `C141_time_zero_partial`

### C142 Only the distribution of the particles matters (proved)

*Model:* ParticlesModel: the system of states, costates and data with the hand-written equations of VecModel, integrated by the fixed-step solvers of FixedGridModel. *How:* A relation between tensors (the second has the particles that a function chooses) is preserved by every operation of the models; means over evenly chosen particles are equal, as sums over them are multiples; the loops over particles of the simple models are brought into closed form; a relation that addition, multiplication and right-hand side preserve is preserved by every fixed-step solver.

*Note:* Full, for runs that succeed with the given particles. Parameters are equal as values, not only close (real numbers). C142_unevenly shows that repeating only some of the particles does change the parameters.

*Theorems:* `C142_parameters`, `C142_derivatives`, `C142_runs`

### C143 Only the ratio of costates and parameter weight matters (proved)

*Model:* ParticlesModel with VecModel and FixedGridModel, as for C142. *How:* Every operation of the equations commutes with multiplication of the costates, including the loops over the particles (by induction over the loop); division by the multiplied weight cancels; right-hand sides read only the layers, not the weights of the penalty; the relation is preserved by every fixed-step solver.

*Note:* Full. Errors are the same as well. The weight 0 is excluded (division by zero).

*Theorems:* `C143_parameters`, `C143_derivatives`, `C143_runs`

### C144 Particles without costates have no influence (partial)

*Model:* ParticlesModel with VecModel and FixedGridModel, as for C142. *How:* Zero costates stay zero under every operation of the costate equations, including the loops; sums over all particles are sums over those with costates; the quotient of the numbers of particles cancels against that of the weights as in C143.

*Note:* False: parameters are means over all particles, so particles without costates shrink them (C144_no_influence_refuted: one more such particle halves the derivative of the data). Proved: they stay without costates, and B particles of which only A have costates act exactly as these A with B/A times the weight, for derivatives and for whole runs (C144_derivatives_partial, C144_runs_partial).

*Theorems:* `C144_no_influence_refuted`, `C144_derivatives_partial`, `C144_runs_partial`

### C145 A trajectory shows the evolution and leaves the model as it was (partial)

*Model:* TrajectoryModel (trajectory, apply_block) on top of BlockModel, with the solver of BlockSolverModel. *How:* The block after a successful call is the block before with the assembly plans and the flag set, for which the times do not matter; entries by C141 and C63; the first entry by comparison with a solver without dynamics (C67).

*Note:* False in two ways: after a trajectory which raised, the vector of times stays and the model returns whole trajectories (C145_after_failure_refuted); a block which integrates up to another time than 1 integrates up to 1 afterwards (C145_other_time_refuted). Proved for blocks which integrate up to 1: a successful trajectory leaves the block exactly as model(x) would, whatever the solver (C145_kept_partial); its last entry is model(x) if 1 is a whole number of steps (C145_end_partial), the entry k is the result up to the time k/(N-1) if that is a whole number of steps (C145_entries_partial; otherwise it is interpolated, see C141), and the first one are the data and particles as they are (C145_start_partial).

*Theorems:* `C145_after_failure_refuted`, `C145_other_time_refuted`, `C145_end_partial`, `C145_entries_partial`, `C145_start_partial`, `C145_kept_partial`

### C146 freeze_parameters of cc.py freezes the named parameters (partial)

*Model:* TrajectoryModel (cc_freeze_parameters), parameters as in UtilsModel. *How:* Induction over the names: only the detached tensors change.

*Note:* False: state_dict() returns detached tensors, so setting requires_grad does not reach the parameters (C146_freezes_refuted, in contrast to utils.freeze_parameters, C56). Proved: the parameters never change, and exactly unknown names raise KeyError (C146_nothing_partial).

*Theorems:* `C146_freezes_refuted`, `C146_nothing_partial`

### C147 Mirrored particles and data have mirrored trajectories (partial)

*Model:* ParticlesModel with VecModel, FixedGridModel and ActivationModel. *How:* Every operation of the eight families commutes with the change of sign (products of two changed factors are unchanged); the relation is kept by addition, multiplication with numbers and the right-hand side, so by every step of the solvers (fixed_odeint_rel).

*Note:* False for relu, sigmoid and softmax (C147_every_activation_refuted, for each of the three). Proved without activation and for tanh: the weights are the same and the biases have the opposite sign, derivatives and whole runs are mirrored, errors are the same.

*Theorems:* `C147_every_activation_refuted`, `C147_parameters_partial`, `C147_derivatives_partial`, `C147_runs_partial`

### C148 Rotated data have rotated trajectories (partial)

*Model:* ParticlesModel with VecModel and FixedGridModel. *How:* Orthonormal rows make products of two rotated factors equal to those of the factors; layers which end in q1 get rotated rows and biases, layers which start from it rotated columns. The relation, together with the sizes it needs, is kept by the vector operations and the right-hand side, so by every step (fixed_odeint_rel).

*Note:* False for 'simple', which applies the activation to q1 (C148_every_model_refuted: a rotation of the plane, relu). Proved for up-down, universal, dampened second variable, symmetrized and periodic, for every activation; missing: the general up-down model and the two simple ones.

*Theorems:* `C148_every_model_refuted`, `C148_derivatives_partial`, `C148_runs_partial`

### C149 Looking at the learned vector field (partial)

*Model:* VisualizeModel on BlockModel and TrajectoryModel. *How:* Positions in the flattened grid, in the tensor of samples and in the reshaped vectors are all 21 i + j; the first row of a run is the data (vector_start); the block after a prediction is the one before it up to bookkeeping.

*Note:* False in four respects: the model keeps the five times of the picture (C149_model_kept_refuted, C149_block_partial), is_higher_order_model=False always fails (C149_first_order_refuted, C149_first_order_partial), true observations which require gradients are refused (C149_gradients_partial), and the particles are never drawn because no block has the attribute q_params (C149_particles_partial). True and proved: places and vectors belong together, vectors are unit vectors along the way of the sample which started there (C149_field_partial, C149_from_place_partial).

*Theorems:* `C149_model_kept_refuted`, `C149_first_order_refuted`, `C149_first_order_partial`, `C149_gradients_partial`, `C149_field_partial`, `C149_from_place_partial`, `C149_block_partial`, `C149_particles_partial`

### C150 The order of the features does not matter (proved)

*Model:* ParticlesModel with VecModel and FixedGridModel. *How:* A permutation is an orthogonal map (so that the lemmas of C148 apply) which moreover commutes with every entrywise function and product; with this the general up-down model and, by invariants of their loops over particles, the two simple models are treated. The relation is lifted through whole solver runs together with the shape of the particles.

*Note:* Proved for all eight models, also for those which C148 leaves out.

*Theorems:* `C150_derivatives`, `C150_runs`

### C151 The output of a called script is shown without its comments (partial)

*Model:* ProcessModel (call_python_script, show_output). *How:* By computation for all commands and outputs; the split into lines by induction on the text, the printed lines by induction on the lines.

*Note:* False (C151_shown_refuted): Popen without text mode gives bytes, whose split does not take the str '\n', so that the function raises a TypeError for every script and every output, after the script has run, and prints nothing (C151_script_partial). For an output of type str the rest of the function is right (C151_text_partial).

*Theorems:* `C151_shown_refuted`, `C151_script_partial`, `C151_text_partial`

### C152 Every stage has a log file of its own (proved)

*Model:* ProcessModel (get_stage_log_filename), with os.path.join of FigureModel. *How:* The decimal digits of the stage contain neither an underscore nor a dot, so that they end at the first of these; integers are determined by their digits and names by what is before the ending.

*Note:* Names are compared as strings; a process name which contains a slash can lead to another directory.

*Theorems:* `C152_own_file`

### C153 A command gets its arguments as they are, and its failure is noticed (partial)

*Model:* ProcessModel (execute_command); exit codes are an arbitrary function of the arguments. *How:* Induction on the list of arguments; the refutation with two functions of exit codes.

*Note:* The exit code is dropped (C153_failure_refuted). The arguments arrive unchanged, also those with spaces or quotes, other than with the bash commands of C79 (C153_arguments_partial).

*Theorems:* `C153_failure_refuted`, `C153_arguments_partial`

### C154 The order of the inner units does not matter (proved)

*Model:* ParticlesModel with VecModel and FixedGridModel. *How:* The layers which end in or start from q2 have the rows or columns of their weights reordered; with the lemmas on permutations of C150 each model's parameters, right-hand side and costate equations are followed step by step, and the relation is lifted through whole solver runs.

*Note:* Proved for all six models with inner units. The model simple has no second variable; in its debugging variant q2 is a second set of features, not of inner units, and is not treated.

*Theorems:* `C154_derivatives`, `C154_runs`, `C154_outputs`

### C155 Only the differences of the times matter (partial)

*Model:* IntegratorModel with FixedGridModel and ParticlesModel. *How:* Comparisons and differences of times do not change, so the grid for a step size, the checkpoints and the intervals move along; by induction over grid, requested times and chunks all values stay the same.

*Note:* Proved for odeint, and for anode unless a single time is given: that one is taken for the length of the integration and has to be 1, so that moving it raises ValueError.

*Theorems:* `C155_runs`, `C155_particles`, `C155_anode`, `C155_anode_refuted`

### C156 Without an activation predictions are affine in the data (proved)

*Model:* ParticlesModel with VecModel and FixedGridModel. *How:* Every operation of the right-hand sides keeps mixtures when the activation is the identity; the two runs are put side by side in a product, and the relation to the run of the mixture is lifted through the solvers.

*Theorems:* `C156_mixtures`

### C157 Integrating to the last time and back returns to the start (partial)

*Model:* IntegratorModel with FixedGridModel. *How:* The values at whole numbers of steps are iterated steps (C126); a step of length -h undoes the step of length h because the nodes and weights of midpoint and rk4 are symmetric; induction over the steps, and the list of values by positions.

*Note:* False (C157_return_refuted): for x' = x none of the three methods returns; Euler's method misses by the factor 1 - (a h)^2 in each step for x' = a x (C157_linear_partial). Proved: exact return, through all requested times, for velocities which do not depend on the place (C157_return_partial), for Euler's method neither on the time.

*Theorems:* `C157_return_refuted`, `C157_linear_partial`, `C157_return_partial`

### C158 Larger costates are longer times (partial)

*Model:* ParticlesModel, VecModel, FixedGridModel. *How:* The layers are linear in the costates (C158_parameters, all models), the derivatives linear in the layers; a solver over l times the times does with a right-hand side what it does over the times with l times the right-hand side; both are combined by a relation kept through all steps.

*Note:* Proved for seven of the eight models with hand-written equations, for derivatives and whole runs; negative factors reverse the time (C158_backwards_partial). False of the model whose second state is dampened by a constant factor (C158_dampened_refuted): its derivatives do not vanish without costates.

*Theorems:* `C158_parameters`, `C158_dampened_refuted`, `C158_derivatives_partial`, `C158_runs_partial`, `C158_backwards_partial`

## Findings

Behaviour of the code which the model shows and a user would not expect.

* **C06** Concatenation compares only against the first block: a later block
  lacking variables is silently accepted.
* **C62** Scalars cannot be disassembled (`TypeError`).
* **C03** A vector longer than planned is accepted, the rest ignored.
* **C07** Parameter tuples holding `None` raise `IndexError` when read back.
* **C14** Decreasing times with checkpoints lose outputs (or return `None`); a
  repeated final time is dropped.
* **C15** Negative checkpoint settings raise assorted errors, not `ValueError`.
* **C17** The integrator writes its defaults into the caller's options.
* **C18** `anode` can never be combined with checkpointing.
* **C20** Parameter lookup between grid points depends on earlier queries.
* **C23, C65** Enlargement is decided by the first forward call, even a failed
  one; later calls cannot be retried or never enlarge.
* **C26** Enlargement parameters of two blocks share one registered name.
* **C28** `to()` after `set_integration_time_vector` raises `AttributeError`.
* **C63** Results for time vectors of several concatenated blocks are joined
  along the wrong dimension.
* **C64** `keep_initial_state_parameters_at_zero` can never be constructed
  (misspelt in-place method).
* **C32** Explicit assembly plans are always rejected (inverted test).
* **C33** Transposed evaluation raises `KeyError` always.
* **C34** Externally managed parameters with autodiff costates never work.
* **C39, C61** The hand-written bias is only right for `particle_dimension` 1;
  with more the reduced Lagrangian is not conserved.  The dampened model uses
  costates without the dampening.  The simple model's weight loop is right only
  for dimension 1.
* **C40** `sigmoid` is returned as its own derivative.
* **C41** `UpdownSymmetrized` and `OptimalTransportSimple` need inflation 1.
* **C102** `UpdownDampenedQ2` subtracts its dampening factor -0.5: the second state is amplified
  (grows like exp(t/2) when left alone).
* **C42** `UpDownConv2D` with optimised initial conditions yields wrong
  channels (`linear`) or a smaller image (`mini_nn`); circular padding pads
  half of what was asked for.
* **C43** Convolution without bias and group norm without affine parameters
  raise `KeyError` on every evaluation.
* **C72** `cuda()`, `double()` leave tensor weights behind.
* **C46** Striding may lose the centre of an odd extent.
* **C51** With negative metrics a constant value counts as an improvement.
* **C52, C53** The sweep generator keeps earlier results in its default
  arguments, and mistreats an empty dictionary.
* **C54** `False` does not remove a flag set by the template.
* **C55** Run names collide when values contain underscores, so runs are
  skipped.
* **C57** Layers without blocks escape the channel checks.
* **C69** With a single block the network ignores its output.
* **C58** `chunk_time=1` never terminates.
* **C71** The last window is never sampled.
* **C60** A zero mean at a restart gives NaN.
* **C74** Convolution initialisers lack `create_constant_parameters`; a sample
  batch larger than the number of particles gives more particles than asked.
* **C76** The recorded energy ignores parameter weights.
* **C77** The recording hook raises for convolutional models, leaving a record
  with more times than norms.
* **C79** Option values with spaces are split, empty ones vanish, and an
  unescaped semicolon cuts the command.
* **C80** `path_to_python` never has an effect.
* **C81** `create_kv_string` does not escape semicolons in values.
* **C82** A batch with one sample, one time or one latent dimension raises in
  the autoencoder (`squeeze`).
* **C84** `rot.py` never returns to training mode after its first evaluation.
* **C85** If the first validation error is NaN, `balls.py` never saves a model.
* **C87** `cc.py`'s training loss overweights an incomplete last batch.
* **C89** Points in a shell are not uniform in volume (too many near the hole).
* **C90** `drop_last` discards test samples; augmented CIFAR training images
  differ in size from test images.
* **C92** `simple_functional_mapping_example.py` cannot train any of the networks
  it offers besides shooting (`uses_particles` and `weight_decay` are never
  assigned); `spiral.py` stops with more than 100 samples per batch.
* **C93** `norm_penalty` is saved with the value of `norm_loss`.
* **C94** One epoch more than `niters` is trained; `spiral.py` steps its scheduler
  also at figures and at the end.
* **C97** The figure of the quadratic function cuts off its middle for small ranges.
* **C103** Two hyphens, adjacent quotation marks and runs of blanks are not escaped
  and appear as other signs in LaTeX.
* **C104** `save_all_formats` cannot create nested directories and fails for `''`.
* **C105** An exception while plotting leaves matplotlib with the pgf backend.
* **C106** `plot_temporal_data` leaves out every quantity whose name begins with
  `t` or `energy`, and raises for a record of one evaluation.
* **C107** Stacking repeats arrays of another shape silently.
* **C108** Frames of earlier runs get into the animation; one figure too many is
  shown on screen; names sort wrongly from 100000 evaluations on.
* **C109** `basic_visualize` fails for the first-order model `simple` of the demo.
* **C110** The standalone script's gradient check is wrong with several rows per
  particle; `advect` stops before time 1 when the step does not divide it; the
  midpoint rule does not keep the energy.
* **C111** The fixed-point check's factor 15/16 suits only the costate equation (the state
  would need 3/4); its last printed ratio divides a gradient by itself.
* **C112** The hand-made equations divide by the number of features as well, so the quantities
  said to be the same differ by that factor.
* C113: a network whose strided particles are larger than the next layer's is
  constructed, but every pass raises `ValueError`.
* C114: the report of `tests/striding_and_upsampling.py` does not count expected
  parameters which are missing: without the first pass it says 14 of 14 passed
  although 18 are expected.
* C115: autograd and the hand-written equations give the same integration and
  the same loss of `tests/autograd_gradient_test.py` for particle dimension 1;
  for dimension 2 the norm penalties differ (as in C39).
* C116: the gradient check raises `RuntimeError` if a gradient is zero
  everywhere, its verdict depends on which gradient comes first, and it
  congratulates if nothing was compared.
* C38: with a step size controlled by the error over the whole batch a sample's
  result depends on the other samples (`StepControl`, a simplified controller).
* C117: `run_experiments_spiral*.py` offer eight shooting models, `spiral.py`
  accepts four; with the other four every run ends with a usage error, and the
  script goes on to the next.
* C118: the rnn experiment scripts repeat the combinations of earlier sweeps in
  later ones: the particle rnn is also trained with 2 particles, and with
  `--force_recompute` 32 instead of 20 (spiral) and 54 instead of 36 (mapping)
  runs per seed are started.
* C119: with the default solver rk4 a checkpoint which is not a whole number of
  steps away from the first time changes the result: it adds a step.  With the
  default step size 1/2 on [0, 1], two checkpoints or one after 3/4 suffice.
* C120: the value at a requested time depends on the other requested times:
  inside a step rk4 interpolates linearly (error of second order instead of
  fourth), while integrating to the same time shortens the step.  The times of
  `tests/integration_time_test.py` all lie on the grid, where both agree.
* C122: `compute_complexity_measures` integrates between recorded evaluations.  With
  euler nothing is recorded in the last step after its start, with midpoint nothing
  after its middle, so this time is missing (constant norm 4 on [0, 1] in halves: 1 with
  euler, 3/2 with midpoint, 2 with rk4).  With rk4 the measure is exact.
* **C125** `cc.py` with its default `--shooting_dim 20` fails in the first
  forward pass (points have two features); with `--shooting_model simple` it
  fails with `KeyError: 'l2'` after a full epoch, before anything is saved;
  `--batch_size 2999` leaves a last batch of one point, which BatchNorm refuses.
* **C126** Integrating from 1 to 0 with a checkpoint returns `None`: the loop
  building the intervals assumes increasing times.
* **C124** `cc.py` draws its data before it sets the seed, so `--seed` does not
  make it reproducible; in `spiral.py` with `--custom_parameter_initialization` the number
  of particles changes the windows trained on.  Negative seeds other than -1 end
  with `ValueError` from numpy.
* **C127** `--test_freq` and `--viz_freq` of `simple_functional_mapping_example.py`
  change the order of the training samples: starting an evaluation draws from torch's generator.
* **C128** The tensorboard hook raises with every analytic solution of one-dimensional particles (the bias is a
  matrix with one row), and with the default hook data `None`; it writes every batch of an
  epoch under the same step.
* **C129** `balls.py --evaluate_ahead k` compares at most 17 images and, for zero or negative values, none or
  images counted from the end, without a message.
* **C131** `rot.py` ignores `--batch_size`; `--n_skip` above 14, `--i_eval` outside 0..15, one latent dimension and a
  test set with a single sequence in its last batch of 25 raise after the program has started to train.
* **C130** Two of the six training commands in `demos/neurips20/README.md` are broken: the one for the cubic function
  has a blank behind a backslash (the script refuses the extra argument), the one for the quadratic function lacks a
  backslash (the script runs with the default of 250 iterations, and the frozen parameters are never unfrozen).
* **C132** `balls.py` raises if its directory exists (the default `runs/` is also where `rot.py --save` writes), and
  with `--evaluate_ahead 0` ends well without having saved anything.
* **C133** `simple_functional_mapping_example.py --shooting_model universal` (which the run scripts offer as well) ends with an
  AttributeError, as `AutoShootingIntegrandModelUniversal` does not exist; `--adjoint` does nothing there.  In the other scripts the
  model `simple` ignores `--optimize_over_data_initial_conditions`, in `spiral.py` also `--do_not_use_analytic_solution`.
* **C134** `cc.py` ignores `--norm_weight`: the norm penalty is commented out.
* C136: in `spiral.py` the scheduler is stepped with every evaluation, also those made for a figure, so `--viz_freq` changes the
  learning rates (ten times smaller from epoch 12 on with a flat loss and `--viz_freq 1`).
* **C137** the "ground truth" of `spiral.py` comes from the solver of the model: `--linear --stepsize 2` trains on points which
  spiral outwards (more than 1000 away at time 10) instead of inwards; with the default step the points are off by up to
  0.0025, as the solver interpolates linearly between its steps.
* **C138** distance based sampling of `spiral.py` rounds distances to whole multiples of the shortest, so on the linear data, where
  distances differ by a factor of up to 2.7, starting points are offered once, twice or three times only.
* A block moved with `to()` to another device than the default one is unusable
  there if its parameters are computed by automatic differentiation or by the
  model 'simple' (new layers stay on the default device), in the particle-free
  modes (the particles are not registered, so they are left behind), and when
  enlargement parameters are created after the move (C139).  `setup_device`
  avoids all of this by changing the default.
* C141: `set_integration_time(t)` integrates from 0 to `t`, but `set_integration_time_vector` from the first time of
  the vector on: a vector `[1, 2]` gives at its second entry the result after one unit of time, the single time 2 that
  after two. The single time 0 is always refused by the solver, while a vector may start with 0. Times between two
  steps are interpolated in a vector and reached by a shorter step alone.
* C144: the parameters are means over all particles, also over those whose costates are zero. A particle without
  costates therefore acts on the data: `B` particles of which `A` have costates are these `A` with the parameter
  weight multiplied by `B/A`. More particles mean, with the same costates, a larger penalty.
* C145: `Model.trajectory` of cc.py sets the times of the block and resets them only if nothing is raised; after a
  trajectory with data of the wrong size every later call of the model returns whole trajectories. A block made
  for another time than 1 integrates up to 1 afterwards.
* C146: `freeze_parameters` of cc.py sets `requires_grad` of the detached tensors of `state_dict()`, which has no
  effect on the parameters. (The function of the same name in utils.py works, C56.)
* C147: mirror images of particles and data have mirrored trajectories for no activation and for tanh only; with relu, sigmoid and softmax a model treats positive and negative values differently.
* C148: five of the vector models treat all directions of the data space alike (rotated data give rotated trajectories, for every activation); 'simple', its debugging version and the general up-down model prefer the coordinate axes, since they apply the activation to the data themselves.
* C149: `visualize` sets the integration times of the block it draws and does not restore them, so the block afterwards predicts at these five times; with `is_higher_order_model=False` it always raises (`dydt_pred_y[-1, 0, ...]` is one sample, which is reshaped to 21 x 21 vectors); `true_y.numpy()` is called without `detach()`; the particles are never drawn (`q_params` does not exist, the exception is swallowed).
* `call_python_script` raises a TypeError for every script, after it has run: the output is bytes and is split at a
  str (C151).  `execute_command` drops the exit code (C153).
* C155: with the library anode a single time is taken for the length of the integration and has to be 1; moving it
  raises ValueError, whereas two times may be moved.
* C157: the steps of euler, midpoint and rk4 are not undone by the steps back unless the velocity is independent of the
  place; the states recomputed by adjoint integration differ from those of the forward pass (Euler's method, x' = a x:
  by the factor 1 - (a h)^2 per step).
* C158: multiplying the costates is multiplying the time, except for the model with the dampened second state, which moves
  without costates.
* Further, without an own property: `simple_functional_mapping_example.py` with
  more than 500 samples per batch silently trains on nothing and overwrites the
  chosen optimizer; the misspelled parameter `max_integraton_time` of
  `spiral.py` has no effect; `call_python_script` splits bytes at a
  string, a `TypeError` for every output; `ValueError` objects built but not raised
  (`shooting_integrands.py:563,576`); the optimal transport kinetic energy
  raises `TypeError` with `parameter_weight=None`; analytic costates use the
  data concatenation dimension (`shooting_integrands.py:525`); `cc.py`
  generates its data before setting the seed, its `freeze_parameters` acts on
  detached tensors and so freezes nothing, and its default `--shooting_dim` 20
  does not fit its two-dimensional data; `rot.py` and `balls.py` ignore
  `--batch_size`.

## Mutation testing

`seeded/LOG.jsonl` has 685 entries.  Each is one realistic bug put into a
scratch copy of the model (wrong dimension, off by one, lost branch, swapped
arguments, missing factor, stale cache, a "fix" of a finding, ...), rebuilt
with `make -k`; the entry names the definition, the edit, the claim it breaks,
the theorems which then fail, and the theorems tightened or added because a
mutation had survived.

How "fails" is measured: proofs which do not go through are replaced by
`Admitted` in the scratch copy, and a theorem counts as failed if `Print
Assumptions` then lists such a lemma.  So the list can be too long: a theorem
may rest on a lemma which states more than needed, and its claim may still be
true of the edited model.  It can also be empty although a claim is broken, if
the edit stops a file from compiling before any theorem is reached; these
entries have a note, which names the repetition in a compiling form if there
is one.  For two entries (`system_rhs` "costates returned instead of their
derivative", `times_system` "data not scaled by the step") proofs ran into the
time limit and there is no repetition, so nothing is known about them.
Entries with an empty list and `tightened` are bugs which had survived; not
all of them were repeated after the tightening.
