{"id": "C01", "title": "Assemble/disassemble round trip", "statement": "Vectorising a (state, costate, data) triple of named dictionaries of tensors and disassembling the resulting vector with the returned plans gives back exactly the same block names, variable names, shapes and values, with only the empty blocks dropped; the vector is exactly the concatenation of all tensors' elements, so nothing is lost or duplicated.", "quantifier": "every triple of sorted dictionaries of sorted dictionaries of well-shaped tensors of any rank of at least one, any key set and element type, each group having at least one non-empty block", "why_tests_cant": "The number of blocks, variables, ranks and shapes (including zero-size tensors and scalar tensors) is unbounded; offsets accumulate over all of them, so an off-by-one in any position only shows for particular layouts.", "anchors": ["neuro_shooting/state_costate_and_data_dictionary_utils.py:_assemble_generic_dict", "neuro_shooting/state_costate_and_data_dictionary_utils.py:_assemble_generic_dict_of_dicts", "neuro_shooting/state_costate_and_data_dictionary_utils.py:assemble_tensor", "neuro_shooting/state_costate_and_data_dictionary_utils.py:_disassemble_dict", "neuro_shooting/state_costate_and_data_dictionary_utils.py:_disassemble_dict_of_dicts", "neuro_shooting/state_costate_and_data_dictionary_utils.py:disassemble_tensor"]}
{"id": "C02", "title": "Time-major disassembly is disassembly per time point", "statement": "When the integrator returns a result with a leading time dimension, disassembling along dim=1 gives for every variable a tensor of shape [T]+shape whose slice at each time index equals what disassembling that time point's vector along dim=0 gives.", "quantifier": "every number of time points T (including 0), every assembly plan and every matrix of the right width", "why_tests_cant": "Quantifies over all trajectories and layouts; a test fixes a handful.", "anchors": ["neuro_shooting/state_costate_and_data_dictionary_utils.py:_disassemble_dict", "neuro_shooting/state_costate_and_data_dictionary_utils.py:disassemble_tensor", "neuro_shooting/shooting_blocks.py:ShootingBlockBase.forward"]}
{"id": "C03", "title": "Assembly/disassembly error contract", "statement": "Assembly succeeds exactly when all three groups contain at least one non-empty block, and otherwise raises TypeError; disassembly with a dim other than 0 and 1 or without plans raises ValueError, and neither operation ever returns a truncated or partially filled result for a vector of the planned length.", "quantifier": "every triple of dictionaries, every dim, every vector length", "why_tests_cant": "The failure cases are defined by universally quantified emptiness conditions over arbitrary nested structures.", "anchors": ["neuro_shooting/state_costate_and_data_dictionary_utils.py:assemble_tensor", "neuro_shooting/state_costate_and_data_dictionary_utils.py:disassemble_tensor"]}
{"id": "C04", "title": "Merging a block into a dictionary of dictionaries", "statement": "Merging adds exactly the given block under the given name, keeps every other block's content unchanged, keeps the result sorted, never overwrites an existing block, and raises ValueError exactly if the name is already taken (even when there is nothing to add).", "quantifier": "every block, every name and every existing dictionary of dictionaries (or None)", "why_tests_cant": "Needs the frame condition for all other names simultaneously.", "anchors": ["neuro_shooting/state_costate_and_data_dictionary_utils.py:_merge_state_costate_or_data_dict_with_generic_dict_of_dicts"]}
{"id": "C05", "title": "Concatenate then deconcatenate is the identity", "statement": "Concatenating the same-named variables of several blocks along the concatenation dimension and deconcatenating with the same structure returns each block's original tensors; the concatenated tensor's extent along that dimension is the sum of the blocks' extents and each element is found at the block's offset.", "quantifier": "any number of blocks with the same variable names, any ranks and shapes that agree off the concatenation dimension, concatenation dimension 0..4", "why_tests_cant": "Unbounded number of blocks and arbitrary shapes; slicing offsets accumulate per variable over blocks.", "anchors": ["neuro_shooting/state_costate_and_data_dictionary_utils.py:_concatenate_dict_of_dicts", "neuro_shooting/state_costate_and_data_dictionary_utils.py:_deconcatenate_based_on_generic_dict_of_dicts"]}
{"id": "C06", "title": "Concatenation rejects blocks with differing variable names", "statement": "Concatenation of blocks whose sets of variable names differ raises ValueError instead of returning a result in which some block contributes nothing.", "quantifier": "every dictionary of dictionaries", "why_tests_cant": "The check in the code only counts names; whether counting is enough is a statement about all families of key sets.", "anchors": ["neuro_shooting/state_costate_and_data_dictionary_utils.py:_concatenate_dict_of_dicts"]}
{"id": "C07", "title": "Tuple/dictionary round trips used for autodiff", "statement": "Turning a dictionary (or dictionary of dictionaries) into a tuple and back using the same structure restores each entry under its own (prefixed) name; for parameter objects the same holds whenever no parameter is None, so gradients are always attached to the parameter they were computed for.", "quantifier": "every sorted dictionary, dictionary of dictionaries and family of parameter objects, every prefix", "why_tests_cant": "Depends on the order preservation of prefixing for all key sets, and on all patterns of None entries.", "anchors": ["neuro_shooting/state_costate_and_data_dictionary_utils.py:compute_tuple_from_generic_dict_of_dicts", "neuro_shooting/state_costate_and_data_dictionary_utils.py:extract_dict_of_dicts_from_tuple_based_on_generic_dict_of_dicts", "neuro_shooting/state_costate_and_data_dictionary_utils.py:compute_tuple_from_generic_dict", "neuro_shooting/state_costate_and_data_dictionary_utils.py:extract_dict_from_tuple_based_on_generic_dict", "neuro_shooting/state_costate_and_data_dictionary_utils.py:compute_tuple_from_parameter_objects", "neuro_shooting/state_costate_and_data_dictionary_utils.py:extract_dict_from_tuple_based_on_parameter_objects"]}
{"id": "C08", "title": "Extracting one variable from all blocks", "statement": "Extracting a key returns, with exactly one block, that block's tensor itself (and fails with IndexError if it has none), and otherwise a dictionary with exactly the original blocks, each holding exactly the requested variable if it had it.", "quantifier": "every dictionary of dictionaries and key", "why_tests_cant": "Structure-dependent return type; all numbers of blocks.", "anchors": ["neuro_shooting/state_costate_and_data_dictionary_utils.py:extract_key_from_dict_of_dicts"]}
{"id": "C09", "title": "Zero padding of new data channels always concatenates", "statement": "The zero data block created for a new shooting block has the data's size in every dimension except the concatenation dimension, where it has the new states' size; therefore concatenating it with same-shaped data never fails and the data dimension offset equals the rank difference (ValueError if data has smaller rank than the state).", "quantifier": "all state/data shapes and ranks, any number of variables", "why_tests_cant": "All shapes and ranks.", "anchors": ["neuro_shooting/state_costate_and_data_dictionary_utils.py:get_data_concatenation_dim", "neuro_shooting/state_costate_and_data_dictionary_utils.py:_get_zero_data_dict_matching_state_dim", "neuro_shooting/state_costate_and_data_dictionary_utils.py:extract_size_from_dict_of_dicts"]}
{"id": "C10", "title": "The right-hand side vector lines up with the state vector", "statement": "The vector returned for the time derivative has, at every position, the derivative of the very variable stored at that position of the input vector: same block order, same variable order (the 'dot_'/'dot_p_' renaming keeps the order), same offsets.", "quantifier": "all families of blocks and variables with arbitrary names whose derivative has the variable's shape", "why_tests_cant": "A misaligned position only shows for key sets whose sorted order changes under renaming; must hold for all names.", "anchors": ["neuro_shooting/shooting_integrands.py:ShootingIntegrandBase.forward", "neuro_shooting/shooting_integrands.py:ShootingIntegrandBase.assemble_tensor", "neuro_shooting/shooting_integrands.py:AutogradShootingIntegrandBase.rhs_advect_costate_dict_of_dicts", "neuro_shooting/state_costate_and_data_dictionary_utils.py:assemble_tensor"]}
{"id": "C11", "title": "Checkpoint intervals cover exactly the requested times", "statement": "Splitting a requested time vector at checkpoints and keeping only the flagged output points returns exactly the requested times, each once and in order, provided the requested times are non-decreasing and the last is strictly larger than the one before; the procedure always terminates.", "quantifier": "every non-decreasing time vector of length at least two with strictly larger last time and every strictly increasing checkpoint sequence from the first to the last time", "why_tests_cant": "All interleavings of two unbounded sequences, with every coincidence pattern.", "anchors": ["neuro_shooting/generic_integrator.py:GenericIntegrator.create_integration_time_intervals"]}
{"id": "C12", "title": "Checkpoint intervals chain without gaps", "statement": "Every produced interval has at least two points, each interval starts at the time at which the previous one ended, the first starts at the first requested time, the last ends at the last requested time, and every interval boundary is a checkpoint with all checkpoints used in order.", "quantifier": "same as for the covering property", "why_tests_cant": "All interleavings of two unbounded sequences.", "anchors": ["neuro_shooting/generic_integrator.py:GenericIntegrator.create_integration_time_intervals"]}
{"id": "C13", "title": "Checkpointed integration gives the same result as direct integration", "statement": "For a solver that follows a flow exactly (solving over a whole time vector equals restarting it at intermediate times), integrating with checkpoints returns the same array as integrating without; for solvers without this property the results may differ.", "quantifier": "every such solver and flow, initial condition, time vector and checkpoint sequence as above", "why_tests_cant": "Quantifies over all solvers/flows and all interleavings.", "anchors": ["neuro_shooting/generic_integrator.py:GenericIntegrator._integrate_checkpointed", "neuro_shooting/generic_integrator.py:GenericIntegrator.integrate", "neuro_shooting/generic_integrator.py:GenericIntegrator._integrate_direct"]}
{"id": "C14", "title": "Checkpointing never loses requested time points", "statement": "For every time vector accepted by the interval construction, each requested time is present in the output (also for decreasing time vectors and for a repeated final time).", "quantifier": "every time vector of length at least two", "why_tests_cant": "Counterexamples live in boundary cases (backward integration, repeated last time).", "anchors": ["neuro_shooting/generic_integrator.py:GenericIntegrator.create_integration_time_intervals", "neuro_shooting/generic_integrator.py:GenericIntegrator._integrate_checkpointed"]}
{"id": "C15", "title": "Checkpointing configuration errors", "statement": "Interval construction raises ValueError exactly if fewer than two times are given, or both or none of the two checkpoint settings are given, and the checkpoint grid starts at the first and ends at the last requested time and is strictly increasing whenever the last time is larger than the first.", "quantifier": "all settings and time vectors over the reals", "why_tests_cant": "Grid properties for all real end points and counts.", "anchors": ["neuro_shooting/generic_integrator.py:GenericIntegrator.create_integration_time_intervals"]}
{"id": "C16", "title": "Integrator construction and options", "statement": "Construction accepts exactly the documented library/integrator combinations (defaults resolved), never overrides a user-given step size, adds the default step size exactly for fixed-step odeint integrators, and leaves all other options unchanged.", "quantifier": "every library name, integrator name, option dictionary and step size", "why_tests_cant": "All option dictionaries and strings.", "anchors": ["neuro_shooting/generic_integrator.py:GenericIntegrator.__init__"]}
{"id": "C17", "title": "Constructing an integrator does not change the caller's options", "statement": "After constructing an integrator, or two integrators sharing one option dictionary, the caller's dictionary has its original content and each integrator uses its own step size.", "quantifier": "every history of constructor calls on shared dictionaries", "why_tests_cant": "Aliasing across histories of calls.", "anchors": ["neuro_shooting/generic_integrator.py:GenericIntegrator.__init__", "neuro_shooting/generic_integrator.py:GenericIntegrator._integrate_anode"]}
{"id": "C18", "title": "ANODE integration guard", "statement": "With the anode library, integration proceeds exactly for a single time 1.0 or for two times differing by exactly one, otherwise raises ValueError; it always returns one time point, so combining it with checkpointing can never succeed.", "quantifier": "all time vectors and all checkpoint settings", "why_tests_cant": "All time vectors/settings.", "anchors": ["neuro_shooting/generic_integrator.py:GenericIntegrator._integrate_anode", "neuro_shooting/generic_integrator.py:GenericIntegrator.integrate"]}
{"id": "C19", "title": "Time-dependent parameter lookup is total and cache-coherent", "statement": "Any history of time queries to a particle-free parameter function returns one of its stored parameter sets: the search terminates, never indexes out of range, and the cached index always designates the cached time.", "quantifier": "every strictly increasing grid of at least one time, every finite history of queries (any order, below, above and inside the range)", "why_tests_cant": "Histories are unbounded and the object is stateful.", "anchors": ["neuro_shooting/shooting_blocks.py:ParticleFreeParameterFunc.get_parameters_at_time"]}
{"id": "C20", "title": "Time-dependent parameter lookup returns the closest earlier parameters", "statement": "The parameters returned for a time are those of the largest grid time not after it, independently of earlier queries.", "quantifier": "every grid, history and query time", "why_tests_cant": "History dependence cannot be excluded by finitely many tests.", "anchors": ["neuro_shooting/shooting_blocks.py:ParticleFreeParameterFunc.get_parameters_at_time"]}
{"id": "C21", "title": "Particle-free RNN mode uses one constant parameter set", "statement": "With a single parameter set every query at every time returns that set, whatever the history.", "quantifier": "all query histories", "why_tests_cant": "Unbounded histories.", "anchors": ["neuro_shooting/shooting_blocks.py:ParticleFreeParameterFunc.__init__", "neuro_shooting/shooting_blocks.py:ParticleFreeParameterFunc.get_parameters_at_time"]}
{"id": "C22", "title": "parameters() is available exactly after a successful forward pass", "statement": "Asking a shooting block for its parameters raises ValueError until one forward call has completed without raising, and never raises afterwards.", "quantifier": "every finite history of forward calls (succeeding or failing anywhere) and parameters() calls", "why_tests_cant": "All histories and all failure points.", "anchors": ["neuro_shooting/shooting_blocks.py:ShootingBlockBase.parameters", "neuro_shooting/shooting_blocks.py:ShootingBlockBase.forward"]}
{"id": "C23", "title": "A failed forward call can be retried", "statement": "If a first forward call raises, repeating it with correct arguments behaves as if the failed call had not happened.", "quantifier": "every history with a failing call", "why_tests_cant": "All failure points of a multi-stage stateful operation.", "anchors": ["neuro_shooting/shooting_blocks.py:ShootingBlockBase.forward", "neuro_shooting/shooting_blocks.py:ShootingBlockBase._get_or_create_and_register_pass_through_enlargement_parameters"]}
{"id": "C24", "title": "Enlargement parameters are created once", "statement": "Across any number of successful forward calls the enlargement parameters registered by the first call stay the same objects, and no later call creates or registers new parameters.", "quantifier": "every finite history of forward calls", "why_tests_cant": "Unbounded histories.", "anchors": ["neuro_shooting/shooting_blocks.py:ShootingBlockBase._get_or_create_and_register_pass_through_enlargement_parameters", "neuro_shooting/shooting_blocks.py:ShootingBlockBase.forward"]}
{"id": "C25", "title": "Enlarging a tensor embeds it centrally", "statement": "Enlarging a tensor to a desired size yields exactly that size; the original values occupy the block at offset diff//2 in every dimension, and every remaining position is filled by a distinct enlargement parameter, all of them used exactly once.", "quantifier": "all ranks, sizes and size differences", "why_tests_cant": "All ranks and sizes; parameter slices are computed from a growing size.", "anchors": ["neuro_shooting/shooting_blocks.py:ShootingBlockBase._enlarge_tensor", "neuro_shooting/shooting_blocks.py:ShootingBlockBase._create_raw_enlargement_parameters"]}
{"id": "C26", "title": "Every enlargement parameter stays registered for optimisation", "statement": "After the first forward call with pass-through blocks, every enlargement tensor used in the computation is among the registered parameters.", "quantifier": "all families of pass-through blocks", "why_tests_cant": "Name collisions depend on the whole family of blocks.", "anchors": ["neuro_shooting/shooting_blocks.py:ShootingBlockBase.register_pass_through_state_and_costate_enlargement_parameters"]}
{"id": "C27", "title": "Particle-free parameters are registered under distinct names", "statement": "With time-dependent particle-free parameters, each (time step, layer, parameter) triple gets its own registered name, so no parameter silently shadows another.", "quantifier": "any number of time steps, all layer and parameter names not containing the separator ambiguity", "why_tests_cant": "Injectivity of a string formatting function over all indices.", "anchors": ["neuro_shooting/shooting_blocks.py:ShootingBlockBase.register_particle_free_parameters", "neuro_shooting/shooting_blocks.py:ShootingBlockBase.__init__"]}
{"id": "C28", "title": "Integration time setters", "statement": "After any sequence of time settings, a forward call integrates over the last one set: a vector returns all its times, a scalar time returns only the final value; the block can still be moved to a device.", "quantifier": "every finite sequence of set_integration_time / set_integration_time_vector / to calls", "why_tests_cant": "All call histories.", "anchors": ["neuro_shooting/shooting_blocks.py:ShootingBlockBase.set_integration_time", "neuro_shooting/shooting_blocks.py:ShootingBlockBase.set_integration_time_vector", "neuro_shooting/shooting_blocks.py:ShootingBlockBase.to", "neuro_shooting/shooting_blocks.py:ShootingBlockBase._apply"]}
{"id": "C29", "title": "Hooks run in registration order, once per evaluation", "statement": "On each right-hand-side evaluation every registered and not yet removed hook is called exactly once, in registration order, with the values of that evaluation; removing one hook does not affect the others.", "quantifier": "every finite sequence of register, remove and evaluate operations", "why_tests_cant": "Unbounded histories.", "anchors": ["neuro_shooting/shooting_integrands.py:ShootingIntegrandBase.register_lagrangian_gradient_hook", "neuro_shooting/shooting_integrands.py:ShootingIntegrandBase.compute_gradients"]}
{"id": "C30", "title": "Norm penalty life cycle", "statement": "After an integration the norm penalty is the energy of the parameters evaluated at time zero of that same integration; it never leaks from an earlier integration, and asking for it before any evaluation at time zero returns nothing usable.", "quantifier": "every sequence of resets and evaluations at arbitrary times", "why_tests_cant": "All evaluation schedules chosen by a solver.", "anchors": ["neuro_shooting/shooting_integrands.py:ShootingIntegrandBase.compute_gradients", "neuro_shooting/shooting_integrands.py:ShootingIntegrandBase.get_norm_penalty", "neuro_shooting/shooting_integrands.py:ShootingIntegrandBase.reset"]}
{"id": "C31", "title": "Particle RNN mode freezes the parameters per integration", "statement": "With RNN mode the parameters used at every evaluation of one integration are those computed at its first evaluation, and a new integration recomputes them.", "quantifier": "every evaluation schedule", "why_tests_cant": "All evaluation schedules.", "anchors": ["neuro_shooting/shooting_integrands.py:ShootingIntegrandBase.compute_parameters", "neuro_shooting/shooting_integrands.py:ShootingIntegrandBase.reset"]}
{"id": "C32", "title": "Explicit assembly plans are honoured", "statement": "Disassembling through the integrand with explicitly passed assembly plans uses those plans; without them uses the cached ones, raising ValueError only if there are none.", "quantifier": "all vectors and plans, cached or not", "why_tests_cant": "All combinations of cached and explicit plans.", "anchors": ["neuro_shooting/shooting_integrands.py:ShootingIntegrandBase.disassemble_tensor"]}
{"id": "C33", "title": "Transposed evaluation is supported", "statement": "With state transposition enabled, the right-hand side evaluation transposes states before and derivatives after, and succeeds whenever the untransposed one does.", "quantifier": "all states", "why_tests_cant": "All states.", "anchors": ["neuro_shooting/shooting_integrands.py:ShootingIntegrandBase.transpose_state_dict_of_dicts", "neuro_shooting/shooting_integrands.py:ShootingIntegrandBase.forward"]}
{"id": "C34", "title": "Externally managed parameters work with autodiff costate evolution", "statement": "Evaluating the right-hand side with particle-free (externally managed) parameters succeeds both with analytic and with autodiff costate evolution.", "quantifier": "all states and times", "why_tests_cant": "All states.", "anchors": ["neuro_shooting/shooting_integrands.py:ShootingIntegrandBase.compute_gradients_autodiff", "neuro_shooting/shooting_integrands.py:ShootingIntegrandBase.compute_lagrangian", "neuro_shooting/shooting_blocks.py:ParticleFreeParameterFunc"]}
{"id": "C35", "title": "Parameters minimise the reduced energy", "statement": "For models linear in the parameters the computed parameters are the unique minimiser of weighted kinetic energy minus the linear form given by the gradient, whenever all weights are positive; kinetic energy is non-negative and zero only for zero parameters.", "quantifier": "all parameter dimensions, positive weights and gradients over the reals", "why_tests_cant": "Optimality over a continuum.", "anchors": ["neuro_shooting/shooting_integrands.py:ShootingIntegrandLinearInParameterBase.compute_parameters_directly", "neuro_shooting/shooting_integrands.py:ShootingIntegrandBase.divide_and_store_in_parameter_objects", "neuro_shooting/shooting_integrands.py:ShootingIntegrandBase.compute_kinetic_energy"]}
{"id": "C36", "title": "Iterative parameter solver", "statement": "The fixed-iteration gradient scheme for models non-linear in their parameters has, for a quadratic energy with weight w and linear form g, error exactly (1-w/2)^5 times the initial error (ten iterations: (1-w*lr)^n), hence converges as iterations grow exactly for 0<w<4.", "quantifier": "all weights, gradients and starting points over the reals", "why_tests_cant": "Continuum of inputs; divergence threshold.", "anchors": ["neuro_shooting/shooting_integrands.py:ShootingIntegrandNonlinearInParameterBase"]}
{"id": "C37", "title": "Particles are not influenced by the data", "statement": "The evolution of states and costates (hence the parameters at every time) is the same whatever data are transported, for any explicit integration scheme and any number of steps.", "quantifier": "all data, all states, all step counts and step sizes", "why_tests_cant": "Non-interference is a two-run property over unbounded executions.", "anchors": ["neuro_shooting/shooting_integrands.py:ShootingIntegrandBase.compute_gradients", "neuro_shooting/shooting_integrands.py:ShootingIntegrandBase.forward"]}
{"id": "C38", "title": "Batch elements are independent", "statement": "The trajectory of one data sample depends only on its own initial value and the particles, not on other samples in the batch or on the batch size.", "quantifier": "all batches, batch sizes, step counts", "why_tests_cant": "Two-run property over unbounded batches and executions.", "anchors": ["neuro_shooting/shooting_integrands.py:ShootingIntegrandBase.rhs_advect_data_dict_of_dicts", "neuro_shooting/shooting_models.py:AutoShootingIntegrandModelUpDown.rhs_advect_state"]}
{"id": "C39", "title": "Analytic shooting equations equal the autodiff ones", "statement": "For the up-down, simple and universal models the hand-written costate equations and parameter formulas equal the derivatives of the reduced Lagrangian obtained by differentiation.", "quantifier": "all dimensions, particle numbers, weights, states and costates over the reals, differentiable nonlinearity", "why_tests_cant": "Equality of two functions on a continuum of states and all dimensions.", "anchors": ["neuro_shooting/shooting_models.py:AutoShootingIntegrandModelUpDown", "neuro_shooting/shooting_models.py:AutoShootingIntegrandModelSimple", "neuro_shooting/shooting_models.py:AutoShootingIntegrandModelUpDownUniversal", "neuro_shooting/shooting_integrands.py:AutogradShootingIntegrandBase.rhs_advect_costate"]}
{"id": "C40", "title": "Activation functions come with their derivatives", "statement": "For each supported nonlinearity name the returned derivative function is the derivative of the returned activation function at every point of differentiability; names are case-insensitive and unknown names raise ValueError.", "quantifier": "all real arguments and all names", "why_tests_cant": "Equality of functions on a continuum.", "anchors": ["neuro_shooting/activation_functions_and_derivatives.py:get_nonlinearity"]}
{"id": "C41", "title": "Right-hand side shapes match state shapes", "statement": "For every shipped vector model and every admissible feature count, inflation factor, particle number and batch shape the time derivative of each state has the shape of that state.", "quantifier": "all feature counts, inflation factors, particle numbers", "why_tests_cant": "All size parameters.", "anchors": ["neuro_shooting/shooting_models.py:AutoShootingIntegrandModelUpDown", "neuro_shooting/shooting_models.py:AutoShootingIntegrandModelSimple", "neuro_shooting/shooting_models.py:AutoShootingIntegrandModelUpdownSymmetrized", "neuro_shooting/shooting_models.py:AutoShootingOptimalTransportSimple"]}
{"id": "C42", "title": "Convolutional models preserve the spatial size", "statement": "A convolutional shooting model with filter size 3 preserves image height and width for all sizes; with other filter sizes the right-hand side does not have the state's shape.", "quantifier": "all image sizes and filter sizes", "why_tests_cant": "All sizes.", "anchors": ["neuro_shooting/shooting_models.py:AutoShootingIntegrandModelUpDownConv2D", "neuro_shooting/overwrite_classes.py:SNN_Conv2d"]}
{"id": "C43", "title": "Layers without bias are usable", "statement": "A parameterised layer constructed without bias (or without affine parameters) can be evaluated.", "quantifier": "all layer configurations", "why_tests_cant": "All configurations.", "anchors": ["neuro_shooting/overwrite_classes.py:SNN_Conv2d", "neuro_shooting/overwrite_classes.py:SNN_Linear", "neuro_shooting/overwrite_classes.py:SNN_GroupNorm", "neuro_shooting/overwrite_classes.py:RemoveParameters"]}
{"id": "C44", "title": "Removing parameters from a layer", "statement": "Turning a layer into a parameter object moves each of its non-None parameters into its parameter dictionary exactly once (same values), gives each a weight, and leaves nothing registered in the layer.", "quantifier": "all layers' parameter families", "why_tests_cant": "All families of parameters.", "anchors": ["neuro_shooting/overwrite_classes.py:RemoveParameters"]}
{"id": "C45", "title": "Striding subsamples consistently", "statement": "Striding keeps along each strided dimension exactly floor(n/stride) elements at positions n mod stride + i*stride with unchanged values, leaves other dimensions alone, applies the same positions to same-sized states, costates and data, and rejects batch/channel striding with ValueError.", "quantifier": "all shapes, strides and stride dimensions", "why_tests_cant": "All sizes and strides.", "anchors": ["neuro_shooting/striding_block.py:ShootingStridingBlock"]}
{"id": "C46", "title": "Striding an odd extent keeps the centre element", "statement": "As its comment says, striding picks the center element if there is an odd number of elements.", "quantifier": "all odd extents and strides", "why_tests_cant": "All sizes and strides.", "anchors": ["neuro_shooting/striding_block.py:ShootingStridingBlock._stride_tensor_single_dimension"]}
{"id": "C47", "title": "Learning rates stay above the minimum and only decrease", "statement": "Over any sequence of scheduler steps every group's learning rate is non-increasing, and never below its minimum if it started there.", "quantifier": "all metric histories (including NaN/inf comparisons abstracted), factors in [0,1), group counts", "why_tests_cant": "Unbounded histories.", "anchors": ["neuro_shooting/custom_lr_scheduler.py:CustomReduceLROnPlateau.step"]}
{"id": "C48", "title": "Learning rates are only reduced after patience is exhausted", "statement": "A learning rate changes only at a step that ends a run of more than `patience` consecutive non-improving epochs outside cooldown, and two reductions are separated by at least cooldown+patience+1 steps.", "quantifier": "all metric histories", "why_tests_cant": "Unbounded histories.", "anchors": ["neuro_shooting/custom_lr_scheduler.py:CustomReduceLROnPlateau.step"]}
{"id": "C49", "title": "Convergence flag is sticky and meaningful", "statement": "The convergence flag is never reset once set, and is set only at a step where some group's reduction would be at most eps.", "quantifier": "all metric histories", "why_tests_cant": "Unbounded histories.", "anchors": ["neuro_shooting/custom_lr_scheduler.py:CustomReduceLROnPlateau.has_convergence_been_reached"]}
{"id": "C50", "title": "Scheduler state save/restore", "statement": "Restoring a saved scheduler state into another scheduler on the same optimizer state makes all later steps behave identically.", "quantifier": "all saved states and continuations", "why_tests_cant": "Bisimulation over unbounded continuations.", "anchors": ["neuro_shooting/custom_lr_scheduler.py:CustomReduceLROnPlateau.state_dict", "neuro_shooting/custom_lr_scheduler.py:CustomReduceLROnPlateau.load_state_dict"]}
{"id": "C51", "title": "A constant metric is never an improvement", "statement": "In the default relative minimisation mode repeating the same metric value counts as a bad epoch, so the learning rate is eventually reduced.", "quantifier": "all metric values", "why_tests_cant": "All real values including negatives.", "anchors": ["neuro_shooting/custom_lr_scheduler.py:CustomReduceLROnPlateau._cmp"]}
{"id": "C52", "title": "Parameter sweep is the Cartesian product", "statement": "Sweeping over a dictionary of value lists returns exactly the Cartesian product of the lists, in lexicographic order of the key order, each combination once per multiplicity.", "quantifier": "all key sets and value lists", "why_tests_cant": "Unbounded recursion with a shared mutable dictionary.", "anchors": ["neuro_shooting/command_line_execution_tools.py:recursively_sweep_parameters"]}
{"id": "C53", "title": "Successive sweeps are independent", "statement": "The result of a sweep does not depend on sweeps done earlier in the same process.", "quantifier": "all histories of sweeps", "why_tests_cant": "State hidden in default arguments, all histories.", "anchors": ["neuro_shooting/command_line_execution_tools.py:recursively_sweep_parameters", "neuro_shooting/experiment_utils.py:sweep_parameters"]}
{"id": "C54", "title": "Merging swept arguments into the template", "statement": "Merging keeps template entries that are not swept, sets swept values, turns True into a flag and leaves the template itself unchanged; False removes the flag.", "quantifier": "all templates and swept arguments", "why_tests_cant": "All dictionaries.", "anchors": ["neuro_shooting/experiment_utils.py:merge_args", "neuro_shooting/command_line_execution_tools.py:_make_arg_list"]}
{"id": "C55", "title": "Different configurations get different experiment names", "statement": "Two different swept configurations never share an output directory, so no run is skipped because of another configuration's results.", "quantifier": "all pairs of configurations", "why_tests_cant": "Injectivity over all pairs.", "anchors": ["neuro_shooting/experiment_utils.py:create_experiment_name", "neuro_shooting/experiment_utils.py:sweep_parameters"]}
{"id": "C56", "title": "Parameter counts and freezing", "statement": "The overall parameter count is the sum of fixed and optimised counts and freezing or unfreezing named parameters moves exactly their element counts between the two, touching nothing else; an unknown name raises KeyError.", "quantifier": "all models' parameter lists and name lists", "why_tests_cant": "All models and freeze histories.", "anchors": ["neuro_shooting/utils.py:compute_number_of_parameters", "neuro_shooting/utils.py:_freeze_or_unfreeze_parameters"]}
{"id": "C57", "title": "Residual network channel bookkeeping", "statement": "In the residual network, the channels carried after layer i equal layer_channels[i] because each layer's first block adds the difference; block names are unique, and a decreasing channel list is rejected or impossible.", "quantifier": "all channel lists and block counts", "why_tests_cant": "All configurations.", "anchors": ["neuro_shooting/res_net.py:BasicResNet"]}
{"id": "C58", "title": "Long-range validation chunks cover the trajectory", "statement": "Chunked validation predictions fill every time index, consecutive chunks overlap in exactly one time point and each chunk has at least two points; chunking always terminates.", "quantifier": "all trajectory lengths and chunk sizes", "why_tests_cant": "Termination and coverage for all sizes.", "anchors": ["demos/neurips20/spiral.py:get_time_chunks", "demos/neurips20/spiral.py:compute_validation_data"]}
{"id": "C59", "title": "Sampled training windows stay inside the trajectory", "statement": "Every sampled start index plus any offset below the batch time is a valid trajectory index, for both sampling strategies.", "quantifier": "all trajectory lengths, batch times, random draws", "why_tests_cant": "All random draws.", "anchors": ["demos/neurips20/spiral.py:get_batch", "demos/neurips20/spiral.py:create_uniform_distance_selection_array"]}
{"id": "C60", "title": "Complexity measure ignores time restarts", "statement": "The complexity integral adds, for each pair of consecutive recorded times, the time difference times the log of the midpoint value, and steps back in time contribute nothing.", "quantifier": "all recordings", "why_tests_cant": "Unbounded recordings.", "anchors": ["neuro_shooting/validation_measures.py:compute_complexity_measures"]}
{"id": "C61", "title": "Energy conservation", "statement": "Along the analytic flow of the up-down model the reduced Hamiltonian is conserved: its derivative along the shooting equations is zero.", "quantifier": "all states, costates, dimensions and particle numbers over the reals", "why_tests_cant": "Identity on a continuum for all dimensions.", "anchors": ["neuro_shooting/shooting_models.py:AutoShootingIntegrandModelUpDown", "neuro_shooting/shooting_integrands.py:ShootingIntegrandBase.compute_reduced_lagrangian"]}
{"id": "C62", "title": "Scalar variables survive the round trip", "statement": "A zero-dimensional (scalar) tensor stored as a state, costate or data variable is vectorised and disassembled back like any other tensor.", "quantifier": "every triple of dictionaries containing scalar tensors", "why_tests_cant": "The demos and tests only use tensors of rank two and more; the failure hides in the type of torch.prod of an empty shape.", "anchors": ["neuro_shooting/state_costate_and_data_dictionary_utils.py:_disassemble_dict"]}
{"id": "C63", "title": "A time vector gives the per-time results", "statement": "Integrating with a time vector returns, at position i of every output, what setting the scalar integration time to the i-th entry returns.", "quantifier": "all blocks, pass-through dictionaries and time vectors", "why_tests_cant": "Tests only look at one block without pass-through, where the concatenated axes happen to agree.", "anchors": ["neuro_shooting/shooting_blocks.py:ShootingBlockBase.forward", "neuro_shooting/shooting_blocks.py:ShootingBlockBase.set_integration_time_vector"]}
{"id": "C64", "title": "State parameters can be kept at zero", "statement": "A block can be constructed with keep_initial_state_parameters_at_zero set; its initial state parameters are then fixed to zero.", "quantifier": "all initial states and costates", "why_tests_cant": "No test or demo constructs a block with the flag set.", "anchors": ["neuro_shooting/shooting_blocks.py:ShootingBlockBase.__init__", "neuro_shooting/shooting_blocks.py:ShootingBlockBase._optionally_register_parameters"]}
{"id": "C65", "title": "Pass-through blocks are enlarged in every call", "statement": "A pass-through block whose variables are smaller than the block's own is enlarged in a later forward call exactly as in a first one.", "quantifier": "all histories of calls on a block", "why_tests_cant": "Depends on whether the first call of the history had pass-through blocks.", "anchors": ["neuro_shooting/shooting_blocks.py:ShootingBlockBase.forward", "neuro_shooting/shooting_blocks.py:ShootingBlockBase._optionally_enlarge_pass_through_variables"]}
{"id": "C66", "title": "Forward calls are independent of each other", "statement": "Once a block has been executed, the result of a forward call does not depend on which forward and parameters calls were made before it, whether they failed or succeeded.", "quantifier": "all histories of calls and all arguments", "why_tests_cant": "The block keeps scratch attributes between calls; a test covers finitely many histories.", "anchors": ["neuro_shooting/shooting_blocks.py:ShootingBlockBase.forward", "neuro_shooting/shooting_blocks.py:ShootingBlockBase.get_initial_conditions_from_data"]}
{"id": "C67", "title": "Zero dynamics return the inputs", "statement": "If the vector field is zero, forward returns the integrand's initial data for its input as the result and data, and the pass-through states and costates together with the block's own parameters.", "quantifier": "all blocks, inputs, pass-through dictionaries and integration times", "why_tests_cant": "Quantifies over all shapes, names and numbers of pass-through blocks.", "anchors": ["neuro_shooting/shooting_blocks.py:ShootingBlockBase.forward"]}
{"id": "C68", "title": "A stagnating metric eventually reports convergence", "statement": "With a positive eps, a metric that stays constant (non-negative, default relative minimisation mode) makes the scheduler report convergence after finitely many steps.", "quantifier": "all factors below one, patiences, cooldowns, minimum learning rates, starting learning rates and metric values", "why_tests_cant": "Needs a bound on the number of reductions for all parameters.", "anchors": ["neuro_shooting/custom_lr_scheduler.py:CustomReduceLROnPlateau.step", "neuro_shooting/custom_lr_scheduler.py:CustomReduceLROnPlateau._reduce_lr"]}
{"id": "C69", "title": "Classifier sees the last shooting block", "statement": "In the residual network the input of the final classification layers is the output of the last shooting block that was applied.", "quantifier": "all layer channels and numbers of blocks per layer", "why_tests_cant": "Quantifies over all network layouts.", "anchors": ["neuro_shooting/res_net.py:BasicResNet.forward"]}
{"id": "C70", "title": "Chunked validation equals direct prediction", "statement": "For an exact flow, predicting the validation trajectory chunk by chunk, each chunk starting from the end of the previous one, gives the same trajectory as predicting it in one go.", "quantifier": "all flows, time vectors and chunk lengths of at least two", "why_tests_cant": "Quantifies over all flows, lengths and chunk sizes.", "anchors": ["demos/neurips20/spiral.py:compute_validation_data", "demos/neurips20/spiral.py:get_time_chunks"]}
{"id": "C71", "title": "Every window of the trajectory can be drawn", "statement": "Every window of batch_time consecutive points of the training trajectory can be drawn by the batch sampler.", "quantifier": "all trajectories and batch lengths", "why_tests_cant": "Needs reasoning about all random draws.", "anchors": ["demos/neurips20/spiral.py:get_batch"]}
{"id": "C72", "title": "Moving a layer takes all of it along", "statement": "Moving or converting a layer (to, cuda, double, ...) converts every parameter in its dictionary and every parameter weight that is a tensor, and nothing else.", "quantifier": "all layers, conversions and earlier operations", "why_tests_cant": "Quantifies over all layers, conversions and operation sequences.", "anchors": ["neuro_shooting/overwrite_classes.py:RemoveParameters._apply", "neuro_shooting/overwrite_classes.py:RemoveParameters.to"]}
{"id": "C73", "title": "Zero dictionaries match the dictionary they stand for", "statement": "A dictionary of zeros made for a given dictionary has the same variable names in the same order and tensors of the same shape, with the first dimension replaced by the batch size and the second by the channel size where these are given; the batch and channel sizes reported for blocks that agree in them are their common sizes, and an IndexError is raised where a tensor has too few dimensions.", "quantifier": "all dictionaries, tensor shapes and sizes", "why_tests_cant": "Quantifies over all dictionaries and shapes.", "anchors": ["neuro_shooting/state_costate_and_data_dictionary_utils.py:_get_zero_dict_like", "neuro_shooting/state_costate_and_data_dictionary_utils.py:_get_zero_dict_like_with_matched_batch_size", "neuro_shooting/state_costate_and_data_dictionary_utils.py:_get_zero_dict_like_with_matched_batch_and_channel_size", "neuro_shooting/state_costate_and_data_dictionary_utils.py:extract_batch_size_from_dict_of_dicts", "neuro_shooting/state_costate_and_data_dictionary_utils.py:extract_channel_size_from_dict_of_dicts"]}
{"id": "C74", "title": "Initial particles have the requested size and values", "statement": "Every parameter initialiser returns a tensor of exactly the requested size (number of particles, then the particle dimension and particle size); its entries are zero if zeros are requested, the given constant if a constant is requested, random noise times the random magnitude for the random initialisers, and the repeated sample batch plus that noise for the sample initialisers. Inconsistent arguments raise an error.", "quantifier": "all initialisers, sizes, constants, sample batches and random draws", "why_tests_cant": "Quantifies over all sizes, sample batches and random draws.", "anchors": ["neuro_shooting/parameter_initialization.py:ParameterInitializer", "neuro_shooting/parameter_initialization.py:VectorEvolutionParameterInitializer", "neuro_shooting/parameter_initialization.py:VectorEvolutionSampleBatchParameterInitializer", "neuro_shooting/parameter_initialization.py:ConvolutionEvolutionParameterInitializer"]}
{"id": "C75", "title": "The hook records every evaluation completely", "statement": "After any sequence of evaluations recorded by parameter_evolution_hook, the record holds under 't', '<block>.<kind>.<variable>', '<object>.<parameter>', 'sqr_<norm>_norm_<object>.<parameter>' and 'sum_sqr_<norm>_norm' exactly the times, states, costates, data, derivatives, parameters, squared norms and their sums of all evaluations, in the order of the evaluations.", "quantifier": "all sequences of evaluations, dictionaries and parameter objects", "why_tests_cant": "Quantifies over all sequences of evaluations and dictionaries.", "anchors": ["neuro_shooting/shooting_hooks.py:parameter_evolution_hook", "neuro_shooting/shooting_hooks.py:record_generic_dict_of_dicts", "neuro_shooting/shooting_hooks.py:compute_parameter_norms"]}
{"id": "C76", "title": "The recorded energy is the kinetic energy", "statement": "The energy recorded by parameter_evolution_hook at an evaluation is the kinetic energy of the integrand at its parameters.", "quantifier": "all parameter objects and weights", "why_tests_cant": "Quantifies over all parameters and weights.", "anchors": ["neuro_shooting/shooting_hooks.py:parameter_evolution_hook", "neuro_shooting/shooting_integrands.py:compute_kinetic_energy"]}
{"id": "C77", "title": "The recording hook works with every shipped model", "statement": "parameter_evolution_hook succeeds at every evaluation of every shipped model; a record that is not a defaultdict raises a ValueError.", "quantifier": "all sequences of evaluations", "why_tests_cant": "Quantifies over all models and evaluations.", "anchors": ["neuro_shooting/shooting_hooks.py:parameter_evolution_hook", "neuro_shooting/shooting_hooks.py:compute_parameter_norms"]}
{"id": "C78", "title": "Concatenated results are the separate results side by side", "statement": "A forward call of a concatenating block gives the same block state afterwards as the same call without concatenation; its state, costate and data results are one entry under the block's name in which every variable of the separate blocks is found, in order, at its own range along the concatenation dimension (the data's own dimension for data), and the extent is the sum of the extents. A single output tensor is returned unchanged; several output blocks are returned as one tensor laid side by side.", "quantifier": "all blocks, integrands, solvers, inputs and pass-through blocks whose results can be concatenated", "why_tests_cant": "Quantifies over all blocks, solvers, inputs and numbers of chained blocks.", "anchors": ["neuro_shooting/shooting_blocks.py:ShootingBlockBase.forward", "neuro_shooting/state_costate_and_data_dictionary_utils.py:concatenate_dict_of_dicts"]}
{"id": "C79", "title": "Options of a run arrive at the script unchanged", "statement": "The command built by run_command_with_args starts the script with exactly the options given: each key as --key followed by its printed value as one argument (nothing for None), in order, whatever the log file and device; the device number is set as CUDA_VISIBLE_DEVICES for that program.", "quantifier": "all scripts, option dictionaries, interpreter paths, devices and log files", "why_tests_cant": "Depends on how the shell reads every possible value; tests would have to start shells with all strings.", "anchors": ["neuro_shooting/command_line_execution_tools.py:run_command_with_args", "neuro_shooting/command_line_execution_tools.py:execute_python_script_via_bash"]}
{"id": "C80", "title": "The chosen interpreter runs the script", "statement": "The script is run by the interpreter given as path_to_python.", "quantifier": "all scripts, options and paths", "why_tests_cant": "Whether an alias takes effect depends on the kind of shell, not on the string built.", "anchors": ["neuro_shooting/command_line_execution_tools.py:run_command_with_args"]}
{"id": "C81", "title": "Configuration strings carry their parts", "statement": "Adding parts one after the other to a configuration string gives the escaped form of the parts joined by semicolons; a key-value string is the escaped form of the joined key=value texts; splitting at semicolons gives the parts back.", "quantifier": "all lists of parts, all dictionaries", "why_tests_cant": "Arbitrary strings and any number of additions.", "anchors": ["neuro_shooting/command_line_execution_tools.py:add_to_config_string", "neuro_shooting/command_line_execution_tools.py:create_kv_string", "neuro_shooting/command_line_execution_tools.py:_escape_semicolons"]}
{"id": "C82", "title": "An autoencoder reconstructs every sample at every time", "statement": "The autoencoder around a shooting block returns, for every batch of images, the latent trajectories (sample, time, latent dimension) exactly as integrated by the block from the encoded images, and for each sample and time one 28x28 image decoded from the latent vector of that sample and time.", "quantifier": "all batches, image sizes, numbers of times and latent dimensions, all layer functions and blocks", "why_tests_cant": "Reshapes and transpositions mix samples and times only for particular sizes; tests fix one size.", "anchors": ["demos/neurips20/autoencoder.py:ShootingAE.forward"]}
{"id": "C83", "title": "The masked training step compares matching timepoints", "statement": "In the training step with skipped timepoints, each decoded image is compared with the input image of the same sample and timepoint; per sample the kept timepoints are in order, exactly the requested number is skipped, and the evaluation timepoint is never used.", "quantifier": "all shufflings, sequences, numbers skipped, evaluation timepoints, layer functions", "why_tests_cant": "Depends on the random permutation; a mismatch only worsens the training silently.", "anchors": ["demos/neurips20/autoencoder.py:ShootingAEMasked.forward", "demos/neurips20/rot.py:main"]}
{"id": "C84", "title": "Training steps run in training mode, evaluations in evaluation mode", "statement": "In every epoch of a training script all training steps are done with the model in training mode and every evaluation is done in evaluation mode with the values reached after that epoch; evaluations do not change the model.", "quantifier": "all numbers of epochs, data, layer functions and mode-dependent behaviours", "why_tests_cant": "The mode only shows in running statistics, epochs later; tests run one epoch.", "anchors": ["demos/neurips20/rot.py:main", "demos/neurips20/rot.py:evaluate", "demos/neurips20/balls.py:main", "demos/neurips20/cc.py:train", "demos/neurips20/cc.py:test"]}
{"id": "C85", "title": "The best model is on disk", "statement": "After training, balls.py has saved the model of the epoch with the lowest validation error together with that epoch's validation and test results.", "quantifier": "all sequences of validation errors, including infinities and NaN", "why_tests_cant": "Depends on the order of arbitrarily many errors and on NaN comparisons.", "anchors": ["demos/neurips20/balls.py:main"]}
{"id": "C86", "title": "Test metrics do not depend on batching", "statement": "For every division of the test set into batches, the test loss is the average cross entropy of the samples and the accuracy is the percentage of samples whose predicted class (1 exactly for positive output) is the label.", "quantifier": "all test sets, batchings and per-sample models", "why_tests_cant": "Holds over all real outputs, including the tie at 0.5.", "anchors": ["demos/neurips20/cc.py:test"]}
{"id": "C87", "title": "The reported training loss is the average over samples", "statement": "The training loss reported for an epoch is sim_weight times the average loss of the samples seen.", "quantifier": "all batchings and sample losses", "why_tests_cant": "Only visible with an incomplete last batch.", "anchors": ["demos/neurips20/cc.py:train"]}
{"id": "C88", "title": "Concentric sphere data", "statement": "The data set has exactly the requested numbers of points, the inner ones first with label 0 and the outer ones with label 1, each of the requested dimension and with radius in its range (upper end excluded).", "quantifier": "all dimensions, ranges, sizes and random values", "why_tests_cant": "Random real numbers.", "anchors": ["demos/neurips20/utils.py:ConcentricSphere", "demos/neurips20/utils.py:random_point_in_sphere"]}
{"id": "C89", "title": "Points are spread evenly over the shell", "statement": "A point drawn between two radii is uniform in volume: its radius is at most r for exactly the share of random numbers that the volume within r has of the shell.", "quantifier": "all dimensions, radii and random values", "why_tests_cant": "A law over all random values; sampling tests cannot decide it.", "anchors": ["demos/neurips20/utils.py:random_point_in_sphere"]}
{"id": "C90", "title": "Evaluation loaders present every sample, in the training image size", "statement": "The loaders of get_data_loaders present, for evaluation, every sample of their data set, and all images have the same size for training and testing; unsupported data sets are rejected with ValueError.", "quantifier": "all data sets, batch sizes, shufflings", "why_tests_cant": "Dropped samples only show when the batch size does not divide the data set.", "anchors": ["neuro_shooting/data_loaders.py:get_data_loaders"]}
{"id": "C91", "title": "Balanced subsets and array conversion", "statement": "sample returns N members with label 1 followed by N with label 0 for every random draw and asserts when more is asked than there are samples or only one class exists; dataset_to_numpy returns the samples and labels in order.", "quantifier": "all label lists, N and random draws", "why_tests_cant": "Random draws.", "anchors": ["demos/neurips20/utils.py:sample", "demos/neurips20/utils.py:dataset_to_numpy"]}
{"id": "C92", "title": "Every network on offer can be trained", "statement": "For every network the command line of simple_functional_mapping_example.py or spiral.py offers, and for every other option value in its documented range, a run trains to the end without an exception.", "quantifier": "all combinations of option values, all numbers of epochs", "why_tests_cant": "The options combine; a failure depends on which variables were assigned on the path taken.", "anchors": ["demos/neurips20/simple_functional_mapping_example.py:main", "demos/neurips20/spiral.py:main"]}
{"id": "C93", "title": "Saved losses are what they are called", "statement": "The results saved at the end of a run under test_loss, sim_loss, norm_loss and norm_penalty are the total loss, the weighted deviation of the predictions, the weighted norm penalty and the norm penalty of the block.", "quantifier": "all weights, predictions and penalties", "why_tests_cant": "Real-valued, and wrong names give plausible numbers.", "anchors": ["demos/neurips20/simple_functional_mapping_example.py:compute_loss", "demos/neurips20/spiral.py:compute_loss"]}
{"id": "C94", "title": "Training schedule", "statement": "A run trains niters epochs in order, each with all training batches, then evaluates at multiples of test_freq, steps the scheduler there, and shows figures at multiples of viz_freq.", "quantifier": "all option values and numbers of epochs", "why_tests_cant": "Depends on arbitrary frequencies and epoch numbers.", "anchors": ["demos/neurips20/simple_functional_mapping_example.py:main", "demos/neurips20/spiral.py:main"]}
{"id": "C95", "title": "Positions stay fixed until the given epoch", "statement": "With custom parameter freezing the particle positions are fixed in exactly the training steps of the epochs before unfreeze_parameters_at_iter (in all, if negative); without it they are never fixed.", "quantifier": "all option values, epochs and training steps", "why_tests_cant": "Needs complete training runs for all epoch numbers.", "anchors": ["demos/neurips20/simple_functional_mapping_example.py:main", "demos/neurips20/spiral.py:main"]}
{"id": "C96", "title": "Function data", "statement": "The data loaders present samples of the chosen function with inputs within the chosen range: full training batches without repetition and one batch with all samples for evaluation; uniform inputs are equidistant from end to end; unknown functions raise ValueError.", "quantifier": "all sizes, ranges, random values and shufflings", "why_tests_cant": "Random real numbers.", "anchors": ["demos/neurips20/simple_functional_mapping_example.py:get_function_data_loaders", "demos/neurips20/simple_functional_mapping_example.py:FunctionDataset", "demos/neurips20/simple_functional_mapping_example.py:fcn"]}
{"id": "C97", "title": "Figures show all data", "statement": "The plotted range contains every point of the function over the input range.", "quantifier": "all input ranges and points", "why_tests_cant": "A statement about all real points of a curve.", "anchors": ["demos/neurips20/simple_functional_mapping_example.py:_show_figure"]}
{"id": "C98", "title": "Discrete networks compute their residual recursions, and the recurrent one approximates a flow", "statement": "For every number of layers and hidden units the discrete networks return, for every sample, the value of their residual recursion; recurrent networks equal layered ones with shared weights; the outputs of ResNetRNN converge, with error of order 1/n in the number n of layers, to the solution of the differential equation given by its weights; parameter counts are linear in the layers.", "quantifier": "all layers, sizes, weights, inputs", "why_tests_cant": "A limit over the number of layers and real arithmetic.", "anchors": ["demos/neurips20/simple_discrete_neural_networks.py:ResNet", "demos/neurips20/simple_discrete_neural_networks.py:ResNetUpDown", "demos/neurips20/simple_discrete_neural_networks.py:DoubleResNetUpDown", "demos/neurips20/simple_discrete_neural_networks.py:DoubleResNetUpDownRNN", "demos/neurips20/simple_discrete_neural_networks.py:ResNetRNN", "demos/neurips20/simple_discrete_neural_networks.py:MyCNNResRecNet"]}
{"id": "C99", "title": "Parameters are collected by layer", "statement": "For a network whose layers have parameters of the same names and sizes, row i of the array collected for a parameter is this parameter of layer i.", "quantifier": "all numbers of layers, parameter names (dots included), values", "why_tests_cant": "Needs arbitrary layer numbers and names; wrong rows only distort a figure.", "anchors": ["demos/neurips20/simple_functional_mapping_example.py:collect_and_sort_parameter_values_across_layers"]}
{"id": "C100", "title": "Blocks are evaluated together and each gets its own derivatives", "statement": "When parameters are concatenated, the model equations are evaluated once for all blocks laid side by side, and every block receives exactly the part of the derivative that belongs to it, with its shape; the same for states, data and analytic costates.", "quantifier": "all models, states, numbers and widths of blocks, times", "why_tests_cant": "Arbitrarily many blocks of different widths along an arbitrary dimension.", "anchors": ["neuro_shooting/shooting_integrands.py:rhs_advect_state_dict_of_dicts", "neuro_shooting/shooting_integrands.py:rhs_advect_costate_dict_of_dicts_analytic", "neuro_shooting/shooting_integrands.py:compute_gradients"]}
{"id": "C101", "title": "Vector models compute their equations", "statement": "The right-hand side of every vector model, evaluated on states and parameters of its sizes, gives for each particle, row and feature the value of the model's differential equation (affine maps of states or of their nonlinearity; dampening constants do not move).", "quantifier": "all particle numbers, dimensions, sizes, parameters, nonlinearities", "why_tests_cant": "Real arithmetic over arbitrary sizes.", "anchors": ["neuro_shooting/shooting_models.py:AutoShootingIntegrandModelUpDown.rhs_advect_state", "neuro_shooting/shooting_models.py:AutoShootingIntegrandModelGeneralUpDown.rhs_advect_state", "neuro_shooting/shooting_models.py:AutoShootingIntegrandModelDampenedUpDown.rhs_advect_state", "neuro_shooting/shooting_models.py:AutoShootingIntegrandModelUpdownSymmetrized.rhs_advect_state"]}
{"id": "C102", "title": "Dampening dampens", "statement": "In the dampened models the dampened states, left alone (all layers zero), never move away from zero along any solution.", "quantifier": "all solutions, sizes, particles", "why_tests_cant": "About all solutions of a differential equation.", "anchors": ["neuro_shooting/shooting_models.py:AutoShootingIntegrandModelUpdownDampenedQ2.rhs_advect_state", "neuro_shooting/shooting_models.py:AutoShootingIntegrandModelDampenedUpDown.rhs_advect_state"]}
{"id": "C103", "title": "Escaped text appears in LaTeX as it is", "statement": "For every text, escape_latex_special_characters returns a source which LaTeX typesets as exactly the characters of the text; different texts give different sources, texts can be escaped part by part, and text without special characters is unchanged.", "quantifier": "all texts", "why_tests_cant": "All strings; LaTeX is not run in tests.", "anchors": ["neuro_shooting/figure_utils.py:escape_latex_special_characters"]}
{"id": "C104", "title": "Figures are saved in three formats", "statement": "save_all_formats writes the current figure as png, pdf and pgf into the directory, creating it if needed, and changes nothing else.", "quantifier": "all directories, names, file systems", "why_tests_cant": "Depends on the whole state of the file system.", "anchors": ["neuro_shooting/figure_utils.py:save_all_formats"]}
{"id": "C105", "title": "Plot settings are restored", "statement": "setup_pgf_plotting followed by anything and reset_pgf_plotting restores backend and settings, keeping other settings; after plotting, the settings are as before.", "quantifier": "all settings, all changes in between, all plots", "why_tests_cant": "All states of a global dictionary, and exceptions at any point.", "anchors": ["neuro_shooting/figure_settings.py:setup_pgf_plotting", "neuro_shooting/figure_settings.py:reset_pgf_plotting", "neuro_shooting/vector_visualization.py:plot_temporal_data"]}
{"id": "C106", "title": "Every recorded curve gets its figure", "statement": "plot_temporal_data makes a figure of the energy and one of every recorded quantity except the time axis and the derivatives of the block, on screen or in files named after it, and touches no other file.", "quantifier": "all records, names, shapes, file systems", "why_tests_cant": "Arbitrary names and numbers of recorded quantities.", "anchors": ["neuro_shooting/vector_visualization.py:_plot_temporal_data", "neuro_shooting/vector_visualization.py:plot_temporal_data"]}
{"id": "C107", "title": "Recorded arrays are stacked unchanged", "statement": "convert_list_of_np_arrays_into_np_array returns the arrays of the list one behind the other, unchanged; a list with arrays of different shapes is rejected.", "quantifier": "all lists of arrays", "why_tests_cant": "Any number, shapes and contents of arrays.", "anchors": ["neuro_shooting/vector_visualization.py:convert_list_of_np_arrays_into_np_array"]}
{"id": "C108", "title": "The animation shows the recorded evolution in order of time", "statement": "visualize_time_evolution writes one frame per recorded evaluation, with the trajectories up to it and the particles at it, and an animation of exactly these frames in order of time; on screen it shows at most max_display figures.", "quantifier": "all records, directories, file systems", "why_tests_cant": "Any number of evaluations and any content of the directory; needs external programs.", "anchors": ["neuro_shooting/vector_visualization.py:visualize_time_evolution", "neuro_shooting/vector_visualization.py:create_animated_gif"]}
{"id": "C109", "title": "Training progress is visualised for every model", "statement": "basic_visualize draws trajectories and particles of the current model, shows or saves the figure as the options say, and leaves the plot settings as they were.", "quantifier": "all models, shapes, options, file systems", "why_tests_cant": "Figures are not checked; all combinations of shapes and options.", "anchors": ["neuro_shooting/vector_visualization.py:_basic_visualize", "neuro_shooting/vector_visualization.py:basic_visualize", "neuro_shooting/vector_visualization.py:plot_particles", "neuro_shooting/vector_visualization.py:plot_higher_order_state", "neuro_shooting/vector_visualization.py:plot_trajectories"]}
{"id": "C110", "title": "The standalone up-down script agrees with the package", "statement": "The standalone script computes the same derivatives, kinetic energy and Lagrangian as the package's up-down model; its finite differences of the Hamiltonian converge to the derivatives of the costates; advect integrates to time 1 with the midpoint rule and records the states and a constant energy.", "quantifier": "all nonlinearities, sizes, states, momenta, steps", "why_tests_cant": "The script prints and plots numbers for one size and one step; nothing compares it with the package.", "anchors": ["tests/test_standalone_shooting_updown.py:compute_rhs", "tests/test_standalone_shooting_updown.py:compute_hamiltonian", "tests/test_standalone_shooting_updown.py:finite_differences", "tests/test_standalone_shooting_updown.py:advect"]}
{"id": "C111", "title": "The scalar fixed-point check reports agreement", "statement": "raw_fixed_point_check computes the same right-hand sides, trajectories and gradients of the loss analytically and by fixed-point iteration with automatic differentiation; all printed ratios are one.", "quantifier": "all differentiable nonlinearities, states, costates, steps, learning rates, numbers of iterations", "why_tests_cant": "The script prints ratios for one random scalar and leaves the comparison to the reader.", "anchors": ["tests/raw_fixed_point_check.py:rhs_shooting_analytic", "tests/raw_fixed_point_check.py:rhs_shooting_autograd", "tests/raw_fixed_point_check.py:compute_parameter_autograd", "tests/raw_fixed_point_check.py:euler_forward"]}
{"id": "C112", "title": "Hand-made shooting equations agree with the package", "statement": "The weight, bias and derivatives of states and costates computed by hand in autograd_versus_manualgrad are the same as those of the package's simple model.", "quantifier": "all nonlinearities, numbers of particles and features, states, costates", "why_tests_cant": "The script prints differences for one random input and four particles with three features.", "anchors": ["tests/autograd_versus_manualgrad.py", "neuro_shooting/shooting_models.py:AutoShootingIntegrandModelSimple"]}
{"id": "C113", "title": "A residual network has exactly the expected parameters", "statement": "After passes of images, the named parameters of a BasicResNet are the convolution, the normalisation, four particle tensors per layer for the additional channels, four enlargement tensors where the strided particles are smaller than the next layer's, and the linear layer, each with the expected number of elements; later passes do not change the list. Where strided particles are larger than the next layer's, every pass raises ValueError.", "quantifier": "all numbers of layers, blocks per layer, channels, particles, particle sizes, strides, classes, sequences of images of varying sizes, successful or failing later passes", "why_tests_cant": "The script counts the parameters of one network with two layers.", "anchors": ["neuro_shooting/res_net.py:BasicResNet", "neuro_shooting/shooting_blocks.py:ShootingBlockBase.forward", "neuro_shooting/striding_block.py:ShootingStridingBlock.forward", "tests/striding_and_upsampling.py"]}
{"id": "C114", "title": "The parameter report detects deviations", "statement": "The report of striding_and_upsampling shows no failed test exactly when the network has the expected parameters, and shows none for the networks it is written for.", "quantifier": "all lists of parameters and expectations; all two-layer networks for one-channel images", "why_tests_cant": "The script prints counts for one network and leaves the comparison to the reader.", "anchors": ["tests/striding_and_upsampling.py:count_print_and_compare_parameters", "tests/striding_and_upsampling.py:expected_parameters"]}
{"id": "C115", "title": "Switching to the hand-written equations changes nothing", "statement": "With particle dimension 1, running a block with use_analytic_solution=True and with False gives the same entries in every vector the integrator computes (particles, costates, data), the same norm penalty, the same loss and the same derivatives of the loss by every entry of every particle and costate; the run with the hand-written equations never fails.", "quantifier": "all seven models with correct hand-written equations, all nonlinearities with their derivative, feature sizes, inflation factors, nonzero weights, numbers of particles and samples, start values, explicit integrators with fixed programs or with step size control", "why_tests_cant": "autograd_gradient_test.py compares gradients of one random start per model up to 0.5 percent.", "anchors": ["neuro_shooting/shooting_integrands.py:ShootingIntegrandBase.compute_gradients", "neuro_shooting/shooting_integrands.py:ShootingIntegrandBase.compute_gradients_analytic", "neuro_shooting/shooting_integrands.py:ShootingIntegrandBase.compute_gradients_autodiff", "tests/autograd_gradient_test.py"]}
{"id": "C116", "title": "The gradient comparison reports agreement exactly", "statement": "The script autograd_gradient_test.py prints its congratulation exactly when, for every parameter of every model, the two gradients have the same zeros and agree up to the relative tolerance; it finishes for all gradients.", "quantifier": "all gradients of all parameters of all models, all tolerances", "why_tests_cant": "The script is run on five models at one seed; what it does with other gradients is never exercised.", "anchors": ["tests/autograd_gradient_test.py"]}
{"id": "C117", "title": "Every run started by an experiment script is accepted, with the intended settings", "statement": "For every command line accepted by one of the four run_*experiments* scripts, every command it gives to the shell starts the intended script, whose argument parser accepts the words it gets: every setting of the template, the swept values, seed and output directory have the intended values and all other arguments their defaults.", "quantifier": "all command lines, contents of the disk, outcomes of earlier runs, seeds", "why_tests_cant": "The commands run for hours on a GPU; nobody runs all combinations, and whether an option of one parser is known to another is not tested anywhere.", "anchors": ["neuro_shooting/experiment_utils.py:setup_cmdline_parsing", "demos/neurips20/run_experiments_spiral.py", "demos/neurips20/run_experiments_spiral_rnn.py", "demos/neurips20/run_long_iteration_experiments_simple_functional_mapping.py", "demos/neurips20/run_long_iteration_experiments_simple_functional_mapping_rnn.py", "demos/neurips20/spiral.py:setup_cmdline_parsing", "demos/neurips20/simple_functional_mapping_example.py:setup_cmdline_parsing"]}
{"id": "C118", "title": "An experiment script runs exactly the wanted runs", "statement": "Each of the four run_*experiments* scripts runs, for every sweep, every seed and every combination of the swept values exactly once, except those with results on disk unless recomputation is forced.", "quantifier": "all command lines, contents of the disk, outcomes of earlier runs", "why_tests_cant": "Depends on the state of the process across several sweeps and on arbitrary files left by earlier runs.", "anchors": ["demos/neurips20/run_experiments_spiral.py", "demos/neurips20/run_experiments_spiral_rnn.py", "demos/neurips20/run_long_iteration_experiments_simple_functional_mapping.py", "demos/neurips20/run_long_iteration_experiments_simple_functional_mapping_rnn.py", "neuro_shooting/experiment_utils.py:sweep_parameters", "neuro_shooting/command_line_execution_tools.py:recursively_sweep_parameters"]}
{"id": "C119", "title": "Checkpoints do not change what the default solver computes", "statement": "With the solvers euler, midpoint and rk4 of torchdiffeq and a positive step size, GenericIntegrator.integrate with nr_of_checkpoints or checkpointing_time_interval returns exactly the values it returns without checkpoints.", "quantifier": "all right-hand sides, initial values, step sizes, strictly increasing time vectors, numbers of checkpoints and checkpointing intervals", "why_tests_cant": "Whether a checkpoint adds a step depends on divisibility of times which tests do not vary; small differences disappear in a tolerance.", "anchors": ["neuro_shooting/generic_integrator.py:integrate", "neuro_shooting/generic_integrator.py:_integrate_odeint", "neuro_shooting/generic_integrator.py:_create_integration_time_intervals", "demos/neurips20/spiral.py:setup_integrator"]}
{"id": "C120", "title": "The value at a requested time does not depend on the other requested times", "statement": "With the solvers euler, midpoint and rk4 and a positive step size, the value which integrate returns for a time of a time vector is the value it returns when integrating from the first time to this time only (the comparison of tests/integration_time_test.py).", "quantifier": "all right-hand sides, initial values, step sizes, strictly increasing time vectors", "why_tests_cant": "The script compares 16 times of one model, all on the grid of steps, and prints differences without checking them.", "anchors": ["tests/integration_time_test.py", "neuro_shooting/shooting_blocks.py:set_integration_time_vector", "neuro_shooting/shooting_blocks.py:set_integration_time", "neuro_shooting/generic_integrator.py:_integrate_odeint"]}
{"id": "C121", "title": "The recording hook sees every evaluation of the solver and leaves the results alone", "statement": "Integrating with parameter_evolution_hook registered returns what integrating without it returns, and afterwards the recorded times are, run after run and step after step, exactly the times at which the method evaluates the right-hand side: the start of each step (euler), start and middle (midpoint), start, both thirds and end (rk4).", "quantifier": "all right-hand sides, initial values, step sizes, lists of strictly increasing time vectors, and parameters all of which but biases are matrices", "why_tests_cant": "The recording is only drawn; a missing or doubled evaluation is not visible in a plot.", "anchors": ["neuro_shooting/shooting_hooks.py:parameter_evolution_hook", "neuro_shooting/shooting_integrands.py:compute_gradients", "demos/neurips20/spiral.py:compute_validation_data", "neuro_shooting/generic_integrator.py:_integrate_odeint"]}
{"id": "C122", "title": "The complexity measures account for the whole evaluated time", "statement": "If the squared norms of the parameters are constantly c during all recorded runs, compute_complexity_measures of the recording gives the total time of the runs times log2 c; the measure does not depend on how the time is divided into steps, requested times and chunks.", "quantifier": "all right-hand sides, initial values, step sizes, methods euler, midpoint and rk4, numbers of runs and chunks", "why_tests_cant": "The value depends on where a method evaluates, which the tests never vary; no test calls the function.", "anchors": ["neuro_shooting/validation_measures.py:compute_complexity_measures", "neuro_shooting/shooting_hooks.py:parameter_evolution_hook", "demos/neurips20/spiral.py:get_time_chunks", "demos/neurips20/spiral.py:compute_validation_data"]}
{"id": "C123", "title": "Every batch of the spiral loaders consists of windows of the trajectory", "statement": "Whatever the generator draws, iterating the training loader of spiral.py gives as many batches as batch_size fits into the number of training samples, each consisting of batch_size windows of the trajectory in which start points, times and points per time belong together; the evaluation loaders give one batch of windows each, the same in every epoch; with long-range validation the test batch is the whole trajectory.", "quantifier": "all trajectories, time vectors, window lengths, batch sizes, sample counts, orders of iteration and draws of the generator; with and without draws by distance", "why_tests_cant": "A window shifted by one point, or one drawn beyond the end, occurs only for particular draws.", "anchors": ["demos/neurips20/spiral.py:FunctionDataset", "demos/neurips20/spiral.py:create_data", "demos/neurips20/spiral.py:get_function_data_loaders", "demos/neurips20/spiral.py:generate_data", "demos/neurips20/spiral.py:get_batch"]}
{"id": "C125", "title": "Every accepted command line of cc.py trains and saves", "statement": "Whenever argparse accepts the command line of demos/neurips20/cc.py, the program trains and tests for the given number of epochs, records one complete pass with the hook in each epoch (times, particles and all weights and biases, one entry per evaluation), and writes the model, the recordings and the results.", "quantifier": "all command lines, all random and trained values at every forward pass, all sequences of evaluations of the solver in every pass, all nonlinearities", "why_tests_cant": "Each combination of model, dimension, batch size and mode is a separate run; a test with one of them says nothing about the others, and a failure in the hook appears only after a whole epoch.", "anchors": ["demos/neurips20/cc.py:setup_cmdline_parsing", "demos/neurips20/cc.py:setup_shooting_block", "demos/neurips20/cc.py:train", "demos/neurips20/cc.py:test", "demos/neurips20/cc.py:hook_in", "demos/neurips20/cc.py:linear_transform_hook", "demos/neurips20/cc.py:setup_random_seed"]}
{"id": "C126", "title": "Decreasing times integrate backwards", "statement": "GenericIntegrator.integrate with a solver with fixed steps and a strictly decreasing time vector goes backwards: at every requested time which is a whole number of steps before the first, it returns the value of that many steps of length -h of the method with the same right-hand side, whether or not checkpoints are used.", "quantifier": "all right-hand sides, vectors, step sizes (floats or integers), decreasing time vectors, numbers of checkpoints and intervals between them", "why_tests_cant": "Tests integrate forwards; the sign of the right-hand side and of the times must both be turned, and checkpoints fail only for particular positions.", "anchors": ["neuro_shooting/generic_integrator.py:GenericIntegrator.integrate", "neuro_shooting/generic_integrator.py:GenericIntegrator.create_integration_time_intervals", "neuro_shooting/generic_integrator.py:GenericIntegrator._integrate_odeint"]}
{"id": "C124", "title": "A seed determines the run", "statement": "With --seed, the outcome of each demo program depends on the command line only, not on what was drawn from any random generator before; and experiments with the same seed and data options are trained on the same data whatever the model (as the comments in the programs say).", "quantifier": "all states and behaviours of the three random generators (Python, numpy, torch), all command lines and seeds, all that the program does after seeding", "why_tests_cant": "A test repeats a run in a fresh process with particular generators; it cannot range over generator states, and a dependence is only visible if something is drawn before seeding.", "anchors": ["neuro_shooting/utils.py:setup_random_seed", "demos/neurips20/cc.py:main", "demos/neurips20/cc.py:generate_data", "demos/neurips20/utils.py:ConcentricSphere", "demos/neurips20/rot.py:main", "demos/neurips20/balls.py:main", "demos/neurips20/spiral.py:main", "demos/neurips20/simple_functional_mapping_example.py:main"]}
{"id": "C127", "title": "Evaluations do not change what is trained on", "statement": "For a given seed, how often a run is evaluated or visualized (--test_freq, --viz_freq) does not change the samples trained on or their order.", "quantifier": "all generators, frequencies, numbers of epochs and other options", "why_tests_cant": "The order of shuffled samples depends on every earlier draw; tests do not compare runs with different frequencies.", "anchors": ["demos/neurips20/simple_functional_mapping_example.py:main", "demos/neurips20/simple_functional_mapping_example.py:get_function_data_loaders", "demos/neurips20/spiral.py:main", "demos/neurips20/spiral.py:FunctionDataset", "demos/neurips20/spiral.py:get_function_data_loaders"]}
{"id": "C128", "title": "The tensorboard hook shows the first layer once per tenth epoch", "statement": "With tensorboard_shooting_hooks.linear_transform_hook registered at an integrand, every pass through the block in an epoch divisible by ten writes the first two numbers of the bias and the weight of the layer l1 at time zero, once for the epoch and under that epoch as step; other epochs and times write nothing; the evolution is not changed, whatever model, solution (analytic or autodiff) and hook data.", "quantifier": "all times, parameter objects, hook data, entries written before; all vector models with analytic solutions; all right-hand sides, fixed-step methods, step sizes and sequences of passes over increasing times from zero on", "why_tests_cant": "No test registers the hook; whether it raises depends on the shape of the bias, which differs between analytic solutions and autodiff, and on the times the solver evaluates.", "anchors": ["neuro_shooting/tensorboard_shooting_hooks.py:linear_transform_hook", "neuro_shooting/shooting_integrands.py:ShootingIntegrandBase.compute_gradients", "neuro_shooting/shooting_models.py:AutoShootingIntegrandModelUpDown.optional_compute_parameters_analytic"]}
{"id": "C129", "title": "--evaluate_ahead of balls.py chooses the images which are compared", "statement": "With --evaluate_ahead k the evaluation of balls.py gives, for each sequence, the mean squared differences between the k images after the three given ones and those decoded from these three alone; values for which there are no such k images are refused.", "quantifier": "all integers k, batches of at least two sequences of at least 20 images, with or without channel axis; all layers, blocks and latent dimensions from two on", "why_tests_cant": "The slices never raise; a wrong range only changes numbers in a file, and only some of the infinitely many values of the option do.", "anchors": ["demos/neurips20/balls.py:evaluate"]}
{"id": "C131", "title": "Accepted command lines of rot.py train and save", "statement": "Every command line of rot.py that argparse accepts, with positive sizes, trains for the given number of epochs with the given batch size; with --save the files model.pt, tracker.pkl, args.pkl and images.pkl are written, the tracker having an entry per epoch with the error at the evaluated timepoint of every test sequence and their mean.", "quantifier": "all words on the command line, data of any number of sequences, all layers, blocks, orders of samples and timepoints, numbers of epochs from one on", "why_tests_cant": "A run takes hours and the failing settings fail only in the first training pass or in the first evaluation, depending on the number of test sequences.", "anchors": ["demos/neurips20/rot.py:setup_cmdline_parsing", "demos/neurips20/rot.py:evaluate", "demos/neurips20/rot.py:__main__", "demos/neurips20/utils.py:load_data"]}
{"id": "C132", "title": "Runs of balls.py which end well leave a model", "statement": "Every command line of balls.py that argparse accepts, with positive sizes, can be run, also repeatedly, and leaves the best model and its statistics in the directory given by --save_to.", "quantifier": "all words on the command line, three data sets of any numbers of sequences of at least 20 images, all layers, blocks, orders of samples, numbers of epochs from one on, existing paths", "why_tests_cant": "The failing settings fail after hours or only on a second run; that nothing was saved is seen only at the end.", "anchors": ["demos/neurips20/balls.py:setup_cmdline_parsing", "demos/neurips20/balls.py:__main__"]}
{"id": "C130", "title": "The training commands shown in the README work", "statement": "Every training command shown in the README of the NeurIPS 2020 demos, pasted into a shell, starts its script once with all the words shown, and the script accepts them.", "quantifier": "all six shown commands; in general all commands of plain words over any number of lines with any indentation and line ends; all parsers; for the runs that follow all data, layers, blocks, orders of samples", "why_tests_cant": "Documentation is not tested, the faults (a blank behind a backslash, a missing backslash) are invisible or hardly visible, and one of the broken commands runs, with other settings than shown.", "anchors": ["demos/neurips20/README.md", "demos/neurips20/simple_functional_mapping_example.py:setup_cmdline_parsing", "demos/neurips20/spiral.py:setup_cmdline_parsing", "demos/neurips20/cc.py:setup_cmdline_parsing", "demos/neurips20/rot.py:setup_cmdline_parsing", "demos/neurips20/balls.py:setup_cmdline_parsing"]}
{"id": "C133", "title": "Options reach the objects they describe", "statement": "For every accepted command line of the five demos the script builds a shooting block whose model, nonlinearity, sizes, weights, modes, initial conditions of data, integrator, step size, adjoint and checkpoints are what the options say; only the two particle-free modes together are refused.", "quantifier": "all command lines accepted by the parsers of spiral.py, simple_functional_mapping_example.py, cc.py, rot.py and balls.py; all values of numeric options", "why_tests_cant": "Values travel through several layers of keyword arguments, where unknown names are swallowed and forgotten ones fall back to defaults without any message; a test would have to look into the finished objects for each model and option.", "anchors": ["demos/neurips20/spiral.py:setup_shooting_block", "demos/neurips20/spiral.py:setup_integrator", "demos/neurips20/simple_functional_mapping_example.py:426-499", "demos/neurips20/cc.py:setup_shooting_block", "demos/neurips20/rot.py:setup_shooting_block", "demos/neurips20/balls.py:setup_shooting_block", "neuro_shooting/shooting_models.py", "neuro_shooting/shooting_integrands.py:ShootingIntegrandBase.__init__", "neuro_shooting/shooting_blocks.py:ShootingBlockBase.__init__"]}
{"id": "C134", "title": "The loss weighs similarity and norm penalty as asked", "statement": "The loss a demo minimizes is its similarity measure times --sim_weight plus the norm penalty of the block times --norm_weight, the latter unless --do_not_use_parameter_penalty_energy is given.", "quantifier": "all accepted command lines of the five demos; all values of similarity and penalty", "why_tests_cant": "A missing term does not make training fail, and weights are only visible in the value of the loss.", "anchors": ["demos/neurips20/spiral.py:compute_loss", "demos/neurips20/simple_functional_mapping_example.py:compute_loss", "demos/neurips20/cc.py:train", "demos/neurips20/rot.py:357-359", "demos/neurips20/balls.py:377-379"]}
{"id": "C135", "title": "A run trains and counts exactly the parameters of its model", "statement": "For every accepted command line with positive sizes, the optimizer of each demo receives every trainable tensor of the model it trains exactly once, frozen ones included, in groups with the learning rate and weight decay asked for, and nothing else; the learning-rate schedule is the one asked for; the parameter counts saved with a run are the counts of fixed, optimized and all values of these tensors.", "quantifier": "all command lines accepted by the five parsers, with positive sizes, not both particle-free modes and (for the functional mapping) a model whose class exists", "why_tests_cant": "A tensor missing from the optimizer or registered under a clashing name leaves training running, only with a part of the model fixed; which tensors exist depends on model, mode, number of particles and of time steps.", "anchors": ["demos/neurips20/spiral.py:setup_optimizer_and_scheduler", "demos/neurips20/spiral.py:538-551", "demos/neurips20/simple_functional_mapping_example.py:544-587", "demos/neurips20/simple_functional_mapping_example.py:661-680", "demos/neurips20/cc.py:384-396", "demos/neurips20/rot.py:308-326", "demos/neurips20/balls.py:338-356", "demos/neurips20/autoencoder.py:27-130", "neuro_shooting/shooting_blocks.py:203-247", "neuro_shooting/shooting_blocks.py:500-559", "neuro_shooting/utils.py:43-69"]}
{"id": "C136", "title": "Learning rates follow the schedule, whatever is displayed", "statement": "For every run of rot.py, balls.py and cc.py over n epochs, every training step of epoch k has the learning rate lr*(1+cos(pi*k/n))/2: it starts with lr, falls from epoch to epoch, stays positive, and no step of the scheduler fails. For every run of spiral.py and simple_functional_mapping_example.py and all losses, the rate of a training step is lr times a power of the factor; each reduction needs eleven evaluations (after the first, if its loss is a number); while every evaluated loss improves by more than a ten-thousandth the rate stays, and also with only one such improvement among any eleven evaluations in a row; if none improves on the first it is reduced with every eleventh. How often figures are shown has no influence on the rates.", "quantifier": "all epochs, learning rates, data, losses (also infinite and NaN), frequencies of tests and figures", "why_tests_cant": "The schedule is spread over setup, loop and scheduler, and its position relative to evaluation and display decides on rates in epochs far into a run; a test of a few epochs sees only the first rate.", "anchors": ["demos/neurips20/spiral.py:setup_optimizer_and_scheduler", "demos/neurips20/spiral.py:546-600", "demos/neurips20/simple_functional_mapping_example.py:setup_optimizer_and_scheduler", "demos/neurips20/simple_functional_mapping_example.py:581-650", "demos/neurips20/rot.py:226-229", "demos/neurips20/rot.py:330-388", "demos/neurips20/balls.py:238-241", "demos/neurips20/balls.py:362-425", "demos/neurips20/cc.py:392-419"]}
{"id": "C137", "title": "The linear data of spiral.py lie on the spiral", "statement": "With --linear, the training data of spiral.py are the points of the only solution of the differential equation through (2,0), the spiral 2*exp(-t/10)*(cos 2t, sin 2t), at equidistant times between 0 and 10.", "quantifier": "all command lines with --linear: sizes of the data, step sizes, checkpoints", "why_tests_cant": "The data come from the same fixed-step solver as the model; how far they are from the curve depends on step size and times together, and no test can compare with a solution for all of them.", "anchors": ["demos/neurips20/spiral.py:DiffEqRHS", "demos/neurips20/spiral.py:generate_data", "demos/neurips20/spiral.py:setup_integrator"]}
{"id": "C138", "title": "Starting points are offered in proportion to distance", "statement": "With distance based sampling, spiral.py offers each starting point of a window in proportion to the distance from it to the next point of the data.", "quantifier": "all data with positive distances, window lengths and roundings; all command lines with --linear", "why_tests_cant": "The numbers come from a ratio to the smallest of all distances, rounded; that each point is offered at all, and how unevenly, depends on the whole trajectory.", "anchors": ["demos/neurips20/spiral.py:create_uniform_distance_selection_array", "demos/neurips20/spiral.py:generate_data"]}
{"id": "C139", "title": "A block can be used on the device it is on", "statement": "After setup_device, or after moving a shooting block with to(), forward calls with data on that device work and give the results they give without devices.", "quantifier": "all GPUs, models, modes and sequences of calls of forward, to, parameters and the time setters", "why_tests_cant": "Which tensors are reached by a move depends on what has been registered by the whole history of calls, and needs several devices to show.", "anchors": ["neuro_shooting/utils.py:setup_device", "neuro_shooting/shooting_blocks.py:ShootingBlockBase.to", "neuro_shooting/shooting_blocks.py:ShootingBlockBase._apply", "neuro_shooting/shooting_integrands.py:ShootingIntegrandBase.create_default_parameter_objects_on_consistent_device"]}
{"id": "C140", "title": "Automatic and manual derivatives agree in autodiff_tries.py", "statement": "For all weights p and points x of one size, myFunction2AutoDiff and myFunction2Manual agree, myLoss and myLossManual have the same value and the same gradients in x and p, and the differences which the script prints are zero.", "quantifier": "all tensors p and x of one size, every differentiation which finds the partial derivatives where they exist", "why_tests_cant": "The script prints the differences for one random draw and leaves it to the reader to look at them; second derivatives through autograd.grad with create_graph are involved.", "anchors": ["tests/autodiff_tries.py:myFunction2AutoDiff", "tests/autodiff_tries.py:myFunction2Manual", "tests/autodiff_tries.py:myLoss", "tests/autodiff_tries.py:myLossManual"]}
{"id": "C141", "title": "A vector of times gives the results of the single times", "statement": "After set_integration_time_vector, forward returns at each time of the vector what it returns after set_integration_time with that time.", "quantifier": "all blocks, inputs, right-hand sides, increasing vectors of times, the methods euler, midpoint and rk4 with every step size, with and without checkpoints", "why_tests_cant": "Runs compare a few vectors of times; whether the rows agree depends on how the times lie on the grid of the solver, on the first time and on where the rows end up after disassembly.", "anchors": ["neuro_shooting/shooting_blocks.py:ShootingBlockBase.forward", "neuro_shooting/shooting_blocks.py:ShootingBlockBase.set_integration_time_vector", "neuro_shooting/shooting_blocks.py:ShootingBlockBase.set_integration_time", "neuro_shooting/generic_integrator.py:GenericIntegrator.integrate"]}
{"id": "C142", "title": "Only the distribution of the particles matters", "statement": "Exchanging particles, or repeating all of them equally often, together with their costates, changes neither the parameters computed from them nor the trajectories of the data; the trajectories of the particles are exchanged or repeated in the same way.", "quantifier": "all vector models with hand-written equations, all nonlinearities, sizes, weights of the penalty, numbers of particles, choices of particles in which each occurs equally often, data, methods euler, midpoint and rk4, step sizes and times", "why_tests_cant": "A run shows one order of the particles and equality up to rounding; that no index, mean over a wrong axis, loop bound or broadcasting makes one particle special is a statement about all numbers of particles and all choices.", "anchors": ["neuro_shooting/shooting_models.py:AutoShootingIntegrandModelUpDown.optional_compute_parameters_analytic", "neuro_shooting/shooting_models.py:AutoShootingIntegrandModelSimple.optional_compute_parameters_analytic", "neuro_shooting/shooting_models.py:AutoShootingIntegrandModelSimple.optional_rhs_advect_costate_analytic", "neuro_shooting/shooting_integrands.py:ShootingIntegrandBase.forward", "neuro_shooting/generic_integrator.py:GenericIntegrator.integrate"]}
{"id": "C143", "title": "Only the ratio of costates and parameter weight matters", "statement": "Multiplying all costates and the parameter weight (and the weight of the additional layer of the universal model) by the same number other than 0 leaves the computed layers and the trajectories of particles and data as they are, multiplies the trajectories of the costates by that number, and the penalty as well; no weight is the weight 1.", "quantifier": "all vector models with hand-written equations, all nonlinearities, sizes, weights other than 0, numbers of particles, states, costates and data of any shapes, methods euler, midpoint and rk4, step sizes and times", "why_tests_cant": "A run shows one factor and equality up to rounding; that every layer is divided by its own weight exactly once, and that the equations for the costates are linear in them for all shapes, is not visible in it.", "anchors": ["neuro_shooting/shooting_models.py:AutoShootingIntegrandModelUpDown.optional_compute_parameters_analytic", "neuro_shooting/shooting_models.py:AutoShootingIntegrandModelUpDownUniversal.optional_compute_parameters_analytic", "neuro_shooting/utils.py:divide_by_if_not_none", "neuro_shooting/shooting_integrands.py:ShootingIntegrandBase.compute_kinetic_energy", "neuro_shooting/overwrite_classes.py:RemoveParameters.add_weight"]}
{"id": "C144", "title": "Particles without costates have no influence", "statement": "Leaving out particles whose costates are zero does not change the derivatives and trajectories of the data and of the other particles.", "quantifier": "all vector models with hand-written equations, all nonlinearities, sizes, weights other than 0, numbers of particles with and without costates, states and data, methods euler, midpoint and rk4, step sizes and times", "why_tests_cant": "A run with a few particles shows different numbers for different numbers of particles anyway; which part of the difference is due to the number alone is a statement about all of them.", "anchors": ["neuro_shooting/shooting_models.py:AutoShootingIntegrandModelUpDown.optional_compute_parameters_analytic", "neuro_shooting/shooting_models.py:AutoShootingIntegrandModelSimple.optional_compute_parameters_analytic", "neuro_shooting/shooting_integrands.py:ShootingIntegrandBase.forward"]}
{"id": "C145", "title": "A trajectory shows the evolution and leaves the model as it was", "statement": "Model.trajectory(x, N) of cc.py returns the data at N evenly spread times from 0 to 1: first the data themselves, last what model(x) computes.  Afterwards the model computes what it computed before.", "quantifier": "all blocks with any parameters, data, numbers of times, right-hand sides, methods euler, midpoint and rk4 with any step size (for the state afterwards: all solvers)", "why_tests_cant": "The method is not called in any script; errors would show up as silently different results of later calls, which depend on how the trajectory ended and on how the block was made.", "anchors": ["demos/neurips20/cc.py:Model.trajectory", "demos/neurips20/cc.py:Model.forward", "neuro_shooting/shooting_blocks.py:ShootingBlockBase.set_integration_time", "neuro_shooting/shooting_blocks.py:ShootingBlockBase.set_integration_time_vector"]}
{"id": "C146", "title": "freeze_parameters of cc.py freezes the named parameters", "statement": "After freeze_parameters(block, names) of cc.py the named parameters, and only these, do not require gradients; an unknown name raises KeyError.", "quantifier": "all names and parameters", "why_tests_cant": "The function is defined but not called in the script; that it has no effect is visible only in gradients after the call.", "anchors": ["demos/neurips20/cc.py:freeze_parameters", "neuro_shooting/utils.py:freeze_parameters"]}
{"id": "C147", "title": "Mirrored particles and data have mirrored trajectories", "statement": "When states, costates and data all get the opposite sign, all later states, costates and data get the opposite sign, whatever the activation.", "quantifier": "all vector models with hand-written equations, all activations by name, sizes, weights, numbers of particles, states and data (also those which raise), methods euler, midpoint and rk4, step sizes and times", "why_tests_cant": "A symmetry relates pairs of runs; single runs, and pairs with one activation, cannot show for which activations it holds.", "anchors": ["neuro_shooting/shooting_models.py:AutoShootingIntegrandModelUpDown.rhs_advect_state", "neuro_shooting/shooting_models.py:AutoShootingIntegrandModelUpDown.optional_compute_parameters_analytic", "neuro_shooting/activation_functions_and_derivatives.py:get_nonlinearity"]}
{"id": "C148", "title": "Rotated data have rotated trajectories", "statement": "Applying one orthogonal map to the features of q1 of all particles, costates and data applies it to all their later values and leaves the inner variables as they are, whatever the model and its activation.", "quantifier": "all vector models with hand-written equations, all activations, numbers of features, orthogonal matrices, weights, particles and data (also those which raise), methods euler, midpoint and rk4, step sizes and times", "why_tests_cant": "The orthogonal maps are infinitely many, and a test with one of them (an exchange of two coordinates, say) succeeds for models for which others fail.", "anchors": ["neuro_shooting/shooting_models.py:AutoShootingIntegrandModelUpDown.rhs_advect_state", "neuro_shooting/shooting_models.py:AutoShootingIntegrandModelUpDown.optional_compute_parameters_analytic", "neuro_shooting/shooting_models.py:AutoShootingIntegrandModelSimple.rhs_advect_state"]}
{"id": "C149", "title": "Looking at the learned vector field", "statement": "visualize() draws, at each of the 21 x 21 places of the square from -2 to 2, the direction in which the model moves a sample that starts there, for models of first and second order, together with the particles, and leaves the model as it was.", "quantifier": "all blocks, integrands, solvers, times, shapes of true and predicted trajectories, both values of is_higher_order_model", "why_tests_cant": "The function ends in a figure; a wrong order of rows and columns or a model left with other times is not seen by looking at it.", "anchors": ["neuro_shooting/vector_visualization.py:visualize"]}
{"id": "C150", "title": "The order of the features does not matter", "statement": "Writing the features of q1 of all particles, costates and data in another order writes all their later values in that order and leaves the inner variables as they are; what raised an exception raises the same one.", "quantifier": "all vector models with hand-written equations, all activations with any derivative, numbers of features, permutations, weights, particles and data (shape (particles, 1, features) for the two simple models), methods euler, midpoint and rk4, step sizes and times", "why_tests_cant": "The number of permutations grows with the factorial of the number of features, and the runs are infinitely many.", "anchors": ["neuro_shooting/shooting_models.py:AutoShootingIntegrandModelGeneralUpDown.rhs_advect_state", "neuro_shooting/shooting_models.py:AutoShootingIntegrandModelSimple.optional_compute_parameters_analytic", "neuro_shooting/shooting_models.py:DEBUGAutoShootingIntegrandModelSimple.optional_rhs_advect_costate_analytic"]}
{"id": "C151", "title": "The output of a called script is shown without its comments", "statement": "call_python_script runs the script with the given arguments and prints the lines of its output which do not start with '#', in their order.", "quantifier": "all commands and all outputs of the script", "why_tests_cant": "Outputs are unboundedly many; and no test of the project calls the function.", "anchors": ["neuro_shooting/command_line_execution_tools.py:call_python_script"]}
{"id": "C152", "title": "Every stage has a log file of its own", "statement": "get_stage_log_filename never gives the same name for two different pairs of a stage and a process name (or no process name) in one directory.", "quantifier": "all directories, all integers as stages, all process names and none", "why_tests_cant": "Names and stages are unboundedly many, and clashes of such names (a stage 1 with a process 2 against stage 12) show up for particular pairs only.", "anchors": ["neuro_shooting/command_line_execution_tools.py:get_stage_log_filename"]}
{"id": "C153", "title": "A command gets its arguments as they are, and its failure is noticed", "statement": "execute_command runs one process with the command and exactly the given arguments, and what it returns or raises tells failure from success.", "quantifier": "all commands, lists of arguments with arbitrary characters, exit codes, with and without printing", "why_tests_cant": "The arguments are arbitrary strings; failures of the command depend on the environment.", "anchors": ["neuro_shooting/command_line_execution_tools.py:execute_command"]}
{"id": "C154", "title": "The order of the inner units does not matter", "statement": "Writing the units of q2 of all particles, costates and data in another order writes their later values in that order and leaves q1, its costate and the other variables as they are at all times; so predictions do not depend on the order, and what raised an exception raises the same one.", "quantifier": "the six vector models with inner units (up-down, universal, general, dampened q2, symmetrized, periodic), all activations with any derivative, numbers of units, permutations, weights, particles and data, methods euler, midpoint and rk4, step sizes and times", "why_tests_cant": "The number of permutations grows with the factorial of the number of units, and the runs are infinitely many.", "anchors": ["neuro_shooting/shooting_models.py:AutoShootingIntegrandModelUpDown.rhs_advect_state", "neuro_shooting/shooting_models.py:AutoShootingIntegrandModelUpDownUniversal.optional_compute_parameters_analytic", "neuro_shooting/shooting_models.py:AutoShootingIntegrandModelGeneralUpDown.optional_rhs_advect_costate_analytic"]}
{"id": "C155", "title": "Only the differences of the times matter", "statement": "Adding the same number to all integration times (and to the times at which the right-hand side looks) does not change the results or the exception; the shooting equations do not look at the time at all.", "quantifier": "all integrators, with or without checkpoints, option dictionaries, initial values, lists of times in either direction, numbers added, right-hand sides, methods euler, midpoint and rk4, and the other library", "why_tests_cant": "The offsets, lists of times and right-hand sides are infinitely many, and comparisons of times, grids and checkpoints each have to move along.", "anchors": ["neuro_shooting/generic_integrator.py:GenericIntegrator.integrate", "neuro_shooting/generic_integrator.py:GenericIntegrator.create_integration_time_intervals", "neuro_shooting/generic_integrator.py:GenericIntegrator._integrate_anode"]}
{"id": "C156", "title": "Without an activation predictions are affine in the data", "statement": "If no activation is chosen, then at every time the values for a mixture of two sets of data (for example their midpoint) are the same mixture of the values for the two sets, with the same particles and costates; so such a block can only represent affine maps, however long it integrates.", "quantifier": "all vector models with hand-written equations, particles, costates, pairs of data of one shape, weights of the mixture, methods euler, midpoint and rk4, step sizes and times", "why_tests_cant": "Data, mixtures and integration times are infinitely many.", "anchors": ["neuro_shooting/shooting_models.py:AutoShootingIntegrandModelUpDown.rhs_advect_state", "neuro_shooting/shooting_models.py:AutoShootingIntegrandModelGeneralUpDown.rhs_advect_state", "neuro_shooting/activation_functions_and_derivatives.py:identity"]}
{"id": "C157", "title": "Integrating to the last time and back returns to the start", "statement": "Integrating from x over increasing times and then from the last value over the same times in reverse order passes the same values in reverse order and ends at x; adjoint integration (use_adjoint_integration), which solves the equation backwards to recompute the states, relies on it.", "quantifier": "all right-hand sides, initial values, step sizes, lists of times and the methods euler, midpoint and rk4", "why_tests_cant": "A test compares a few starts up to a tolerance; whether the way back is exact, and how far off it is after any number of steps, concerns all starts, step sizes and numbers of steps.", "anchors": ["neuro_shooting/generic_integrator.py:GenericIntegrator.integrate", "neuro_shooting/generic_integrator.py:GenericIntegrator._integrate_odeint"]}
{"id": "C158", "title": "Larger costates are longer times", "statement": "Multiplying all costates by a factor has the effect of multiplying the integration times by it (and the step size by its absolute value): states and data arrive at the same values, and the costates are multiplied; negated costates lead back in time.", "quantifier": "all models with hand-written equations, activations, sizes, weights of the penalty, particles, data, factors other than zero, lists of times in either direction, options and the methods euler, midpoint and rk4", "why_tests_cant": "The factors, particles, activations and times are infinitely many, and a test in floating point cannot tell an identity from an approximation.", "anchors": ["neuro_shooting/shooting_models.py:AutoShootingIntegrandModelUpdownDampenedQ2", "neuro_shooting/shooting_models.py:AutoShootingIntegrandModelUpDown", "neuro_shooting/shooting_models.py:AutoShootingIntegrandModelSimple", "neuro_shooting/generic_integrator.py:GenericIntegrator._integrate_odeint"]}
