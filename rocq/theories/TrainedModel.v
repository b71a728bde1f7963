(** Which parameters the demos train, with which optimizer: the parameters of a shooting block (neuro_shooting/
    shooting_blocks.py = sb.py, shooting_models.py = sm.py), of the models around it (demos/neurips20/autoencoder.py = ae.py,
    cc.py), the optimizers and schedulers of demos/neurips20/spiral.py, simple_functional_mapping_example.py = sfm.py, cc.py,
    rot.py and balls.py, and the numbers saved with the results.

    Only names and sizes of parameters are modelled, not values.  Blocks are as built by SetupModel. *)
From Coq Require Import List String ZArith QArith Bool.
From Verif Require Import Base ArgparseModel ExperimentModel BlockModel IntegratorModel SetupModel.
Import ListNotations.
Open Scope string_scope.
Open Scope list_scope.
Open Scope nat_scope.

(** Size of a tensor (sm.py:243-252). *)
Definition size : Type := list Z.

(** [torch.randn], [torch.ones], [torch.zeros] of a size (external): negative sizes are refused (parameter_initialization.py:109-127). *)
Definition sized (s : size) : result size := if forallb (Z.leb 0) s then Ok s else Raise RuntimeError.

(** [self.name] used as a size (sm.py:243-252). *)
Definition int_attr (name : string) (g : SetupModel.integrand) : result Z :=
  match pd_get name (g_attrs g) with Some (KInt z) => Ok z | Some _ => Raise TypeError | None => Raise AttributeError end.

(** [create_parameters] of the vector initializers (parameter_initialization.py:78-103, 108-127). *)
Definition particles (name : string) (n dimension width : Z) : result (string * size) :=
  s <- sized [n; dimension; width] ;; Ok (name, s).

(** [create_initial_state_parameters], in the order of the sorted dictionary (sm.py:34-58, 145-159, 239-254, 463-478,
    688-703, 1142-1151, 1884-1899). *)
Definition initial_states (g : SetupModel.integrand) : result (sdict size) :=
  n <- int_attr "nr_of_particles" g ;; w <- int_attr "particle_size" g ;; dim <- int_attr "particle_dimension" g ;;
  q1 <- particles "q1" n dim w ;;
  if String.eqb (g_class g) "AutoShootingIntegrandModelSimple" then Ok [q1]
  else if String.eqb (g_class g) "AutoShootingIntegrandModelSecondOrder" then
    q2 <- particles "q2" n dim w ;; Ok [q1; q2]
  else
    f <- int_attr "inflation_factor" g ;; q2 <- particles "q2" n dim (w * f)%Z ;;
    if String.eqb (g_class g) "AutoShootingIntegrandModelDampenedUpDown" then
      c1 <- particles "c1" n 1%Z 1%Z ;; c2 <- particles "c2" n 1%Z 1%Z ;; Ok [c1; c2; q1; q2]
    else Ok [q1; q2].

(** [create_initial_costate_parameters]: one for every state, of the same size (shooting_integrands.py:438-457). *)
Definition initial_costates (states : sdict size) : sdict size :=
  map (fun kv => ("p_" ++ fst kv, snd kv)%string) states.

(** Parameters of [oc.SNN_Linear], as in its sorted dictionary (overwrite_classes.py:24-36, 85-89). *)
Definition linear_sizes (i o : Z) (bias : bool) : result (sdict size) :=
  w <- sized [o; i] ;; b <- sized [o] ;; Ok (if bias then [("bias", b); ("weight", w)] else [("weight", w)]).

(** [create_default_parameter_objects] (sm.py:60-73, 161-171, 256-266, 480-493, 705-728, 1153-1166, 1901-1913). *)
Definition layer_sizes (g : SetupModel.integrand) : result (sdict (sdict size)) :=
  d <- int_attr "in_features" g ;;
  let layer (x : string * Z * Z * bool) :=
    let '(name, i, o, bias) := x in l <- linear_sizes i o bias ;; Ok (name, l) in
  let with_inflation (k : Z -> result (sdict (sdict size))) := f <- int_attr "inflation_factor" g ;; k (d * f)%Z in
  let c := g_class g in
  if String.eqb c "AutoShootingIntegrandModelSimple" then mapM layer [("l1", d, d, true)]
  else if String.eqb c "AutoShootingIntegrandModelSecondOrder" then mapM layer [("l1", d, d, true); ("l2", d, d, true)]
  else if String.eqb c "AutoShootingIntegrandModelUpDownUniversal" then
    with_inflation (fun e => mapM layer [("l1", e, d, true); ("l2", d, e, true); ("l3", e, e, false)])
  else if String.eqb c "AutoShootingIntegrandModelUpdownPeriodic" then
    with_inflation (fun e => mapM layer [("l1", e, d, true); ("l2", d, e, true); ("l3", d, d, false)])
  else if String.eqb c "AutoShootingIntegrandModelGeneralUpDown" then
    with_inflation (fun e => mapM layer
      [("l11", e, d, true); ("l12", d, d, false); ("l13", d, d, false); ("l14", e, d, false);
       ("l21", d, e, true); ("l22", e, e, false); ("l23", e, e, false); ("l24", d, e, false)])
  else with_inflation (fun e => mapM layer [("l1", e, d, true); ("l2", d, e, true)]).

(** Parameters of an attribute of the integrand: a [Parameter], the two of an [nn.Linear], or none (sm.py:222-237). *)
Definition attribute_parameters (name : string) (v : kw) : list (string * size) :=
  match v with
  | KObject "Parameter" [("rows", KInt r); ("columns", KInt c)] => [(name, [r; c])]
  | KObject "Linear" [("in_features", KInt i); ("out_features", KInt o)] =>
      [((name ++ ".weight")%string, [o; i]); ((name ++ ".bias")%string, [o])]
  | _ => []
  end.

(** [integrand.named_parameters()] (sb.py:503): parameters come before those of submodules; no model has both. *)
Definition integrand_parameters (g : SetupModel.integrand) : list (string * size) :=
  flat_map (fun kv => attribute_parameters (fst kv) (snd kv)) (g_attrs g).

(** Attributes of a block which are no parameters: its own (sb.py:91-283, 294-631) ... *)
Definition own_attributes : list string :=
  ["_block_name"; "_forward_not_yet_executed"; "shooting_integrand"; "integration_time"; "integration_time_vector"; "integrator";
   "integrator_name"; "integrator_library"; "integrator_options"; "use_adjoint_integration"; "_state_parameter_dict";
   "keep_state_parameters_at_zero"; "enlarge_pass_through_states_and_costates"; "use_particle_free_rnn_mode";
   "_particle_free_rnn_parameter_func"; "use_particle_free_time_dependent_mode"; "nr_of_particle_free_time_dependent_steps";
   "_costate_parameter_dict"; "_pass_through_state_dict_of_dicts_enlargement_parameters";
   "_pass_through_costate_dict_of_dicts_enlargement_parameters"; "parameters"; "get_norm_penalty"; "set_integration_time";
   "set_integration_time_vector"; "_apply"; "to"; "create_initial_state_and_costate_parameters"; "register_integrand_parameters";
   "register_particle_free_parameters"; "register_state_and_costate_parameters"; "forward"].
(** ... and the public ones of every module (torch.nn.Module, external; sb.py:89). *)
Definition module_attributes : list string :=
  ["training"; "add_module"; "apply"; "bfloat16"; "buffers"; "children"; "cpu"; "cuda"; "double"; "dump_patches"; "eval"; "extra_repr";
   "float"; "half"; "load_state_dict"; "modules"; "named_buffers"; "named_children"; "named_modules"; "named_parameters";
   "register_backward_hook"; "register_buffer"; "register_forward_hook"; "register_forward_pre_hook"; "register_parameter";
   "requires_grad_"; "share_memory"; "state_dict"; "train"; "type"; "zero_grad"].
(** [hasattr(block, name)] before the name is registered (sb.py:506, 522, 548, 557). *)
Definition block_attribute (name : string) : bool := str_in name (own_attributes ++ module_attributes).

(** The number of parameter sets of a particle-free block (sb.py:16-27, 217-221; ParamFuncModel). *)
Definition parameter_sets (m : made) : nat :=
  if m_free_rnn m then 1 else if (1 <? m_steps m)%Z then Z.to_nat (m_steps m) else 1.

(** The size of what a registered name refers to (sb.py:500-557). *)
Definition size_of (states : sdict size) (layers : sdict (sdict size)) (integrand : list (string * size)) (o : pobj) : result size :=
  match o with
  | OState k => sd_item k states
  | OCostate k => sd_item k (initial_costates states)
  | OFree _ l k => ps <- sd_item l layers ;; sd_item k ps
  | OIntegrand k => sd_item k integrand
  | OEnlarge _ => Raise KeyError
  end.

(** The constructor of a block from sb.py:203 on, and [named_parameters()] of the result: the integrand is a submodule, its
    parameters are registered with the block as well, and each is named only once (torch). *)
Definition block_parameters (m : made) : result (pdict size) :=
  let g := m_integrand m in
  states <- initial_states g ;;
  let integrand := integrand_parameters g in
  layers <- (if m_free_rnn m || m_free_time m then layer_sizes g else Ok []) ;;
  registry <- (if m_free_rnn m || m_free_time m then
                 register_free block_attribute (repeat (map (fun l => (fst l, map fst (snd l))) layers) (parameter_sets m)) []
               else register_state_and_costate block_attribute (Some states) (Some (initial_costates states)) false []) ;;
  registry <- register_integrand block_attribute (map fst integrand) registry ;;
  mapM (fun no => s <- size_of states layers integrand (snd no) ;; Ok (fst no, s)) registry.

(** ** The models around the blocks *)

(** Parameters of [nn.Conv2d], [nn.ConvTranspose2d], [nn.BatchNorm2d], [nn.BatchNorm1d], [nn.Linear] (external; ae.py:34-62, cc.py:40-43). *)
Definition conv_parameters (name : string) (i o k : Z) : list (string * size) :=
  [((name ++ ".weight")%string, [o; i; k; k]); ((name ++ ".bias")%string, [o])].
(** See [conv_parameters]; the channels are the other way round (ae.py:49-60). *)
Definition conv_transpose_parameters (name : string) (i o k : Z) : list (string * size) :=
  [((name ++ ".weight")%string, [i; o; k; k]); ((name ++ ".bias")%string, [o])].
(** See [conv_parameters] (ae.py:36, cc.py:42). *)
Definition norm_parameters (name : string) (c : Z) : list (string * size) :=
  [((name ++ ".weight")%string, [c]); ((name ++ ".bias")%string, [c])].
(** See [conv_parameters] (ae.py:45-46, cc.py:43). *)
Definition dense_parameters (name : string) (i o : Z) (bias : bool) : list (string * size) :=
  ((name ++ ".weight")%string, [o; i]) :: (if bias then [((name ++ ".bias")%string, [o])] else []).

(** ae.py:28-62 [ShootingAE] (three images) and 93-128 [ShootingAEMasked] (one image) *)
Definition autoencoder_parameters (images n_filt shooting_dim : Z) : list (string * size) :=
  let h_dim := (n_filt * 4 ^ 3)%Z in
  (conv_parameters "encoder.0" images n_filt 5 ++ norm_parameters "encoder.1" n_filt ++
   conv_parameters "encoder.3" n_filt (n_filt * 2) 5 ++ norm_parameters "encoder.4" (n_filt * 2) ++
   conv_parameters "encoder.6" (n_filt * 2) (n_filt * 4) 5 ++
   dense_parameters "fc1" h_dim shooting_dim true ++ dense_parameters "fc2" shooting_dim h_dim true ++
   conv_transpose_parameters "decoder.1" (h_dim / 16) (n_filt * 8) 3 ++ norm_parameters "decoder.2" (n_filt * 8) ++
   conv_transpose_parameters "decoder.4" (n_filt * 8) (n_filt * 4) 5 ++ norm_parameters "decoder.5" (n_filt * 4) ++
   conv_transpose_parameters "decoder.7" (n_filt * 4) (n_filt * 2) 5 ++ norm_parameters "decoder.8" (n_filt * 2) ++
   conv_transpose_parameters "decoder.10" (n_filt * 2) 1 5)%Z.

(** The names of a submodule's parameters ([named_parameters], torch; rot.py:326). *)
Definition prefixed (p : string) (l : list (string * size)) : list (string * size) := map (fun x => ((p ++ fst x)%string, snd x)) l.

(** The classifier of cc.py:40-43. *)
Definition classifier_parameters : list (string * size) := norm_parameters "cls.0" 2 ++ dense_parameters "cls.1" 2 1 false.

(** ** Optimizers *)

(** A parameter group of Adam: parameters, learning rate, weight decay (spiral.py:197, cc.py:392-395). *)
Record group : Type := mkGroup { gr_params : list (string * size); gr_lr : Q; gr_decay : Q }.
(** The scheduler: cosine annealing over a number of steps, or a factor for plateaus (spiral.py:200, cc.py:396, sfm.py:137). *)
Inductive schedule : Type := Cosine (steps : Z) | Plateau (factor : Q).
(** What a demo trains with (cc.py:392-396). *)
Definition training : Type := (list group * schedule)%type.

(** [torch.optim.Adam] (external; spiral.py:197, sfm.py:134, cc.py:392-395, rot.py:228, balls.py:240) refuses a negative learning rate;
    the weight decay of a single group is not checked. *)
Definition adam (groups : list group) (lr : Q) : result (list group) :=
  if Qle_bool 0 lr then Ok groups else Raise ValueError.

(** spiral.py:543 with 194-202: the parameters are asked for after a first pass (line 516); the default factor of the
    scheduler is 0.1. *)
Definition spiral_training (ns : pdict argval) (m : made) : result training :=
  ps <- block_parameters m ;; lr <- num_of "lr" ns ;;
  gs <- adam [mkGroup ps lr 0] lr ;; Ok (gs, Plateau (1 # 10)).
(** sfm.py:544-573 with 132-139, with the shooting block *)
Definition mapping_training (ns : pdict argval) (m : made) : result training :=
  ps <- block_parameters m ;; lr <- num_of "lr" ns ;;
  gs <- adam [mkGroup ps lr 0] lr ;; Ok (gs, Plateau (1 # 2)).
(** cc.py:384-396 *)
Definition cc_training (ns : pdict argval) (m : made) : result training :=
  ps <- block_parameters m ;; decay <- num_of "cls_weight_decay" ns ;; lr <- num_of "lr" ns ;; n <- int_of "niters" ns ;;
  gs <- adam [mkGroup (prefixed "blk." ps) lr 0; mkGroup classifier_parameters lr decay] lr ;; Ok (gs, Cosine n).
(** rot.py:308-326 with 226-230 (eight filters, one image), balls.py:338-356 with 238-242 (sixteen, three) *)
Definition image_training (images n_filt : Z) (ns : pdict argval) (m : made) : result training :=
  d <- int_of "shooting_dim" ns ;; ps <- block_parameters m ;; lr <- num_of "lr" ns ;; n <- int_of "niters" ns ;;
  gs <- adam [mkGroup (autoencoder_parameters images n_filt d ++ prefixed "blk." ps) lr 0] lr ;; Ok (gs, Cosine n).

(** ** Saved numbers of parameters *)

(** [np.prod(list(pv.size()))] (utils.py:52) *)
Definition numel (s : size) : Z := fold_left Z.mul s 1%Z.

(** utils.py:43-69 [compute_number_of_parameters]: (fixed, optimized, overall); [frozen]: the names of parameters without gradients *)
Definition number_of_parameters (frozen : list string) (ps : list (string * size)) : Z * Z * Z :=
  let '(fixed, optimized) :=
    fold_left (fun s kv => let '(f, o) := s in
                 if str_in (fst kv) frozen then (f + numel (snd kv), o)%Z else (f, o + numel (snd kv))%Z) ps (0, 0)%Z in
  (fixed, optimized, fixed + optimized)%Z.

(** The values saved with the results: positions frozen before the training (spiral.py:539-541, sfm.py:565-567) are free again if
    the epoch given for that is one of those which are run (spiral.py:546-551, sfm.py:583-587), counted after the training
    (spiral.py:623-627, sfm.py:661-680).  Freezing an unknown name raises (utils.py:88). *)
Definition saved_numbers (ns : pdict argval) (m : made) : result (Z * Z * Z) :=
  ps <- block_parameters m ;;
  freezing <- flag_of "custom_parameter_freezing" ns ;; at_ <- int_of "unfreeze_parameters_at_iter" ns ;; niters <- int_of "niters" ns ;;
  let uses_particles := negb (m_free_rnn m || m_free_time m) in
  if uses_particles && freezing then
    _ <- sd_item "q1" ps ;;
    Ok (number_of_parameters (if (0 <=? at_)%Z && (at_ <=? niters)%Z then [] else ["q1"]) ps)
  else Ok (number_of_parameters [] ps).
