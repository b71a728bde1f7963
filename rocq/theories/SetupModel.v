(** Model of how the scripts spiral.py, simple_functional_mapping_example.py (sfm.py), cc.py, rot.py and balls.py (all in
    demos/neurips20) turn their options into integrator, shooting model, shooting block, optimizer and loss, with the
    constructors of neuro_shooting/shooting_models.py (sm.py), shooting_integrands.py (si.py) and shooting_blocks.py
    (sb.py).

    Constructors are called with keyword arguments as in Python: parameters which a class does not name itself travel
    on to its base class in [**kwargs], and the last class swallows the unknown ones.  Simplified: the tensors which a
    constructor creates are not modelled here (initial particles: [InitModel]; parameters of particle-free blocks:
    [BlockModel]), so what torch does with sizes below 1 is left out; rtol and atol of integrators are left out;
    printing is left out. *)
From Coq Require Import List String Arith ZArith QArith Qcanon Bool.
From Verif Require Import Base ArgparseModel ExperimentModel CirclesModel ImagesModel IntegratorModel ActivationModel.
Import ListNotations.
Open Scope string_scope.
Open Scope list_scope.
Open Scope nat_scope.

(** Values of keyword arguments and attributes (sm.py:412-437); objects with their class and arguments. *)
Inductive kw : Type :=
| KNone | KBool (b : bool) | KInt (z : Z) | KNum (q : Q) | KText (s : string)
| KObject (cls : string) (args : list (string * kw)).

(** ** Calls with keyword arguments (Python's calling convention; sm.py:19-27) *)

(** [f(a=.., **d)]: a name given twice is refused. *)
Definition keywords (explicit starred : pdict kw) : result (pdict kw) :=
  if existsb (fun p => sd_mem (fst p) explicit) starred then Raise TypeError else Ok (explicit ++ starred).

(** The parameters a function names, with their defaults, get their values; a missing one without default is refused. *)
Fixpoint bind_params (params : list (string * option kw)) (given : pdict kw) : result (pdict kw) :=
  match params with
  | [] => Ok []
  | (n, d) :: r =>
      v <- match pd_get n given, d with
           | Some v, _ => Ok v
           | None, Some v => Ok v
           | None, None => Raise TypeError
           end ;;
      rest <- bind_params r given ;; Ok ((n, v) :: rest)
  end.

(** What is left for [**kwargs]. *)
Definition left_over (params : list (string * option kw)) (given : pdict kw) : pdict kw :=
  filter (fun p => negb (sd_mem (fst p) params)) given.

(** A parameter inside the function (sm.py:20-27). *)
Definition var (n : string) (own : pdict kw) : result kw :=
  match pd_get n own with Some v => Ok v | None => Raise NameError end.
(** An attribute of [self] (sm.py:440). *)
Definition attr (n : string) (self : pdict kw) : result kw :=
  match pd_get n self with Some v => Ok v | None => Raise AttributeError end.

(** A class: parameters of [__init__], the names it passes to its base class by keyword, and what it does after that
    (first argument: the attributes so far, second: its parameters). *)
Record class_def : Type := mkClass {
  c_params : list (string * option kw);
  c_super : list string;
  c_body : pdict kw -> pdict kw -> result (pdict kw) }.

(** [C(...)] for a class with its base classes, the nearest first (sm.py:15-31, si.py:820-832, 859-871, 957-987). *)
Fixpoint construct (chain : list class_def) (given : pdict kw) : result (pdict kw) :=
  match chain with
  | [] => Ok []
  | c :: up =>
      own <- bind_params (c_params c) given ;;
      explicit <- mapM (fun n => v <- var n own ;; Ok (n, v)) (c_super c) ;;
      passed <- keywords explicit (left_over (c_params c) given) ;;
      self <- construct up passed ;;
      c_body c self own
  end.

(** ** The classes *)

(** The parameters all integrands have in common (sm.py:15-16, si.py:19-20, 820-822, 859-861, 957-958). *)
Definition common : list (string * option kw) :=
  [("in_features", None); ("nonlinearity", Some KNone); ("transpose_state_when_forward", Some (KBool false));
   ("concatenate_parameters", Some (KBool true)); ("nr_of_particles", Some (KInt 10)); ("particle_dimension", Some (KInt 1));
   ("particle_size", Some (KInt 2)); ("parameter_weight", Some KNone)].
(** ... which every class passes on (sm.py:19-27, si.py:824-832). *)
Definition common_names : list string := map fst common.

(** [ad.get_nonlinearity] as far as it refuses names (si.py:39). *)
Definition check_nonlinearity (v : kw) : result unit :=
  match v with
  | KNone => _ <- get_nonlinearity None ;; Ok tt
  | KText s => _ <- get_nonlinearity (Some s) ;; Ok tt
  | _ => Raise AttributeError
  end.

(** si.py:19-90 [ShootingIntegrandBase.__init__]; the function for the nonlinearity is shown by its name. *)
Definition integrand_base : class_def := mkClass
  (common ++ [("use_analytic_solution", Some (KBool false)); ("optimize_over_data_initial_conditions", Some (KBool false));
              ("optimize_over_data_initial_conditions_type", Some (KText "linear")); ("use_rnn_mode", Some (KBool false));
              ("is_pass_through", Some (KBool false))])
  []
  (fun _ own =>
     nl <- var "nonlinearity" own ;; _ <- check_nonlinearity nl ;; Ok (("_state_initializer", KNone) :: ("_costate_initializer", KNone) :: own)).

(** si.py:820-832 and 859-871: these constructors only pass on. *)
Definition autograd_base : class_def := mkClass common common_names (fun self _ => Ok self).

(** The default initializer (si.py:977, 982; parameter_initialization.py:7-11). *)
Definition default_initializer : kw := KObject "VectorEvolutionParameterInitializer" [].

(** si.py:957-987 [ShootingLinearInParameterVectorIntegrand.__init__]. *)
Definition vector_integrand : class_def := mkClass
  (common ++ [("state_initializer", Some KNone); ("costate_initializer", Some KNone)]) common_names
  (fun self own =>
     s <- var "state_initializer" own ;; c <- var "costate_initializer" own ;;
     let pick v := match v with KNone => default_initializer | _ => v end in
     Ok (pd_set "_costate_initializer" (pick c) (pd_set "_state_initializer" (pick s) self))).

(** The base classes of all vector models (sm.py:13, 130, 198, 410, 647, 1126, 1839; si.py:819, 858, 956). *)
Definition vector_bases : list class_def := [vector_integrand; autograd_base; autograd_base; integrand_base].

(** [a * b] for sizes (sm.py:223). *)
Definition times (a b : kw) : result kw :=
  match a, b with KInt x, KInt y => Ok (KInt (x * y)) | _, _ => Raise TypeError end.

(** The initial conditions of data are predicted by one of three ways (sm.py:216-237, 440-461, 665-686, 1859-1883). *)
Definition data_init (self own : pdict kw) : result (pdict kw) :=
  flag <- attr "optimize_over_data_initial_conditions" self ;;
  match flag with
  | KBool true =>
      ty <- attr "optimize_over_data_initial_conditions_type" self ;;
      match ty with
      | KText s =>
          pd <- var "particle_dimension" own ;; ps <- var "particle_size" own ;; f <- var "inflation_factor" own ;;
          n <- var "in_features" own ;;
          if String.eqb (lower s) "direct" then
            w <- times ps f ;; Ok (pd_set "data_q20" (KObject "Parameter" [("rows", pd); ("columns", w)]) self)
          else if String.eqb (lower s) "linear" then
            w <- times n f ;; Ok (pd_set "simple_init" (KObject "Linear" [("in_features", n); ("out_features", w)]) self)
          else if String.eqb (lower s) "mini_nn" then
            w <- times n f ;;
            Ok (pd_set "init_l2" (KObject "Linear" [("in_features", KInt 10); ("out_features", w)])
                 (pd_set "init_l1" (KObject "Linear" [("in_features", n); ("out_features", KInt 10)]) self))
          else Raise ValueError
      | _ => Raise AttributeError
      end
  | KBool false => Ok (pd_set "data_q20" KNone self)
  | _ => Raise TypeError
  end.

(** [self.inflation_factor = inflation_factor] (sm.py:31, 214, 430, 662, 1854). *)
Definition set_inflation (self own : pdict kw) : result (pdict kw) :=
  f <- var "inflation_factor" own ;; Ok (pd_set "inflation_factor" f self).

(** sm.py:15-31 [AutoShootingIntegrandModelDampenedUpDown]. *)
Definition DampenedUpDown : class_def :=
  mkClass (common ++ [("inflation_factor", Some (KInt 5))]) common_names set_inflation.
(** sm.py:131-143 [AutoShootingIntegrandModelSecondOrder]. *)
Definition SecondOrder : class_def := mkClass common common_names (fun self _ => Ok self).
(** sm.py:200-237 [AutoShootingIntegrandModelUpDown]. *)
Definition UpDown : class_def :=
  mkClass (common ++ [("inflation_factor", Some (KInt 5))]) common_names
    (fun self own => self <- set_inflation self own ;; data_init self own).
(** sm.py:412-461 [AutoShootingIntegrandModelUpDownUniversal]. *)
Definition UpDownUniversal : class_def :=
  mkClass (common ++ [("inflation_factor", Some (KInt 5)); ("optional_weight", Some (KInt 10))]) common_names
    (fun self own =>
       self <- set_inflation self own ;; w <- var "optional_weight" own ;;
       data_init (pd_set "weighting_factor" w self) own).
(** sm.py:649-686 [AutoShootingIntegrandModelGeneralUpDown]. *)
Definition GeneralUpDown : class_def :=
  mkClass (common ++ [("inflation_factor", Some (KInt 5))]) common_names
    (fun self own => self <- set_inflation self own ;; data_init (pd_set "dampening_factor" (KNum 0) self) own).
(** sm.py:1128-1140 [AutoShootingIntegrandModelSimple]. *)
Definition Simple : class_def := mkClass common common_names (fun self _ => Ok self).
(** sm.py:1841-1883 [AutoShootingIntegrandModelUpdownPeriodic]. *)
Definition UpdownPeriodic : class_def :=
  mkClass (common ++ [("inflation_factor", Some (KInt 5))]) common_names
    (fun self own => self <- set_inflation self own ;; data_init (pd_set "dampening_factor" (KNum (- (1 # 2))) self) own).

(** The vector models of the module by name (sm.py:13, 130, 198, 410, 647, 1126, 1839). *)
Definition model_classes : pdict class_def :=
  [("AutoShootingIntegrandModelDampenedUpDown", DampenedUpDown); ("AutoShootingIntegrandModelSecondOrder", SecondOrder);
   ("AutoShootingIntegrandModelUpDown", UpDown); ("AutoShootingIntegrandModelUpDownUniversal", UpDownUniversal);
   ("AutoShootingIntegrandModelGeneralUpDown", GeneralUpDown); ("AutoShootingIntegrandModelSimple", Simple);
   ("AutoShootingIntegrandModelUpdownPeriodic", UpdownPeriodic)].

(** An integrand: class and attributes. *)
Record integrand : Type := mkIntegrand { g_class : string; g_attrs : pdict kw }.

(** [shooting_models.C(..., **d)]: a module has only the attributes it defines (sfm.py:470-485). *)
Definition new_integrand (cls : string) (explicit starred : pdict kw) : result integrand :=
  match pd_get cls model_classes with
  | None => Raise AttributeError
  | Some c => given <- keywords explicit starred ;; a <- construct (c :: vector_bases) given ;; Ok (mkIntegrand cls a)
  end.

(** [smodel.set_state_initializer] (si.py:115-116). *)
Definition set_state_initializer (i : kw) (g : integrand) : integrand :=
  mkIntegrand (g_class g) (pd_set "_state_initializer" i (g_attrs g)).

(** ** Blocks *)

(** A block as far as options determine it (sb.py:91-200): integrand, integrator with its options, modes, and the end
    of the default time interval. *)
Record made : Type := mkMade {
  m_integrand : integrand; m_integrator : IntegratorModel.integrator; m_options : pdict optval;
  m_free_rnn : bool; m_free_time : bool; m_steps : Z; m_end : Q }.

(** sb.py:91-200 [ShootingBlockBase.__init__] after the integrator is known; both modes together are refused. *)
Definition new_block (g : integrand) (i : IntegratorModel.integrator) (h : heap) (free_rnn free_time : bool) (steps : Z)
    (max_time : option Q) : result made :=
  if free_time && free_rnn then Raise ValueError
  else Ok (mkMade g i (heap_get h (i_options i)) free_rnn free_time steps (match max_time with Some t => t | None => 1%Q end)).

(** setup_integrator (spiral.py:113-125, cc.py:149-162, rot.py:145-159, balls.py:144-158): a step size only for methods with a
    fixed one. *)
Definition setup_integrator (method : string) (use_adjoint : bool) (step_size : Q) (nr_of_checkpoints : option Z)
    (checkpointing_time_interval : option Qc) : heap * result IntegratorModel.integrator :=
  let options := if str_in method ["dopri5"; "adams"] then [] else [("step_size", ONum (Q2Qc step_size))] in
  new_integrator [options] (Some "odeint") (Some method) use_adjoint (Some 0) None nr_of_checkpoints checkpointing_time_interval.

(** Values of options (spiral.py:467-514). *)
Definition num_of (name : string) (ns : pdict argval) : result Q :=
  match pd_get name ns with Some (ANum q) => Ok q | Some _ => Raise TypeError | None => Raise AttributeError end.
(** The same as keyword arguments (spiral.py:503-513). *)
Definition as_kw (v : argval) : kw :=
  match v with AInt z => KInt z | ANum q => KNum q | AText s => KText s | AFlag b => KBool b end.
(** [args.name] (spiral.py:503-513). *)
Definition arg (name : string) (ns : pdict argval) : result kw :=
  match pd_get name ns with Some v => Ok (as_kw v) | None => Raise AttributeError end.

(** The initializer of initial particles (spiral.py:181, cc.py:135-137, rot.py:211-213, balls.py:223-225). *)
Definition random_initializer (magnitude : Q) : kw :=
  KObject "VectorEvolutionParameterInitializer"
    [("only_random_initialization", KBool true); ("random_initialization_magnitude", KNum magnitude)].

(** *** spiral.py *)

(** spiral.py:126-190 [setup_shooting_block] up to the model *)
Definition spiral_integrand (model : string) (pw n infl nl rnn opt ty analytic weight : kw) : result integrand :=
  let sizes := [("in_features", KInt 2); ("nonlinearity", nl); ("parameter_weight", pw)] in
  let particles := [("nr_of_particles", n); ("particle_dimension", KInt 1); ("particle_size", KInt 2)] in
  let data := [("optimize_over_data_initial_conditions", opt); ("optimize_over_data_initial_conditions_type", ty)] in
  if String.eqb model "updown" then
    new_integrand "AutoShootingIntegrandModelUpDown"
      (sizes ++ [("inflation_factor", infl)] ++ particles ++ [("use_analytic_solution", analytic); ("use_rnn_mode", rnn)] ++ data) []
  else if String.eqb model "updown_universal" then
    new_integrand "AutoShootingIntegrandModelUpDownUniversal"
      (sizes ++ [("inflation_factor", infl)] ++ particles ++ [("use_analytic_solution", analytic); ("use_rnn_mode", rnn)] ++ data
         ++ [("optional_weight", weight)]) []
  else if String.eqb model "periodic" then
    new_integrand "AutoShootingIntegrandModelUpdownPeriodic"
      (sizes ++ [("inflation_factor", infl)] ++ particles ++ [("use_analytic_solution", analytic); ("use_rnn_mode", rnn)] ++ data) []
  else if String.eqb model "simple" then
    new_integrand "AutoShootingIntegrandModelSimple"
      (sizes ++ particles ++ [("use_analytic_solution", KBool true); ("use_rnn_mode", rnn)]) []
  else Raise UnboundLocalError.

(** spiral.py:467-514 with 113-190; [max_time] is the last time of a sample (line 499).  The parameter for it is misspelled, the
    function reads the global variable (lines 136, 188). *)
Definition spiral_setup (ns : pdict argval) (max_time : Q) : result made :=
  interval <- num_of "checkpointing_time_interval" ns ;;
  number <- int_of "nr_of_checkpoints" ns ;;
  method <- text_of "method" ns ;; step <- num_of "stepsize" ns ;; adjoint <- flag_of "adjoint" ns ;;
  let '(h, made_integrator) :=
    setup_integrator method adjoint step (if (0 <? number)%Z then Some number else None)
      (if negb (Qle_bool interval 0) then Some (Q2Qc interval) else None) in
  i <- made_integrator ;;
  model <- text_of "shooting_model" ns ;; pw <- arg "pw" ns ;; n <- arg "nr_of_particles" ns ;; infl <- arg "inflation_factor" ns ;;
  nl <- arg "nonlinearity" ns ;; rnn <- arg "use_particle_rnn_mode" ns ;; free <- flag_of "use_particle_free_rnn_mode" ns ;;
  time <- flag_of "use_particle_free_time_dependent_mode" ns ;; steps <- int_of "nr_of_particle_free_time_dependent_steps" ns ;;
  opt <- arg "optimize_over_data_initial_conditions" ns ;; ty <- arg "optimize_over_data_initial_conditions_type" ns ;;
  auto <- flag_of "do_not_use_analytic_solution" ns ;; weight <- arg "optional_weight" ns ;;
  g <- spiral_integrand model pw n infl nl rnn opt ty (KBool (negb auto)) weight ;;
  new_block (set_state_initializer (random_initializer 1) g) i h free time steps (Some max_time).

(** *** cc.py, rot.py and balls.py *)

(** cc.py:71-133, rot.py:162-208, balls.py:161-220; [with_periodic]: cc.py and balls.py have a branch for a model which
    no command line can ask for. *)
Definition image_integrand (with_periodic : bool) (model : string) (d pw n infl nl rnn opt ty : kw) : result integrand :=
  let sizes := [("in_features", d); ("nonlinearity", nl); ("parameter_weight", pw)] in
  let particles := [("nr_of_particles", n); ("particle_dimension", KInt 1); ("particle_size", d)] in
  let data := [("optimize_over_data_initial_conditions", opt); ("optimize_over_data_initial_conditions_type", ty)] in
  if String.eqb model "updown" then
    new_integrand "AutoShootingIntegrandModelUpDown"
      (sizes ++ [("inflation_factor", infl)] ++ particles ++ [("use_analytic_solution", KBool true); ("use_rnn_mode", rnn)] ++ data) []
  else if String.eqb model "updown_universal" then
    new_integrand "AutoShootingIntegrandModelUpDownUniversal"
      (sizes ++ [("inflation_factor", infl)] ++ particles ++
         [("use_analytic_solution", KBool true); ("optional_weight", KNum (1 # 10)); ("use_rnn_mode", rnn)] ++ data) []
  else if with_periodic && String.eqb model "periodic" then
    new_integrand "AutoShootingIntegrandModelUpdownPeriodic"
      (sizes ++ [("inflation_factor", infl)] ++ particles ++ [("use_analytic_solution", KBool true); ("use_rnn_mode", rnn)] ++ data) []
  else if String.eqb model "simple" then
    new_integrand "AutoShootingIntegrandModelSimple"
      (sizes ++ particles ++ [("use_analytic_solution", KBool true); ("use_rnn_mode", rnn)]) []
  else Raise UnboundLocalError.

(** cc.py:357-383 with 71-162, rot.py:278-300 with 145-223, balls.py:295-317 with 144-235 *)
Definition image_setup (with_periodic : bool) (ns : pdict argval) : result made :=
  method <- text_of "method" ns ;; step <- num_of "stepsize" ns ;;
  let '(h, made_integrator) := setup_integrator method false step None None in
  i <- made_integrator ;;
  d <- arg "shooting_dim" ns ;; model <- text_of "shooting_model" ns ;; pw <- arg "pw" ns ;; n <- arg "nr_of_particles" ns ;;
  infl <- arg "inflation_factor" ns ;; nl <- arg "nonlinearity" ns ;; rnn <- arg "use_particle_rnn_mode" ns ;;
  free <- flag_of "use_particle_free_rnn_mode" ns ;;
  opt <- arg "optimize_over_data_initial_conditions" ns ;; ty <- arg "optimize_over_data_initial_conditions_type" ns ;;
  g <- image_integrand with_periodic model d pw n infl nl rnn opt ty ;;
  new_block (set_state_initializer (random_initializer (1 # 2)) g) i h free false 10%Z None.

(** *** simple_functional_mapping_example.py *)

(** sfm.py:470-485; the class of 'universal' does not exist. *)
Definition mapping_integrand (model : string) (kwargs : pdict kw) (infl rnn : kw) : result integrand :=
  let analytic := ("use_analytic_solution", KBool true) in
  let inflation := ("inflation_factor", infl) in
  let mode := ("use_rnn_mode", rnn) in
  if String.eqb model "simple" then new_integrand "AutoShootingIntegrandModelSimple" [analytic; mode] kwargs
  else if String.eqb model "2nd_order" then new_integrand "AutoShootingIntegrandModelSecondOrder" [mode] kwargs
  else if String.eqb model "updown" then new_integrand "AutoShootingIntegrandModelUpDown" [analytic; inflation; mode] kwargs
  else if String.eqb model "updown_universal" then
    new_integrand "AutoShootingIntegrandModelUpDownUniversal" [analytic; inflation; mode] kwargs
  else if String.eqb model "general_updown" then
    new_integrand "AutoShootingIntegrandModelGeneralUpDown" [analytic; inflation; mode] kwargs
  else if String.eqb model "periodic" then
    new_integrand "AutoShootingIntegrandModelUpdownPeriodic" [analytic; inflation; mode] kwargs
  else if String.eqb model "dampened_updown" then
    new_integrand "AutoShootingIntegrandModelDampenedUpDown" [inflation; mode] kwargs
  else if String.eqb model "universal" then
    new_integrand "AutoShootingIntegrandModelUniversal" [analytic; inflation; mode] kwargs
  else Raise NameError.

(** sfm.py:443-499; the initializer of line 438 is used by nothing. *)
Definition mapping_setup (ns : pdict argval) : result made :=
  nl <- arg "nonlinearity" ns ;; n <- arg "nr_of_particles" ns ;; pw <- arg "pw" ns ;;
  opt <- arg "optimize_over_data_initial_conditions" ns ;; ty <- arg "optimize_over_data_initial_conditions_type" ns ;;
  weight <- arg "optional_weight" ns ;;
  let kwargs :=
    [("in_features", KInt 1); ("nonlinearity", nl); ("nr_of_particles", n); ("parameter_weight", pw);
     ("particle_dimension", KInt 1); ("particle_size", KInt 1);
     ("costate_initializer", KObject "VectorEvolutionParameterInitializer" [("random_initialization_magnitude", KNum (1 # 10))]);
     ("optimize_over_data_initial_conditions", opt); ("optimize_over_data_initial_conditions_type", ty);
     ("optional_weight", weight)] in
  infl <- arg "inflation_factor" ns ;; rnn <- arg "use_particle_rnn_mode" ns ;; free <- flag_of "use_particle_free_rnn_mode" ns ;;
  model <- text_of "shooting_model" ns ;;
  g <- mapping_integrand model kwargs infl rnn ;;
  method <- text_of "method" ns ;; time <- flag_of "use_particle_free_time_dependent_mode" ns ;;
  steps <- int_of "nr_of_particle_free_time_dependent_steps" ns ;; step <- num_of "stepsize" ns ;;
  let '(h, made_integrator) :=
    new_integrator [[("step_size", ONum (Q2Qc step))]] (Some "odeint") (Some method) false (Some 0) None None None in
  i <- made_integrator ;;
  new_block g i h free time steps None.

(** ** Losses *)

(** From the similarity (the mean over a batch, without weight) and the norm penalty of the block (spiral.py:448-460).  [--sim_norm]
    chooses the similarity. *)
Definition spiral_loss (ns : pdict argval) (l1 l2 penalty : Q) : result Q :=
  norm <- text_of "sim_norm" ns ;; w <- num_of "sim_weight" ns ;;
  sim <- (if String.eqb norm "l1" then Ok (w * l1)%Q else if String.eqb norm "l2" then Ok (w * l2)%Q else Raise ValueError) ;;
  off <- flag_of "do_not_use_parameter_penalty_energy" ns ;;
  nw <- num_of "norm_weight" ns ;;
  Ok (sim + (if off then 0 else nw * penalty))%Q.
(** sfm.py:355-374 with the block *)
Definition mapping_loss (ns : pdict argval) (similarity penalty : Q) : result Q :=
  w <- num_of "sim_weight" ns ;; off <- flag_of "do_not_use_parameter_penalty_energy" ns ;; nw <- num_of "norm_weight" ns ;;
  Ok (w * similarity + (if off then 0 else nw * penalty))%Q.
(** cc.py:289-291: the norm penalty is commented out *)
Definition cc_loss (ns : pdict argval) (similarity penalty : Q) : result Q :=
  w <- num_of "sim_weight" ns ;; Ok (w * similarity)%Q.
(** rot.py:357-359, balls.py:377-379 *)
Definition image_loss (ns : pdict argval) (similarity penalty : Q) : result Q :=
  w <- num_of "sim_weight" ns ;; nw <- num_of "norm_weight" ns ;; Ok (w * similarity + nw * penalty)%Q.
